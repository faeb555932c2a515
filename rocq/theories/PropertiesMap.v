(* C41, C71: value maps and the types bound to their names. *)
Require Import Verif.Base Verif.BaseFacts Verif.IntModel Verif.IntSpec Verif.Text Verif.OidModel Verif.OidSpec
  Verif.MapModel Verif.MapSpec Verif.MapProofs Verif.Tables Verif.MapTables.

(* ---- C41 for the maps of users ---- *)
(* a map with one key per name: both directions, after any earlier use of the class *)
Theorem C41_user_map_both_ways (nd : Z -> bool) (m : list (text * text)) (l : list act) (k n : text) :
  is_dict m -> one_key_per_name m -> In (k, n) m ->
  let c := after nd l (declare m None) in
  oid_map c k = Ok n /\ snd (oid_unmap nd c n) = Ok k.
Proof. intros D J I. exact (both_ways nd m _ k n (in_use_after nd l m) D J I). Qed.
Print Assumptions C41_user_map_both_ways.

(* texts that are no entry: digits separated by single dots, an OID among
   them, stand for themselves, anything else is refused *)
Theorem C41_user_map_other_texts (nd : Z -> bool) (m : list (text * text)) (l : list act) (s : text) :
  (forall c, 48 <= c <= 57 -> nd c = true) -> nd 46 = false ->
  let c := after nd l (declare m None) in
  (~ is_key m s -> oid_map c s = Ok s) /\
  (is_oid s -> dotted_digits nd s) /\
  (~ is_name m s -> dotted_digits nd s -> snd (oid_unmap nd c s) = Ok s) /\
  (~ is_name m s -> ~ dotted_digits nd s -> snd (oid_unmap nd c s) = Err ValueError).
Proof. intros A B. exact (others_unchanged nd A B m _ s (in_use_after nd l m)). Qed.
Print Assumptions C41_user_map_other_texts.

(* a name of several keys is written as the last of them, which reads as that name *)
Theorem C41_last_key_is_written (nd : Z -> bool) (m : list (text * text)) (l : list act) (n : text) :
  is_dict m -> is_name m n ->
  let c := after nd l (declare m None) in
  exists k, last_with_name m k n /\ snd (oid_unmap nd c n) = Ok k /\ oid_map c k = Ok n.
Proof. intros D N. exact (last_wins nd m _ n (in_use_after nd l m) D N). Qed.
Print Assumptions C41_last_key_is_written.

(* the octets: a name is written as its identifier and read back as itself; whatever
   identifier is read, writing the result gives the same octets *)
Theorem C41_user_map_reencodes (nd : Z -> bool) (m : list (text * text)) (l : list act) :
  is_dict m -> one_key_per_name m -> oid_keys m ->
  let c := after nd l (declare m None) in
  (forall k n, In (k, n) m -> exists b, snd (oid_make c n) = Ok b /\ encodes k b /\
     snd (oid_read c b) = n /\ oid_native c (Some n) b = n) /\
  (forall s b, encodes s b -> snd (oid_make c (snd (oid_read c b))) = Ok b).
Proof. intros D J O. exact (user_reencode m _ (in_use_after nd l m) D J O). Qed.
Print Assumptions C41_user_map_reencodes.

Definition ex_map : list (text * text) := [(tx "1.2.3", tx "one"); (tx "2.999.1", tx "two")].
Definition ex_nd (c : Z) : bool := (48 <=? c) && (c <=? 57).
Lemma ex_map_dict : is_dict ex_map.
Proof. exact (txm_dict [("1.2.3", "one"); ("2.999.1", "two")]%string eq_refl). Qed.
Lemma ex_map_one : one_key_per_name ex_map.
Proof. exact (txm_one [("1.2.3", "one"); ("2.999.1", "two")]%string eq_refl). Qed.
Lemma ex_map_oids : oid_keys ex_map.
Proof. exact (keysb_ok [("1.2.3", "one"); ("2.999.1", "two")]%string eq_refl). Qed.
Example C41_user_map_ex : is_dict ex_map /\ one_key_per_name ex_map /\ oid_keys ex_map /\
  let c := after ex_nd [AMake (tx "two"); ARead [42; 3]] (declare ex_map None) in
  oid_map c (tx "1.2.3") = Ok (tx "one") /\ snd (oid_unmap ex_nd c (tx "two")) = Ok (tx "2.999.1") /\
  snd (oid_make c (tx "two")) = Ok [136; 55; 1] /\ snd (oid_read c [136; 55; 1]) = tx "two" /\
  snd (oid_unmap ex_nd c (tx "1.2.9")) = Ok (tx "1.2.9") /\ snd (oid_unmap ex_nd c (tx "three")) = Err ValueError /\
  snd (oid_unmap ex_nd c (tx "1.2.")) = Err ValueError /\ snd (oid_unmap ex_nd c (tx "1..2")) = Err ValueError.
Proof.
  split; [exact ex_map_dict|]. split; [exact ex_map_one|]. split; [exact ex_map_oids|]. vm_compute. repeat split.
Qed.
Example C41_last_key_is_written_ex :
  last_with_name [(tx "1.2.3", tx "a"); (tx "1.2.4", tx "a")] (tx "1.2.4") (tx "a") /\
  snd (oid_unmap ex_nd (declare [(tx "1.2.3", tx "a"); (tx "1.2.4", tx "a")] None) (tx "a")) = Ok (tx "1.2.4").
Proof. split; [|vm_compute; reflexivity]. exists [(tx "1.2.3", tx "a")], []. split; [reflexivity|cbn; tauto]. Qed.

(* numbers: the map of an Integer and of an Enumerated *)
Theorem C41_integer_map_both_ways (m : list (Z * text)) (l : list iact) : is_dict m -> one_key_per_name m ->
  let c := iafter l (declare m None) in
  (forall k n, In (k, n) m -> exists b, snd (int_make c (IName n)) = Ok (b, IName n) /\ bytes_ok b /\
     twos_value b = k /\ snd (int_read c b) = IName n) /\
  (forall n, ~ is_name m n -> snd (int_make c (IName n)) = Err ValueError) /\
  (forall b, bytes_ok b -> exists b', snd (int_make c (snd (int_read c b))) = Ok (b', snd (int_read c b)) /\
     bytes_ok b' /\ twos_value b' = twos_value b).
Proof.
  intros D J c. pose proof (iin_use_after l m) as U. split; [|split].
  - intros k n I. exact (int_both m c k n U D J I).
  - intros n N. exact (int_unknown_name m c n U N).
  - intros b B. exact (int_reencode m c b U D J B).
Qed.
Print Assumptions C41_integer_map_both_ways.

Theorem C41_enumerated_map_both_ways (m : list (Z * text)) (l : list iact) : is_dict m -> one_key_per_name m ->
  let c := iafter l (declare m None) in
  (forall k n, In (k, n) m -> exists b, snd (enum_make c (IName n)) = Ok (b, IName n) /\
     snd (enum_make c (INum k)) = Ok (b, IName n) /\ bytes_ok b /\ twos_value b = k /\ snd (enum_read c b) = Ok n) /\
  (forall n, ~ is_name m n -> snd (enum_make c (IName n)) = Err ValueError) /\
  (forall z, ~ is_key m z -> snd (enum_make c (INum z)) = Err ValueError) /\
  (forall b, bytes_ok b -> ~ is_key m (twos_value b) -> snd (enum_read c b) = Err KeyError).
Proof.
  intros D J c. pose proof (iin_use_after l m) as U. split.
  - intros k n I. exact (enum_both m c k n U D J I).
  - exact (enum_unknown m c U).
Qed.
Print Assumptions C41_enumerated_map_both_ways.

Example C41_numbers_ex :
  let m := [(0, tx "v1"); (-200, tx "odd")] in
  is_dict m /\ one_key_per_name m /\
  (let c := iafter [IRead [5]] (declare m None) in
   snd (int_make c (IName (tx "odd"))) = Ok ([255; 56], IName (tx "odd")) /\
   snd (int_read c [255; 56]) = IName (tx "odd") /\ snd (int_read c [7]) = INum 7 /\
   snd (enum_read c [7]) = Err KeyError /\ snd (enum_make c (INum 7)) = Err ValueError).
Proof.
  cbv zeta. split; [exact (txz_dict [(0, "v1"); (-200, "odd")]%string eq_refl)|].
  split; [exact (txz_one [(0, "v1"); (-200, "odd")]%string eq_refl)|]. vm_compute. repeat split.
Qed.

(* ---- C41 for the maps of the library ---- *)
(* every object identifier map, as its module declares it and after any use: each entry is
   read under its name, its name is written as an identifier of that name, which is the
   same one unless it is one of the five aliases, and other identifiers keep their octets *)
Theorem C41_library_maps (nd : Z -> bool) (nm : str) (m : list (str * str)) (l : list act) :
  In (nm, m) oid_maps ->
  let c := after nd l (lib_cls nm m) in
  (forall k n, In (k, n) m -> exists k',
     In (k', n) m /\ (k' = k \/ In (nm, k) aliases) /\
     oid_map c (tx k) = Ok (tx n) /\
     snd (oid_unmap nd c (tx n)) = Ok (tx k') /\ oid_map c (tx k') = Ok (tx n) /\
     exists b, snd (oid_make c (tx n)) = Ok b /\ encodes (tx k') b /\
       snd (oid_read c b) = tx n /\ oid_native c (Some (tx n)) b = tx n) /\
  (forall s b, encodes s b -> (forall a, s = tx a -> ~ In (nm, a) aliases) ->
     snd (oid_make c (snd (oid_read c b))) = Ok b).
Proof. exact (library_consistent nd nm m l). Qed.
Print Assumptions C41_library_maps.

(* the same for the maps pdf and tsp add to, if they are imported before the first use *)
Theorem C41_library_maps_with_imports (nd : Z -> bool) (nm : str) (m : list (str * str)) (l : list act)
  (pdf tsp : list (str * str)) :
  In (nm, m) oid_maps -> explicit_rev nm = None ->
  pdf = additions added_pdf nm \/ pdf = [] -> tsp = additions added_tsp nm \/ tsp = [] ->
  let c := after nd l (import_into (import_into (lib_cls nm m) pdf) tsp) in
  let m' := joined (joined m pdf) tsp in
  (forall k n, In (k, n) m' -> exists k',
     In (k', n) m' /\ (k' = k \/ In (nm, k) aliases) /\
     oid_map c (tx k) = Ok (tx n) /\
     snd (oid_unmap nd c (tx n)) = Ok (tx k') /\ oid_map c (tx k') = Ok (tx n) /\
     exists b, snd (oid_make c (tx n)) = Ok b /\ encodes (tx k') b /\
       snd (oid_read c b) = tx n /\ oid_native c (Some (tx n)) b = tx n) /\
  (forall s b, encodes s b -> (forall a, s = tx a -> ~ In (nm, a) aliases) ->
     snd (oid_make c (snd (oid_read c b))) = Ok b).
Proof. exact (imported_consistent nd nm m l pdf tsp). Qed.
Print Assumptions C41_library_maps_with_imports.

Theorem C41_library_numbers (nm : str) (m : list (Z * str)) :
  In (nm, m) (int_maps ++ enum_maps ++ bit_maps) -> is_dict (txz m) /\ one_key_per_name (txz m).
Proof. exact (numbers_facts nm m). Qed.
Print Assumptions C41_library_numbers.

Example C41_library_ex :
  In ("algos.SignedDigestAlgorithmId"%string, map_algos_SignedDigestAlgorithmId) oid_maps /\
  In ("1.3.14.3.2.29", "sha1_rsa")%string map_algos_SignedDigestAlgorithmId /\
  In ("algos.SignedDigestAlgorithmId", "1.3.14.3.2.29")%string aliases /\
  (let c := lib_cls "algos.SignedDigestAlgorithmId" map_algos_SignedDigestAlgorithmId in
   snd (oid_read c [43; 14; 3; 2; 29]) = tx "sha1_rsa" /\
   snd (oid_make c (tx "sha1_rsa")) = Ok [42; 134; 72; 134; 247; 13; 1; 1; 5]) /\
  In ("crl.CRLReason"%string, map_crl_CRLReason) enum_maps /\ In (1, "key_compromise"%string) map_crl_CRLReason.
Proof.
  split; [apply sget_in; reflexivity|]. split; [apply sget_in; reflexivity|].
  split; [right; left; reflexivity|]. split; [vm_compute; auto|].
  split; [apply sget_in; reflexivity|]. right. left. reflexivity.
Qed.
Example C41_imports_ex : explicit_rev "cms.ContentType" = None /\
  additions added_tsp "cms.ContentType" = [("1.2.840.113549.1.9.16.1.4", "tst_info"); ("1.2.840.113549.1.9.16.1.31", "timestamped_data")]%string /\
  snd (oid_unmap ex_nd (import_into (lib_cls "cms.ContentType" map_cms_ContentType) (additions added_tsp "cms.ContentType")) (tx "tst_info"))
    = Ok (tx "1.2.840.113549.1.9.16.1.4").
Proof. vm_compute. auto. Qed.

(* NamedCurve.register keeps the map consistent, whenever it is called *)
Theorem C41_register_both_ways (nd : Z -> bool) (m : list (text * text)) (l l' : list act) (oid name : text) :
  is_dict m -> one_key_per_name m -> ~ is_key m oid -> ~ is_name m name ->
  let c := after nd l' (register eqb_text (after nd l (declare m None)) oid name) in
  forall k n, (k = oid /\ n = name) \/ In (k, n) m ->
    oid_map c k = Ok n /\ snd (oid_unmap nd c n) = Ok k.
Proof.
  intros D J NK NN c k n I.
  apply (both_ways nd (m ++ [(oid, name)]) c k n).
  - apply after_in_use, register_in_use; [apply in_use_after|exact NK].
  - now apply snoc_dict.
  - now apply snoc_injective.
  - apply in_app_iff. destruct I as [[-> ->]|I]; [right; now left|now left].
Qed.
Print Assumptions C41_register_both_ways.
Example C41_register_ex : ~ is_key ex_map (tx "1.2.8") /\ ~ is_name ex_map (tx "mine") /\
  snd (oid_unmap ex_nd (register eqb_text (after ex_nd [AMake (tx "one")] (declare ex_map None)) (tx "1.2.8") (tx "mine")) (tx "mine"))
    = Ok (tx "1.2.8").
Proof.
  rewrite key_iff, name_iff. split; [|split; [|vm_compute; reflexivity]];
    vm_compute; intros [H|[H|[]]]; discriminate H.
Qed.

(* every curve has a key size, also the registered ones *)
Theorem C41_every_curve_has_a_size (k : str) :
  In k (map fst map_keys_NamedCurve) <-> In k (map fst key_sizes).
Proof.
  assert (A : forallb (fun k => sin k (map fst key_sizes)) (map fst map_keys_NamedCurve) = true) by (vm_compute; reflexivity).
  assert (B : forallb (fun k => sin k (map fst map_keys_NamedCurve)) (map fst key_sizes) = true) by (vm_compute; reflexivity).
  rewrite forallb_forall in A, B. split; intro I; apply sin_iff; auto.
Qed.
Print Assumptions C41_every_curve_has_a_size.
Example C41_every_curve_has_a_size_ex : In "1.3.132.0.34"%string (map fst map_keys_NamedCurve) /\
  sget key_sizes "1.3.132.0.34" = Some 48.
Proof. split; [apply sin_iff; vm_compute; reflexivity|reflexivity]. Qed.

(* AnyAlgorithmId reads the identifiers of the three tables it copies, *)
Theorem C41_any_algorithm_reads_partial (nd : Z -> bool) (l : list act) (k n : str) (b : bytes) :
  In (k, n) (map_algos_DigestAlgorithmId ++ map_algos_SignedDigestAlgorithmId ++
    filter (fun kv => negb (String.eqb (fst kv) "1.2.840.113549.1.1.1")) map_algos_EncryptionAlgorithmId) ->
  encodes (tx k) b -> snd (oid_read (after nd l any_algorithm_id) b) = tx n.
Proof. exact (any_reads_ok nd l k n b). Qed.
Print Assumptions C41_any_algorithm_reads_partial.
Example C41_any_algorithm_reads_ex : In ("1.3.14.3.2.26", "sha1")%string map_algos_DigestAlgorithmId /\
  oid_encode (tx "1.3.14.3.2.26") = Ok [43; 14; 3; 2; 26] /\
  snd (oid_read any_algorithm_id [43; 14; 3; 2; 26]) = tx "sha1".
Proof. split; [apply sget_in; reflexivity|]. vm_compute. auto. Qed.

(* but it has no reverse map: neither a name nor an OID can be written, after any use *)
Theorem C41_any_algorithm_unusable (nd : Z -> bool) (l : list act) (s : text) :
  snd (oid_unmap nd (after nd l any_algorithm_id) s) = Err TypeError /\
  snd (oid_make (after nd l any_algorithm_id) s) = Err TypeError.
Proof. exact (any_unusable nd l s). Qed.
Print Assumptions C41_any_algorithm_unusable.
Theorem C41_any_algorithm_refuted : exists b n,
  snd (oid_read any_algorithm_id b) = n /\ n = tx "sha256" /\
  snd (oid_make any_algorithm_id n) = Err TypeError /\
  snd (oid_make any_algorithm_id (tx "2.16.840.1.101.3.4.2.1")) = Err TypeError /\
  snd (oid_unmap ex_nd any_algorithm_id n) = Err TypeError.
Proof. exists [96; 134; 72; 1; 101; 3; 4; 2; 1], (tx "sha256"). vm_compute. auto. Qed.
Print Assumptions C41_any_algorithm_refuted.

(* an entry added after the first use can be read but not written *)
Theorem C41_late_entry_refuted : exists c b n,
  c = import_into (after ex_nd [AMake (tx "data")] (lib_cls "cms.ContentType" map_cms_ContentType))
        (additions added_tsp "cms.ContentType") /\
  snd (oid_read c b) = n /\ n = tx "tst_info" /\
  snd (oid_unmap ex_nd c n) = Err ValueError /\ snd (oid_make c n) = Err ValueError.
Proof.
  eexists. exists [42; 134; 72; 134; 247; 13; 1; 9; 16; 1; 4], (tx "tst_info").
  split; [reflexivity|]. vm_compute. auto.
Qed.
Print Assumptions C41_late_entry_refuted.

(* importing pdf renames an identifier of KeyPurposeId: the old name no longer works, or
   after an earlier use is written but read under the new name *)
Theorem C41_import_renames_refuted : exists n,
  n = tx "adobe_authentic_documents_trust" /\
  let c := lib_cls "x509.KeyPurposeId" map_x509_KeyPurposeId in
  let pdf := additions added_pdf "x509.KeyPurposeId" in
  snd (oid_make c n) = Ok [42; 134; 72; 134; 247; 47; 1; 1; 5] /\
  snd (oid_make (import_into c pdf) n) = Err ValueError /\
  snd (oid_make (import_into (use c) pdf) n) = Ok [42; 134; 72; 134; 247; 47; 1; 1; 5] /\
  snd (oid_read (import_into (use c) pdf) [42; 134; 72; 134; 247; 47; 1; 1; 5]) = tx "pdf_signing".
Proof. eexists. split; [reflexivity|]. vm_compute. auto. Qed.
Print Assumptions C41_import_renames_refuted.

(* a subclass with a map of its own inherits the reverse map of a class already used *)
Theorem C41_subclass_map_refuted : exists m m' k n,
  is_dict m /\ one_key_per_name m /\ is_dict m' /\ one_key_per_name m' /\ In (k, n) m' /\
  snd (oid_unmap ex_nd (subclass m' (declare m None)) n) = Ok k /\
  snd (oid_unmap ex_nd (subclass m' (use (declare m None))) n) = Err ValueError /\
  oid_map (subclass m' (use (declare m None))) k = Ok n.
Proof.
  exists ex_map, [(tx "1.2.5", tx "five")], (tx "1.2.5"), (tx "five").
  split; [exact ex_map_dict|]. split; [exact ex_map_one|].
  split; [exact (txm_dict [("1.2.5", "five")]%string eq_refl)|].
  split; [exact (txm_one [("1.2.5", "five")]%string eq_refl)|].
  split; [now left|]. vm_compute. auto.
Qed.
Print Assumptions C41_subclass_map_refuted.

(* a map with one key per name, one of the names being a key: the object says something
   else than its octets *)
Theorem C41_name_is_key_refuted : exists m n b,
  is_dict m /\ one_key_per_name m /\ is_name m n /\
  snd (oid_make (declare m None) n) = Ok b /\
  oid_native (use (declare m None)) (Some n) b <> snd (oid_read (declare m None) b).
Proof.
  exists [(tx "1.2.3", tx "1.2.4"); (tx "1.2.4", tx "x")], (tx "1.2.4"), [42; 3].
  split; [exact (txm_dict [("1.2.3", "1.2.4"); ("1.2.4", "x")]%string eq_refl)|].
  split; [exact (txm_one [("1.2.3", "1.2.4"); ("1.2.4", "x")]%string eq_refl)|].
  split; [exists (tx "1.2.3"); now left|]. vm_compute. split; [reflexivity|discriminate].
Qed.
Print Assumptions C41_name_is_key_refuted.

(* a second name for an identifier: written, but read under the first name *)
Theorem C41_second_name_refuted : exists n b,
  let c := lib_cls "cms.KeyEncryptionAlgorithmId" map_cms_KeyEncryptionAlgorithmId in
  n = tx "rsa" /\ snd (oid_make c n) = Ok b /\ oid_native (use c) (Some n) b = n /\ snd (oid_read c b) = tx "rsaes_pkcs1v15".
Proof. exists (tx "rsa"), [42; 134; 72; 134; 247; 13; 1; 1; 1]. vm_compute. auto. Qed.
Print Assumptions C41_second_name_refuted.

(* unmap returns texts that are no object identifier *)
Theorem C41_unmap_not_an_oid_refuted : exists s t,
  snd (oid_unmap ex_nd (declare ex_map None) s) = Ok s /\ snd (oid_make (declare ex_map None) s) = Err ValueError /\
  snd (oid_unmap ex_nd (declare ex_map None) t) = Ok t /\ In 10 t.
Proof. exists (tx "9.99"), [49; 46; 50; 10]. vm_compute. auto 10. Qed.
Print Assumptions C41_unmap_not_an_oid_refuted.

(* ---- C71: the type bound to a name is the type of some identifier ---- *)
Theorem C71_bound_types_reachable_partial (nd : Z -> bool) (x idc : str) (specs : list (str * str)) (k t : str) (l : list act) :
  In (x, (idc, specs)) spec_tables -> In (k, t) specs ->
  (x <> "pkcs12.Attribute" \/ k <> "microsoft_csp_name")%string ->
  (exists m o b, In (idc, m) oid_maps /\ encodes (tx o) b /\
     snd (oid_read (after nd l (full_cls idc m)) b) = tx k) \/
  (exists m z, In (idc, m) int_maps /\ In (z, k) m).
Proof. exact (specs_reachable nd x idc specs k t l). Qed.
Print Assumptions C71_bound_types_reachable_partial.
Theorem C71_one_type_per_name (x idc : str) (specs : list (str * str)) :
  In (x, (idc, specs)) spec_tables -> NoDup (map fst specs).
Proof. exact (specs_functional x idc specs). Qed.
Print Assumptions C71_one_type_per_name.
Example C71_ex : In ("cms.ContentInfo", ("cms.ContentType", specs_cms_ContentInfo))%string spec_tables /\
  In ("signed_data", "SignedData")%string specs_cms_ContentInfo /\
  snd (oid_read (full_cls "cms.ContentType" map_cms_ContentType) [42; 134; 72; 134; 247; 13; 1; 7; 2]) = tx "signed_data".
Proof. split; [apply sget_in; reflexivity|]. split; [apply sget_in; reflexivity|]. vm_compute. reflexivity. Qed.

(* no PKCS#12 attribute type is ever read as microsoft_csp_name; its identifier has
   another name, for which there is no type *)
Theorem C71_csp_name_refuted : exists t,
  In ("microsoft_csp_name"%string, t) specs_pkcs12_Attribute /\
  (forall nd l b,
     snd (oid_read (after nd l (full_cls "pkcs12.AttributeType" map_pkcs12_AttributeType)) b) <> tx "microsoft_csp_name") /\
  sget map_pkcs12_AttributeType "1.3.6.1.4.1.311.17.1" = Some "microsoft_local_machine_keyset"%string /\
  sget specs_pkcs12_Attribute "microsoft_local_machine_keyset" = None.
Proof.
  exists "SetOfBMPString"%string. split; [apply sget_in; reflexivity|]. split; [|split; reflexivity].
  intros nd l b.
  change (full_cls "pkcs12.AttributeType" map_pkcs12_AttributeType)
    with (declare (txm map_pkcs12_AttributeType) None).
  rewrite (read_state (txm map_pkcs12_AttributeType) None _ b (in_use_after nd l _)).
  destruct (dget eqb_text (txm map_pkcs12_AttributeType) (oid_dotted b)) as [n|] eqn:E;
    [|apply oid_dotted_no_letter; reflexivity].
  apply (dget_in eqb_text text_ok), in_txm in E. destruct E as (a & v & _ & -> & I).
  intro F. apply tx_inj in F. subst v. vm_compute in I.
  repeat (destruct I as [I|I]; [discriminate I|]). exact I.
Qed.
Print Assumptions C71_csp_name_refuted.
