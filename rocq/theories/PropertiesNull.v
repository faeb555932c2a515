(* C78: algorithm identifiers have the parameters that their algorithm needs. *)
Require Import Verif.Base Verif.BaseFacts Verif.Text Verif.OidModel Verif.OidSpec Verif.MapModel Verif.MapSpec Verif.MapProofs
  Verif.Tables Verif.MapTables Verif.AlgoProofs Verif.KeyModel Verif.NullModel Verif.NullSpec Verif.NullProofs.
Require Import Coq.Strings.String.
Import List ListNotations.
Import Coq.Strings.String.StringSyntax.

(* for each class, after any use of it: assigning an RSA key or one of the SHA-2 signatures
   to identifiers without parameters gives NULL *)
Theorem C78_null_partial : forall nd h nm m s oid v b a,
  In (nm, (m, s)) classes -> In oid needs_null -> ~ In oid old_signatures ->
  let c := after nd h (lib_cls nm m) in
  snd (oid_make c v) = Ok b -> encodes (tx oid) b -> a_params a = Absent ->
  exists a', set_algorithm c (tspecs s) a ByName v = (a', Ok tt) /\ a_oid a' = Some b /\ null_octets (a_params a') = Some [5; 0].
Proof.
  intros nd h nm m s oid v b a L N O c M E P.
  destruct (set_null nd h nm m s L oid v b a (needed_listed oid N O) M E) as (p & S & Q).
  exists (A (Some b) p). split; [exact S|]. split; [reflexivity|]. cbn [a_params]. rewrite P in Q. now subst p.
Qed.
Print Assumptions C78_null_partial.
(* in whatever order the fields of a new object are assigned by name, its parameters are
   there when the algorithm needs them *)
Theorem C78_history_partial : forall nd h nm m s l oid b,
  In (nm, (m, s)) classes -> Forall keeps l ->
  let a := run (after nd h (lib_cls nm m)) (tspecs s) new_algid l in
  In oid needs_null -> ~ In oid old_signatures -> a_oid a = Some b -> encodes (tx oid) b -> a_params a <> Absent.
Proof.
  intros nd h nm m s l oid b L F a N O B E.
  exact (run_kept nd h nm m s L l F b oid B (needed_listed oid N O) E).
Qed.
Print Assumptions C78_history_partial.
(* a new object with an algorithm without parameters has none *)
Theorem C78_absent_partial : forall nd h nm m s oid v b,
  In (nm, (m, s)) classes -> In oid needs_absent ->
  let c := after nd h (lib_cls nm m) in
  snd (oid_make c v) = Ok b -> encodes (tx oid) b ->
  set_algorithm c (tspecs s) new_algid ByName v = (A (Some b) Absent, Ok tt).
Proof. intros nd h nm m s oid v b L O c. exact (set_absent nd h nm m s oid v b O). Qed.
Print Assumptions C78_absent_partial.

Definition sig_c : ocls := lib_cls "algos.SignedDigestAlgorithmId" map_algos_SignedDigestAlgorithmId.
Definition sig_s : option (list (text * text)) := tspecs (Some specs_algos_SignedDigestAlgorithm).
Definition pub_c : ocls := lib_cls "keys.PublicKeyAlgorithmId" map_keys_PublicKeyAlgorithmId.
Definition pub_s : option (list (text * text)) := tspecs (Some specs_keys_PublicKeyAlgorithm).
Definition pri_c : ocls := lib_cls "keys.PrivateKeyAlgorithmId" map_keys_PrivateKeyAlgorithmId.
Definition pri_s : option (list (text * text)) := tspecs (Some specs_keys_PrivateKeyAlgorithm).
Definition sha256_rsa : bytes := [42; 134; 72; 134; 247; 13; 1; 1; 11].
Definition sha1_rsa : bytes := [42; 134; 72; 134; 247; 13; 1; 1; 5].
Definition sha256_ecdsa : bytes := [42; 134; 72; 206; 61; 4; 3; 2].
Lemma encodes_is (oid : String.string) b : oidb (tx oid) = true -> oid_encode (tx oid) = Ok b -> encodes (tx oid) b.
Proof.
  intros H M. destruct (listed_more oid H) as [b' E]. destruct (encodes_make _ _ E) as [M' _]. assert (b' = b) by congruence. now subst.
Qed.
Example C78_null_ex : encodes (tx "1.2.840.113549.1.1.11") sha256_rsa /\ In ("1.2.840.113549.1.1.11"%string) needs_null /\
  snd (oid_make sig_c (tx "sha256_rsa")) = Ok sha256_rsa /\ snd (oid_make sig_c (tx "1.2.840.113549.1.1.11")) = Ok sha256_rsa /\
  set_algorithm sig_c sig_s new_algid ByName (tx "sha256_rsa") = (A (Some sha256_rsa) NullValue, Ok tt).
Proof.
  split; [apply encodes_is; vm_compute; reflexivity|]. split; [cbn; tauto|]. split; [vm_compute; reflexivity|]. split; vm_compute; reflexivity.
Qed.
Definition ops_ex : list op :=
  [SetAlgorithm ByName (tx "sha256_ecdsa"); SetAlgorithm ByName (tx "rsassa_pss"); SetParameters (GValue (tx "RSASSAPSSParams"));
   SetAlgorithm ByName (tx "no_such"); SetAlgorithm ByName (tx "sha256_rsa"); SetParameters GNull].
Example C78_history_ex : Forall keeps ops_ex /\ run sig_c sig_s new_algid ops_ex = A (Some sha256_rsa) NullValue.
Proof. split; [repeat constructor; cbn; try discriminate; reflexivity|vm_compute; reflexivity]. Qed.
Example C78_absent_ex : encodes (tx "1.2.840.10045.4.3.2") sha256_ecdsa /\ In ("1.2.840.10045.4.3.2"%string) needs_absent /\
  snd (oid_make sig_c (tx "sha256_ecdsa")) = Ok sha256_ecdsa.
Proof. split; [apply encodes_is; vm_compute; reflexivity|]. split; [cbn; tauto|vm_compute; reflexivity]. Qed.

(* the signatures with MD2, MD5 and SHA-1 are made without NULL *)
Theorem C78_old_signatures_refuted : exists oid n b, In oid needs_null /\ encodes (tx oid) b /\ In (oid, n) map_algos_SignedDigestAlgorithmId /\
  set_algorithm sig_c sig_s new_algid ByName (tx n) = (A (Some b) Absent, Ok tt).
Proof.
  exists ("1.2.840.113549.1.1.5"%string), "sha1_rsa"%string, sha1_rsa. split; [cbn; tauto|]. split; [apply encodes_is; vm_compute; reflexivity|].
  split; [apply sget_in; vm_compute; reflexivity|vm_compute; reflexivity].
Qed.
Print Assumptions C78_old_signatures_refuted.
(* NULL stays when the algorithm becomes one that has no parameters *)
Theorem C78_left_over_refuted : exists oid b, In oid needs_absent /\ encodes (tx oid) b /\
  run sig_c sig_s new_algid [SetAlgorithm ByName (tx "sha256_rsa"); SetAlgorithm ByName (tx oid)] = A (Some b) NullValue.
Proof.
  exists ("1.2.840.10045.4.3.2"%string), sha256_ecdsa. split; [cbn; tauto|]. split; [apply encodes_is; vm_compute; reflexivity|vm_compute; reflexivity].
Qed.
Print Assumptions C78_left_over_refuted.
(* and so do the parameters of another algorithm *)
Theorem C78_other_parameters_refuted : exists oid b, In oid needs_null /\ encodes (tx oid) b /\
  run sig_c sig_s new_algid [SetAlgorithm ByName (tx "rsassa_pss"); SetParameters (GValue (tx "RSASSAPSSParams")); SetAlgorithm ByName (tx oid)] =
  A (Some b) (Value (tx "RSASSAPSSParams")).
Proof.
  exists ("1.2.840.113549.1.1.11"%string), sha256_rsa. split; [cbn; tauto|]. split; [apply encodes_is; vm_compute; reflexivity|vm_compute; reflexivity].
Qed.
Print Assumptions C78_other_parameters_refuted.
(* the field assigned by its number, None assigned to the parameters: no NULL *)
Theorem C78_by_index_refuted : exists oid b, In oid needs_null /\ encodes (tx oid) b /\
  run sig_c sig_s new_algid [SetAlgorithm ByIndex (tx oid)] = A (Some b) Absent /\
  run sig_c sig_s new_algid [SetAlgorithm ByName (tx oid); SetParameters GNone] = A (Some b) Absent.
Proof.
  exists ("1.2.840.113549.1.1.11"%string), sha256_rsa. split; [cbn; tauto|]. split; [apply encodes_is; vm_compute; reflexivity|].
  split; vm_compute; reflexivity.
Qed.
Print Assumptions C78_by_index_refuted.
(* parameters assigned before the algorithm raise AttributeError *)
Theorem C78_order_refuted : exists g, forall c s, set_parameters c s new_algid g = (new_algid, Err AttributeError).
Proof. exists GNull. intros. reflexivity. Qed.
Print Assumptions C78_order_refuted.
(* wrap accepts rsassa_pss and always fails: it assigns NULL where RSASSAPSSParams are needed *)
Theorem C78_wrap_pss_refuted : exists v,
  snd (wrap_rsa pub_c pub_s v) = Err TypeError /\ snd (wrap_rsa pri_c pri_s v) = Err TypeError /\
  wrap_rsa pub_c pub_s (tx "rsa") = (A (Some [42; 134; 72; 134; 247; 13; 1; 1; 1]) NullValue, Ok tt).
Proof. exists (tx "rsassa_pss"). split; [vm_compute; reflexivity|]. split; vm_compute; reflexivity. Qed.
Print Assumptions C78_wrap_pss_refuted.

(* parameters of the class that belongs to the algorithm are accepted, those of other
   classes are refused, and what is refused changes nothing *)
Theorem C78_own_parameters : forall nd h nm m t oid n ty b a,
  In (nm, (m, Some t)) classes -> sget m oid = Some n -> sget t n = Some ty -> encodes (tx oid) b -> a_oid a = Some b ->
  let set := set_parameters (after nd h (lib_cls nm m)) (tspecs (Some t)) a in
  set (GValue (tx ty)) = (A (Some b) (Value (tx ty)), Ok tt) /\
  (forall x, ty <> "ECDomainParameters"%string -> x <> tx ty -> set (GValue x) = (a, Err TypeError)) /\
  (ty = "ECDomainParameters"%string ->
    (forall x, x = GNull \/ x = GValue (tx "NamedCurve") \/ x = GValue (tx "SpecifiedECDomain") -> set x = (A (Some b) (Value (tx ty)), Ok tt)) /\
    (forall x, x <> tx ty -> x <> tx "NamedCurve" -> x <> tx "SpecifiedECDomain" -> set (GValue x) = (a, Err ValueError))).
Proof.
  intros nd h nm m t oid n ty b a L N T E O set.
  assert (P : parameters_spec (after nd h (lib_cls nm m)) (tspecs (Some t)) a = Ok (Some (tx ty))).
  { unfold parameters_spec. rewrite O, (read_name nd h nm m oid b E). unfold name_in. rewrite N. cbn [tspecs option_map]. rewrite sget_dget, T. reflexivity. }
  assert (ne : forall x y, x <> y -> eqb_text x y = false).
  { intros x y Q. destruct (eqb_text x y) eqn:R; [|reflexivity]. apply text_ok in R. congruence. }
  subst set. unfold set_parameters. rewrite P. cbn [bind]. rewrite O. split; [|split].
  - cbn [make_value]. replace (eqb_text (tx ty) (tx ty)) with true by (symmetry; now apply text_ok). reflexivity.
  - intros x D X. cbn [make_value]. rewrite (ne _ _ X), (ne (tx ty) (tx "ECDomainParameters")); [reflexivity|]. intros Q. apply tx_inj in Q. congruence.
  - intros ->. split.
    + intros x [->|[->| ->]]; vm_compute; reflexivity.
    + intros x A1 A2 A3. cbn [make_value]. rewrite (ne _ _ A1), (ne _ _ A2), (ne _ _ A3). vm_compute. reflexivity.
Qed.
Print Assumptions C78_own_parameters.
Example C78_own_ex : sget map_algos_SignedDigestAlgorithmId "1.2.840.113549.1.1.10" = Some "rsassa_pss"%string /\
  sget specs_algos_SignedDigestAlgorithm "rsassa_pss" = Some "RSASSAPSSParams"%string /\
  In ("keys.PublicKeyAlgorithmId"%string, (map_keys_PublicKeyAlgorithmId, Some specs_keys_PublicKeyAlgorithm)) classes /\
  sget map_keys_PublicKeyAlgorithmId "1.2.840.10045.2.1" = Some "ec"%string /\ sget specs_keys_PublicKeyAlgorithm "ec" = Some "ECDomainParameters"%string.
Proof. split; [vm_compute; reflexivity|]. split; [vm_compute; reflexivity|]. split; [cbn; tauto|]. split; vm_compute; reflexivity. Qed.

(* what is no identifier changes nothing *)
Theorem C78_refused_algorithm : forall c s a w v e, snd (oid_make c v) = Err e -> step c s a (SetAlgorithm w v) = (a, Err e).
Proof. intros c s a w v e E. cbn [step]. unfold set_algorithm. rewrite E. reflexivity. Qed.
Print Assumptions C78_refused_algorithm.
Example C78_refused_ex : exists e, snd (oid_make sig_c (tx "no_such")) = Err e.
Proof. eexists. vm_compute. reflexivity. Qed.
