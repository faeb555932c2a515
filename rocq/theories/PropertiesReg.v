(* C73: names stand for the numbers the standards assign. *)
Require Import Verif.Base Verif.BaseFacts Verif.IntSpec Verif.Text Verif.OidModel Verif.OidSpec
  Verif.MapModel Verif.MapSpec Verif.Tables Verif.MapTables Verif.RegSpec Verif.RegProofs.
Require Coq.Strings.String.
Import Coq.Strings.String.StringSyntax.

(* every registered name is written as the octets of the assigned arcs, and these are read
   as the name, after any use of the class *)
Theorem C73_names_partial : forall nd l nm m reg arcs n, In (nm, reg) registry -> In (arcs, n) reg ->
  ~ In (nm, n) disagreements -> In (nm, m) oid_maps ->
  let c := after nd l (lib_cls nm m) in
  exists b, snd (oid_make c (tx n)) = Ok b /\ oid_octets (subidentifiers arcs) b /\ snd (oid_read c b) = tx n.
Proof. exact registry_names. Qed.
Print Assumptions C73_names_partial.
(* the same for what pdf and tsp add *)
Theorem C73_added_names : forall nd l nm m reg arcs n, In (nm, reg) added -> In (arcs, n) reg -> In (nm, m) oid_maps ->
  let c := after nd l (full_cls nm m) in
  exists b, snd (oid_make c (tx n)) = Ok b /\ oid_octets (subidentifiers arcs) b /\ snd (oid_read c b) = tx n.
Proof. exact added_names. Qed.
Print Assumptions C73_added_names.
(* no entry of a table is missing from the list *)
Theorem C73_only_registered_partial : forall nm m k n, In (nm, m) oid_maps -> In (k, n) m -> ~ In (nm, n) disagreements ->
  exists arcs, tx k = dotted_text arcs /\
    ((exists reg, In (nm, reg) registry /\ In (arcs, n) reg) \/ In (nm, (arcs, n)) old_identifiers).
Proof. exact only_registered. Qed.
Print Assumptions C73_only_registered_partial.
(* enumerations, versions and named bits *)
Theorem C73_numbers : forall nm m, In (nm, m) (int_maps ++ enum_maps ++ bit_maps) <-> In (nm, m) numbers.
Proof. exact (fun nm m => conj (number_tables nm m) (numbers_tables nm m)). Qed.
Print Assumptions C73_numbers.
Theorem C73_numbers_written : forall l nm r z n, In (nm, r) numbers -> In (z, n) r ->
  (In (nm, r) int_maps -> let c := iafter l (declare (txz r) None) in
     exists b, snd (int_make c (IName (tx n))) = Ok (b, IName (tx n)) /\ twos_value b = z /\ snd (int_read c b) = IName (tx n)) /\
  (In (nm, r) enum_maps -> let c := iafter l (declare (txz r) None) in
     exists b, snd (enum_make c (IName (tx n))) = Ok (b, IName (tx n)) /\ twos_value b = z /\ snd (enum_read c b) = Ok (tx n)).
Proof. exact number_written. Qed.
Print Assumptions C73_numbers_written.

Example C73_names_ex :
  In ("x509.AccessMethod"%string, under (pkix ++ [48]) [(1, "ocsp"); (2, "ca_issuers"); (3, "time_stamping"); (5, "ca_repository")]%string) registry /\
  ~ In ("x509.AccessMethod", "ca_issuers")%string disagreements /\
  snd (oid_make (lib_cls "x509.AccessMethod" map_x509_AccessMethod) (tx "ca_issuers")) = Ok [43; 6; 1; 5; 5; 7; 48; 2] /\
  snd (oid_make (full_cls "cms.ContentType" map_cms_ContentType) (tx "tst_info")) = Ok [42; 134; 72; 134; 247; 13; 1; 9; 16; 1; 4].
Proof.
  split; [apply sget_in; reflexivity|]. split; [|vm_compute; auto].
  cbn. intros [H|[H|[H|[H|[H|[]]]]]]; discriminate H.
Qed.
Example C73_numbers_ex : In ("crl.CRLReason"%string, map_crl_CRLReason) enum_maps /\ In (8, "remove_from_crl"%string) map_crl_CRLReason.
Proof. split; [apply sget_in; reflexivity|]. do 7 right. left. reflexivity. Qed.

(* three of Apple's policies are entered under an arc that is not Apple's: their names are
   written as other identifiers, and the identifiers Apple assigned are read without a name *)
Theorem C73_apple_refuted : exists arcs n b b',
  (exists reg, In ("x509.KeyPurposeId"%string, reg) registry /\ In (arcs, n) reg) /\
  let c := lib_cls "x509.KeyPurposeId" map_x509_KeyPurposeId in
  oid_encode (dotted_text arcs) = Ok b /\ snd (oid_make c (tx n)) = Ok b' /\ b <> b' /\
  snd (oid_read c b) = dotted_text arcs /\
  snd (oid_read c b') = tx n.
Proof.
  exists (apple_policies ++ [31]), "apple_smp_encryption"%string. eexists. eexists. split.
  - eexists. split; [apply sget_in; reflexivity|]. cbn. do 75 right. left. reflexivity.
  - cbv zeta. split; [vm_compute; reflexivity|]. split; [vm_compute; reflexivity|]. vm_compute. repeat split. discriminate.
Qed.
Print Assumptions C73_apple_refuted.
(* the identifier Microsoft assigned to the name of the provider is read as the mark of the
   machine key set, and the one assigned to that has no name *)
Theorem C73_microsoft_refuted : exists b b',
  let c := lib_cls "pkcs12.AttributeType" map_pkcs12_AttributeType in
  oid_encode (dotted_text (microsoft ++ [17; 1])) = Ok b /\ oid_encode (dotted_text (microsoft ++ [17; 2])) = Ok b' /\
  snd (oid_read c b) = tx "microsoft_local_machine_keyset" /\
  snd (oid_read c b') = dotted_text (microsoft ++ [17; 2]) /\
  snd (oid_make c (tx "microsoft_csp_name")) = Err ValueError.
Proof. eexists. eexists. cbv zeta. split; [vm_compute; reflexivity|]. split; [vm_compute; reflexivity|]. vm_compute. auto. Qed.
Print Assumptions C73_microsoft_refuted.
