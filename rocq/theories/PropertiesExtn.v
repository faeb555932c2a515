(* C50: the accessors of extensions. *)
Require Import Verif.Base Verif.Text Verif.MapModel Verif.MapSpec Verif.Tables Verif.MapTables
  Verif.ExtnModel Verif.ExtnSpec Verif.ExtnProofs.
Require Coq.Strings.String.
Import Coq.Strings.String.StringSyntax.

(* for each of the seven classes, after any number of reads: the critical extensions, each
   once, and the value of the last extension with the identifier *)
Theorem C50_answers : forall (V : Type) nm attrs accs (l : list (res (extension V))) xs h,
  In (nm, (attrs, accs)) extension_classes -> readable (has_accessor accs) l xs -> reads_only h ->
  let st := snd (history (map tx attrs) (Ok l) h) in
  (exists c, snd (read_critical (map tx attrs) (Ok l) st) = Ok (Some c) /\ NoDup c /\ forall n, In n c <-> marked_critical xs n) /\
  (forall id a, In (String.append id "_value", a)%string accs ->
     exists r, snd (read_value (map tx attrs) (tx a) (Ok l) st) = Ok r /\ last_value xs (tx id) r).
Proof. exact @class_answers. Qed.
Print Assumptions C50_answers.

(* otherwise there is a first error, and every accessor raises it, again and again: no
   critical extension is passed over *)
Theorem C50_readable_or_error : forall (V : Type) nm attrs accs (l : list (res (extension V))),
  In (nm, (attrs, accs)) extension_classes ->
  (exists xs, readable (has_accessor accs) l xs) \/ exists e, stops (has_accessor accs) l e.
Proof. exact @class_total. Qed.
Print Assumptions C50_readable_or_error.
Theorem C50_errors : forall (V : Type) nm attrs accs (src : source V) e h, In (nm, (attrs, accs)) extension_classes ->
  src = Err e \/ (exists l, src = Ok l /\ stops (has_accessor accs) l e) -> reads_only h ->
  let st := snd (history (map tx attrs) src h) in
  snd (read_critical (map tx attrs) src st) = Err e /\
  (forall p a, In (p, a) accs -> snd (read_value (map tx attrs) (tx a) src st) = Err e).
Proof. exact @class_errors. Qed.
Print Assumptions C50_errors.

(* an accessor returns the attribute with its own name, every attribute the loop sets is
   returned by one, and each belongs to an identifier bound to a type *)
Theorem C50_accessors_match : forall nm attrs accs, In (nm, (attrs, accs)) extension_classes ->
  (forall p a, In (p, a) accs -> a = String.append "_" p /\ In a attrs) /\
  (forall a, In a attrs -> In a (map snd accs)) /\
  NoDup attrs /\
  exists ext idc specs, In (nm, ext) extension_of /\ In (ext, (idc, specs)) spec_tables /\
    forall a, In a attrs -> exists id t, In (id, t) specs /\ a = String.append "_" (String.append id "_value").
Proof. exact class_facts. Qed.
Print Assumptions C50_accessors_match.

(* ---- examples, with numbers for parsed objects ---- *)
Definition rc : list text := map tx attrs_crl_RevokedCertificate.
Definition ex_list : list (extension Z) :=
  [Ext (tx "crl_reason") true (Ok 1); Ext (tx "1.2.3") true (Err ValueError); Ext (tx "crl_reason") false (Ok 2);
   Ext (tx "hold_instruction_code") false (Ok 3)].
Lemma ex_known n : has_accessor accessors_crl_RevokedCertificate n -> n = tx "crl_reason" \/ n = tx "invalidity_date" \/ n = tx "certificate_issuer".
Proof.
  intro H. apply (known_accessor "crl.RevokedCertificate" attrs_crl_RevokedCertificate) in H; [|left; reflexivity].
  destruct H as [H|[H|[H|[]]]].
  - left. symmetry. exact (attribute_inj (tx "crl_reason") n H).
  - right. left. symmetry. exact (attribute_inj (tx "invalidity_date") n H).
  - right. right. symmetry. exact (attribute_inj (tx "certificate_issuer") n H).
Qed.
Example C50_answers_ex : readable (has_accessor accessors_crl_RevokedCertificate) (map Ok ex_list) ex_list /\
  (let st := snd (history rc (Ok (map Ok ex_list)) [ReadValue (tx "_crl_reason_value"); ReadCritical]) in
   snd (read_critical rc (Ok (map Ok ex_list)) st) = Ok (Some [tx "crl_reason"; tx "1.2.3"]) /\
   snd (read_value rc (tx "_crl_reason_value") (Ok (map Ok ex_list)) st) = Ok (Some 2) /\
   snd (read_value rc (tx "_invalidity_date_value") (Ok (map Ok ex_list)) st) = Ok None).
Proof.
  split.
  - split; [reflexivity|]. intros x [<-|[<-|[<-|[<-|[]]]]] K; cbn [e_name e_value] in *; eauto.
    apply ex_known in K. destruct K as [K|[K|K]]; vm_compute in K; discriminate.
  - vm_compute. repeat split.
Qed.
Example C50_errors_ex : stops (V := Z) (has_accessor accessors_crl_RevokedCertificate) [Ok (Ext (tx "crl_reason") true (Err ValueError))] ValueError /\
  snd (read_critical rc (Ok [Ok (Ext (tx "crl_reason") true (Err (A := Z) ValueError))]) fresh_state) = Err ValueError.
Proof.
  split; [|reflexivity]. exists [], [], []. split; [split; [reflexivity|intros y []]|]. right.
  exists (Ext (tx "crl_reason") true (Err ValueError)). split; [reflexivity|]. split; [|reflexivity].
  apply (known_accessor "crl.RevokedCertificate" attrs_crl_RevokedCertificate); left; reflexivity.
Qed.

(* ---- what is false ---- *)
(* the answers are kept when the extensions are replaced: a critical one is not seen *)
Theorem C50_stale_refuted : exists (src src' : source Z),
  let h := history rc src [ReadCritical; Replace src'] in
  snd (read_critical rc (fst h) (snd h)) = Ok (Some []) /\
  snd (read_critical rc (fst h) fresh_state) = Ok (Some [tx "1.2.3"]).
Proof. exists (Ok []), (Ok [Ok (Ext (tx "1.2.3") true (Ok 1))]). vm_compute. auto. Qed.
Print Assumptions C50_stale_refuted.
(* values found before an error stay: once the list is repaired they are reported though
   the extension is gone *)
Theorem C50_leftover_refuted : exists (src src' : source Z),
  let h := history rc src [ReadCritical; Replace src'] in
  snd (read_value rc (tx "_crl_reason_value") (fst h) (snd h)) = Ok (Some 7) /\
  snd (read_value rc (tx "_crl_reason_value") (fst h) fresh_state) = Ok None.
Proof.
  exists (Ok [Ok (Ext (tx "crl_reason") false (Ok 7)); Ok (Ext (tx "invalidity_date") true (Err ValueError))]), (Ok []).
  vm_compute. auto.
Qed.
Print Assumptions C50_leftover_refuted.
(* the set returned is the one kept: changing it changes later answers *)
Theorem C50_shared_set_refuted : exists (src : source Z) s,
  let h := history rc src [ReadCritical; AddToSet s] in
  fst h = src /\ snd (read_critical rc src fresh_state) = Ok (Some []) /\
  snd (read_critical rc (fst h) (snd h)) = Ok (Some [s]).
Proof. exists (Ok []), (tx "key_usage"). vm_compute. auto. Qed.
Print Assumptions C50_shared_set_refuted.
(* an OCSP response without response bytes, as for try_later: documented to give None *)
Theorem C50_no_response_refuted : exists src : source Z,
  src = (do l <- basic_ocsp_response None; Ok l) /\
  forall h, reads_only h -> let st := snd (history (map tx attrs_ocsp_OCSPResponse) src h) in
    snd (read_critical (map tx attrs_ocsp_OCSPResponse) src st) = Err TypeError /\
    snd (read_value (map tx attrs_ocsp_OCSPResponse) (tx "_nonce_value") src st) = Err TypeError.
Proof.
  exists (Err TypeError). split; [reflexivity|]. intros h R.
  destruct (class_errors (V := Z) "ocsp.OCSPResponse" attrs_ocsp_OCSPResponse accessors_ocsp_OCSPResponse (Err TypeError) TypeError h
    ltac:(do 5 right; left; reflexivity) (or_introl eq_refl) R) as [A B].
  split; [exact A|]. exact (B "nonce_value"%string "_nonce_value"%string (or_introl eq_refl)).
Qed.
Print Assumptions C50_no_response_refuted.
