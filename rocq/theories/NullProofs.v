(* Proofs about algorithm identifiers. *)
Require Import Verif.Base Verif.BaseFacts Verif.Text Verif.OidModel Verif.OidSpec Verif.MapModel Verif.MapSpec Verif.MapProofs
  Verif.Tables Verif.MapTables Verif.AlgoProofs Verif.KeyModel Verif.NullModel Verif.NullSpec.
Require Coq.Strings.String.
Import Coq.Strings.String.StringSyntax.
Local Open Scope string_scope.
Local Open Scope list_scope.
Local Open Scope Z_scope.

(* the classes with the mixin: identifier, names, _oid_specs *)
Definition classes : list (str * (list (str * str) * option (list (str * str)))) :=
  [("algos.DigestAlgorithmId", (map_algos_DigestAlgorithmId, None));
   ("algos.SignedDigestAlgorithmId", (map_algos_SignedDigestAlgorithmId, Some specs_algos_SignedDigestAlgorithm));
   ("algos.EncryptionAlgorithmId", (map_algos_EncryptionAlgorithmId, Some specs_algos_EncryptionAlgorithm));
   ("cms.KeyEncryptionAlgorithmId", (map_cms_KeyEncryptionAlgorithmId, Some specs_cms_KeyEncryptionAlgorithm));
   ("keys.PrivateKeyAlgorithmId", (map_keys_PrivateKeyAlgorithmId, Some specs_keys_PrivateKeyAlgorithm));
   ("keys.PublicKeyAlgorithmId", (map_keys_PublicKeyAlgorithmId, Some specs_keys_PublicKeyAlgorithm))].
Definition tspecs (s : option (list (str * str))) : option (list (text * text)) := option_map txm s.

Definition name_in (m : list (str * str)) (oid : str) : str := match sget m oid with Some n => n | None => oid end.
Lemma read_name nd h nm m oid b : encodes (tx oid) b -> snd (oid_read (after nd h (lib_cls nm m)) b) = tx (name_in m oid).
Proof.
  intro E. unfold name_in. destruct (sget m oid) as [n|] eqn:S; [exact (lib_read nd h nm m oid n b S E)|].
  apply lib_read_unknown; [exact E|]. intros k n I Q. apply tx_inj in Q. subst k.
  revert I S. clear. induction m as [|[a b] m IH]; cbn; [tauto|]. intros [Q|I].
  - injection Q as -> ->. rewrite String.eqb_refl. discriminate.
  - destruct (String.eqb a oid); [discriminate|]. auto.
Qed.
Lemma dotted_of oid b : encodes (tx oid) b -> oid_dotted b = tx oid.
Proof. intro E. now apply encodes_make. Qed.
Lemma null_oid_iff oid b : encodes (tx oid) b -> null_oid b = sin oid null_algos.
Proof.
  intro E. unfold null_oid. rewrite (dotted_of oid b E). induction null_algos as [|s l IH]; [reflexivity|]. cbn [existsb sin]. rewrite IH.
  f_equal. destruct (String.eqb_spec s oid) as [->|N]; [now apply text_ok|].
  destruct (eqb_text (tx oid) (tx s)) eqn:Q; [|reflexivity]. apply text_ok, tx_inj in Q. congruence.
Qed.

Lemma no_spec nd h nm m s oid b : In (nm, (m, s)) classes -> In oid null_algos \/ In oid needs_absent -> encodes (tx oid) b ->
  match tspecs s with Some t => dget eqb_text t (snd (oid_read (after nd h (lib_cls nm m)) b)) | None => None end = None.
Proof.
  assert (Q : forallb (fun x => forallb (fun o => match snd (snd x) with
      | Some t => match sget t (name_in (fst (snd x)) o) with None => true | Some _ => false end | None => true end)
      (null_algos ++ needs_absent)) classes = true) by (vm_compute; reflexivity).
  intros I O E. rewrite (read_name nd h nm m oid b E). rewrite forallb_forall in Q. specialize (Q _ I). cbn [fst snd] in Q.
  rewrite forallb_forall in Q. specialize (Q oid). destruct s as [t|]; [|reflexivity]. cbn [tspecs option_map]. rewrite sget_dget.
  destruct (sget t (name_in m oid)); [|reflexivity]. discriminate Q. apply in_or_app. tauto.
Qed.

Section One.
  Variable nd : Z -> bool.
  Variable h : list act.
  Variables (nm : str) (m : list (str * str)) (s : option (list (str * str))).
  Hypothesis listed : In (nm, (m, s)) classes.
  Notation c := (after nd h (lib_cls nm m)).

  Lemma set_null oid v b a : In oid null_algos -> snd (oid_make c v) = Ok b -> encodes (tx oid) b ->
    exists p, set_algorithm c (tspecs s) a ByName v = (A (Some b) p, Ok tt) /\
      p = match a_params a with Absent => NullValue | q => q end.
  Proof.
    intros O M E. unfold set_algorithm. rewrite M. cbn [a_params]. destruct (a_params a); [|eexists; split; reflexivity|eexists; split; reflexivity].
    rewrite (null_oid_iff oid b E), (proj2 (sin_iff oid null_algos) O).
    unfold set_parameters, parameters_spec. cbn [a_oid]. rewrite (no_spec nd h nm m s oid b listed (or_introl O) E).
    rewrite (null_oid_iff oid b E), (proj2 (sin_iff oid null_algos) O). cbn. eexists. split; reflexivity.
  Qed.

  (* no operation takes parameters away *)
  Definition keeps (o : op) : Prop :=
    match o with SetAlgorithm w _ => w = ByName | SetParameters g => g <> GNone | DelParameters => False end.
  Definition null_kept (a : algid) : Prop := forall b oid, a_oid a = Some b -> In oid null_algos -> encodes (tx oid) b -> a_params a <> Absent.
  Lemma made_not_absent sp g p : g <> GNone -> make_value sp g = Ok p -> p <> Absent.
  Proof.
    unfold make_value. destruct g; [congruence| |]; intros _; destruct sp; intro H;
      repeat match type of H with context [if ?x then _ else _] => destruct x end; try discriminate H; injection H as <-; discriminate.
  Qed.
  Lemma step_kept a o : keeps o -> null_kept a -> null_kept (fst (step c (tspecs s) a o)).
  Proof.
    intros K N. destruct o as [w v|g|]; cbn [step keeps] in *; [|subst|destruct K].
    - subst w. destruct (snd (oid_make c v)) as [b|e] eqn:M; [|unfold set_algorithm; now rewrite M].
      intros b' oid B O E.
      assert (b' = b) as ->.
      { unfold set_algorithm in B. rewrite M in B. cbn [a_params] in B. destruct (a_params a); cbn [fst a_oid] in B; try congruence.
        destruct (null_oid b); [|cbn [fst a_oid] in B; congruence]. unfold set_parameters in B.
        match type of B with context [match ?x with Ok _ => _ | Err _ => _ end] => destruct x end; cbn [fst a_oid] in B; congruence. }
      destruct (set_null oid v b a O M E) as (p & -> & ->). cbn [fst a_params]. destruct (a_params a); discriminate.
    - unfold set_parameters. destruct (parameters_spec c (tspecs s) a) as [sp|e]; [|exact N]. cbn [bind].
      destruct (make_value sp g) as [p|e] eqn:V; [|exact N]. intros b oid B O E. cbn [fst a_params]. now apply (made_not_absent sp g).
  Qed.
  Lemma run_kept l : Forall keeps l -> null_kept (run c (tspecs s) new_algid l).
  Proof.
    assert (G : forall l a, Forall keeps l -> null_kept a -> null_kept (run c (tspecs s) a l)).
    { clear l. induction l as [|o l IH]; intros a F N; [exact N|]. inversion F; subst. unfold run. cbn [fold_left]. apply IH; [assumption|].
      now apply step_kept. }
    intro F. apply G; [exact F|]. intros b oid B. discriminate.
  Qed.

  Lemma set_absent oid v b : In oid needs_absent -> snd (oid_make c v) = Ok b -> encodes (tx oid) b ->
    set_algorithm c (tspecs s) new_algid ByName v = (A (Some b) Absent, Ok tt).
  Proof.
    intros O M E. unfold set_algorithm. rewrite M. cbn [a_params new_algid].
    rewrite (null_oid_iff oid b E).
    replace (sin oid null_algos) with false; [reflexivity|].
    assert (Q : forallb (fun o => negb (sin o null_algos)) needs_absent = true) by (vm_compute; reflexivity).
    rewrite forallb_forall in Q. specialize (Q _ O). apply negb_true_iff in Q. now rewrite Q.
  Qed.
End One.
Lemma needed_listed oid : In oid needs_null -> ~ In oid old_signatures -> In oid null_algos.
Proof.
  assert (Q : forallb (fun o => sin o old_signatures || sin o null_algos) needs_null = true) by (vm_compute; reflexivity).
  intros I N. rewrite forallb_forall in Q. specialize (Q _ I). apply orb_true_iff in Q. destruct Q as [Q|Q]; apply sin_iff in Q; [contradiction|exact Q].
Qed.
