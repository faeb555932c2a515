(* The tables of the library compared with RegSpec. *)
Require Import Verif.Base Verif.BaseFacts Verif.IntSpec Verif.Text Verif.OidModel Verif.OidSpec Verif.OidProofs
  Verif.MapModel Verif.MapSpec Verif.MapProofs Verif.Tables Verif.MapTables Verif.RegSpec.
Require Coq.Strings.String.
Import Coq.Strings.String.StringSyntax.

Definition entry (m : list (str * str)) (arcs : list Z) (n : str) : bool :=
  existsb (fun kv => eqb_text (tx (fst kv)) (dotted_text arcs) && String.eqb (snd kv) n) m.
Definition disagree (nm n : str) : bool :=
  existsb (fun x => String.eqb (fst x) nm && String.eqb (snd x) n) disagreements.
Definition written (nm : str) (arcs : list Z) : bool :=
  negb (existsb (fun x => String.eqb (fst x) nm && eqb_text (tx (snd x)) (dotted_text arcs)) aliases).

Definition reg_ok (x : str * list (list Z * str)) : bool :=
  match sget oid_maps (fst x) with
  | None => false
  | Some m => forallb (fun an => legalb (fst an) &&
                (disagree (fst x) (snd an) || entry m (fst an) (snd an) && written (fst x) (fst an))) (snd x)
  end.
Lemma registry_checked : forallb reg_ok registry = true.
Proof. vm_compute. reflexivity. Qed.
Definition added_ok (x : str * list (list Z * str)) : bool :=
  match sget oid_maps (fst x), explicit_rev (fst x) with
  | Some m, None => forallb (fun an => legalb (fst an) &&
      entry (joined (joined m (additions added_pdf (fst x))) (additions added_tsp (fst x))) (fst an) (snd an)
      && written (fst x) (fst an)) (snd x)
  | _, _ => false
  end.
Lemma added_checked : forallb added_ok added = true.
Proof. vm_compute. reflexivity. Qed.

Lemma legalb_ok arcs : legalb arcs = true -> legal_oid arcs.
Proof.
  unfold legalb, legal_oid. destruct arcs as [|a0 [|a1 rest]]; try discriminate. intro L.
  rewrite !andb_true_iff, orb_true_iff, !Z.leb_le, Z.ltb_lt, forallb_forall in L.
  destruct L as ((((A & B) & C) & D) & F). repeat split; try lia.
  apply Forall_forall. intros x I. apply Z.leb_le. auto.
Qed.
Lemma entry_in m arcs n : entry m arcs n = true -> exists k, In (k, n) m /\ tx k = dotted_text arcs.
Proof.
  unfold entry. rewrite existsb_exists. intros ([k n'] & I & E). cbn in E. apply andb_true_iff in E.
  destruct E as [E F]. apply text_ok in E. apply String.eqb_eq in F. subst n'. eauto.
Qed.
Lemma disagree_in nm n : disagree nm n = true -> In (nm, n) disagreements.
Proof.
  unfold disagree. rewrite existsb_exists. intros ([a b] & I & E). cbn in E. rewrite andb_true_iff, !String.eqb_eq in E.
  destruct E as [-> ->]. exact I.
Qed.
Lemma written_ok nm k arcs : written nm arcs = true -> tx k = dotted_text arcs -> ~ In (nm, k) aliases.
Proof.
  unfold written. rewrite negb_true_iff. intros W E I. apply Bool.not_true_iff_false in W. apply W.
  apply existsb_exists. exists (nm, k). split; [exact I|]. cbn. rewrite String.eqb_refl. cbn. now apply text_ok.
Qed.
Lemma encodes_arcs s arcs b : encodes s b -> legal_oid arcs -> s = dotted_text arcs -> oid_octets (subidentifiers arcs) b.
Proof.
  intros (a & L & E & O) L' E'. subst s.
  apply dotted_text_inj in E'; auto using legal_nonnil, legal_nonneg. now subst.
Qed.

Lemma entry_written nd nm m c arcs n : consistent nd nm m c -> legalb arcs = true -> entry m arcs n = true -> written nm arcs = true ->
  exists b, snd (oid_make c (tx n)) = Ok b /\ oid_octets (subidentifiers arcs) b /\ snd (oid_read c b) = tx n.
Proof.
  intros [C _] L E W. destruct (entry_in m arcs n E) as (k & I & K).
  destruct (C k n I) as (k' & _ & A & _ & _ & _ & b & M & EN & R & _).
  exists b. split; [exact M|]. split; [|exact R]. apply (encodes_arcs (tx k')); [exact EN|now apply legalb_ok|].
  destruct A as [->|A]; [exact K|]. elim (written_ok nm k arcs W K A).
Qed.

Lemma registry_names nd l nm m reg arcs n : In (nm, reg) registry -> In (arcs, n) reg -> ~ In (nm, n) disagreements ->
  In (nm, m) oid_maps ->
  let c := after nd l (lib_cls nm m) in
  exists b, snd (oid_make c (tx n)) = Ok b /\ oid_octets (subidentifiers arcs) b /\ snd (oid_read c b) = tx n.
Proof.
  intros I J D M. cbv zeta. pose proof registry_checked as H. rewrite forallb_forall in H. apply H in I.
  unfold reg_ok in I. cbn [fst snd] in I. destruct (sget oid_maps nm) as [m'|] eqn:E; [|discriminate].
  assert (m' = m) as ->.
  { apply sget_in in E. assert (N : NoDup (map fst oid_maps)) by (apply snodup_ok; vm_compute; reflexivity).
    pose proof (NoDup_map_uniq fst oid_maps (nm, m') (nm, m) N E M eq_refl) as Q. now injection Q. }
  rewrite forallb_forall in I. apply I in J. cbn [fst snd] in J. rewrite andb_true_iff, orb_true_iff, andb_true_iff in J.
  destruct J as [L [F|[F W]]]; [elim D; now apply disagree_in|].
  exact (entry_written nd nm m _ arcs n (library_consistent nd nm m l M) L F W).
Qed.
Lemma added_names nd l nm m reg arcs n : In (nm, reg) added -> In (arcs, n) reg -> In (nm, m) oid_maps ->
  let c := after nd l (full_cls nm m) in
  exists b, snd (oid_make c (tx n)) = Ok b /\ oid_octets (subidentifiers arcs) b /\ snd (oid_read c b) = tx n.
Proof.
  intros I J M. cbv zeta. pose proof added_checked as H. rewrite forallb_forall in H. apply H in I.
  unfold added_ok in I. cbn [fst snd] in I. destruct (sget oid_maps nm) as [m'|] eqn:E; [|discriminate].
  assert (m' = m) as ->.
  { apply sget_in in E. assert (N : NoDup (map fst oid_maps)) by (apply snodup_ok; vm_compute; reflexivity).
    pose proof (NoDup_map_uniq fst oid_maps (nm, m') (nm, m) N E M eq_refl) as Q. now injection Q. }
  destruct (explicit_rev nm) eqn:X; [discriminate|].
  rewrite forallb_forall in I. apply I in J. cbn [fst snd] in J. rewrite !andb_true_iff in J. destruct J as [[L F] W].
  exact (entry_written nd nm _ _ arcs n (imported_consistent nd nm m l _ _ M X (or_introl eq_refl) (or_introl eq_refl)) L F W).
Qed.

(* nothing else in the tables *)
Definition listed (nm k n : str) : bool :=
  existsb (fun x => String.eqb (fst x) nm && existsb (fun an => eqb_text (dotted_text (fst an)) (tx k) && String.eqb (snd an) n) (snd x)) registry
  || existsb (fun x => String.eqb (fst x) nm && (eqb_text (dotted_text (fst (snd x))) (tx k) && String.eqb (snd (snd x)) n)) old_identifiers.
Lemma tables_checked : forallb (fun x => forallb (fun kn => listed (fst x) (fst kn) (snd kn) || disagree (fst x) (snd kn)) (snd x)) oid_maps = true.
Proof. vm_compute. reflexivity. Qed.
Lemma only_registered nm m k n : In (nm, m) oid_maps -> In (k, n) m -> ~ In (nm, n) disagreements ->
  exists arcs, tx k = dotted_text arcs /\
    ((exists reg, In (nm, reg) registry /\ In (arcs, n) reg) \/ In (nm, (arcs, n)) old_identifiers).
Proof.
  intros M I D. pose proof tables_checked as H. rewrite forallb_forall in H. apply H in M. cbn [fst snd] in M.
  rewrite forallb_forall in M. apply M in I. cbn [fst snd] in I. apply orb_true_iff in I.
  destruct I as [I|I]; [|elim D; now apply disagree_in].
  unfold listed in I. rewrite orb_true_iff, !existsb_exists in I.
  destruct I as [((a, reg) & J & E)|((a, (arcs, n')) & J & E)]; cbn [fst snd] in E; apply andb_true_iff in E; destruct E as [E F].
  - apply String.eqb_eq in E. subst a. apply existsb_exists in F. destruct F as ((arcs & n') & K & F).
    cbn [fst snd] in F. rewrite andb_true_iff in F. destruct F as [F G]. apply text_ok in F. apply String.eqb_eq in G. subst n'.
    exists arcs. split; [now symmetry|]. left. eauto.
  - apply String.eqb_eq in E. subst a. rewrite andb_true_iff in F. destruct F as [F G]. apply text_ok in F.
    apply String.eqb_eq in G. subst n'. exists arcs. split; [now symmetry|now right].
Qed.

(* ---- numbers ---- *)
Definition pair_eqb (a b : Z * str) : bool := (fst a =? fst b) && String.eqb (snd a) (snd b).
Fixpoint all2b (a b : list (Z * str)) : bool :=
  match a, b with
  | [], [] => true
  | x :: a, y :: b => pair_eqb x y && all2b a b
  | _, _ => false
  end.
Lemma all2b_eq a : forall b, all2b a b = true -> a = b.
Proof.
  induction a as [|[z s] a IH]; intros [|[y t] b]; cbn [all2b]; try discriminate; [reflexivity|].
  unfold pair_eqb. cbn [fst snd]. rewrite !andb_true_iff, Z.eqb_eq, String.eqb_eq. intros [[-> ->] H]. f_equal. auto.
Qed.
Lemma numbers_agree : forallb (fun x => match sget numbers (fst x) with Some r => all2b (snd x) r | None => false end)
  (int_maps ++ enum_maps ++ bit_maps) = true.
Proof. vm_compute. reflexivity. Qed.
Lemma number_tables nm m : In (nm, m) (int_maps ++ enum_maps ++ bit_maps) -> In (nm, m) numbers.
Proof.
  intro I. pose proof numbers_agree as H. rewrite forallb_forall in H. apply H in I. cbn [fst snd] in I.
  destruct (sget numbers nm) as [r|] eqn:E; [|discriminate]. apply all2b_eq in I. subst. now apply sget_in.
Qed.
Lemma all_numbers : forallb (fun x => sin (fst x) (map fst (int_maps ++ enum_maps ++ bit_maps))) numbers = true.
Proof. vm_compute. reflexivity. Qed.
Lemma numbers_unique : NoDup (map fst numbers).
Proof. apply snodup_ok. vm_compute. reflexivity. Qed.
Lemma numbers_tables nm r : In (nm, r) numbers -> In (nm, r) (int_maps ++ enum_maps ++ bit_maps).
Proof.
  intro I. pose proof all_numbers as H. rewrite forallb_forall in H. pose proof (H _ I) as J. apply sin_iff in J. cbn [fst] in J.
  apply in_map_iff in J. destruct J as ([a m] & E & J). cbn in E. subst a.
  pose proof (NoDup_map_uniq fst numbers (nm, r) (nm, m) numbers_unique I (number_tables _ _ J) eq_refl) as Q. now injection Q as ->.
Qed.
Lemma number_written l nm r z n : In (nm, r) numbers -> In (z, n) r ->
  (In (nm, r) int_maps -> let c := iafter l (declare (txz r) None) in
     exists b, snd (int_make c (IName (tx n))) = Ok (b, IName (tx n)) /\ twos_value b = z /\ snd (int_read c b) = IName (tx n)) /\
  (In (nm, r) enum_maps -> let c := iafter l (declare (txz r) None) in
     exists b, snd (enum_make c (IName (tx n))) = Ok (b, IName (tx n)) /\ twos_value b = z /\ snd (enum_read c b) = Ok (tx n)).
Proof.
  intros I J. destruct (numbers_facts nm r (numbers_tables _ _ I)) as [D O].
  assert (K : In (z, tx n) (txz r)) by (apply in_txz; eauto). pose proof (iin_use_after l (txz r)) as U.
  split; intros _; cbv zeta.
  - destruct (int_both _ _ _ _ U D O K) as (b & A & _ & B & C). eauto.
  - destruct (enum_both _ _ _ _ U D O K) as (b & A & _ & _ & B & C). eauto.
Qed.
