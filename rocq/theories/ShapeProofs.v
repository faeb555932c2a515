(* A decision procedure for agreement with the standards (ShapeSpec.v), and that it decides it. *)
Require Import ZArith List Bool Lia.
Require Import Coq.Strings.String.
Require Import Verif.ShapeModel Verif.ShapeSpec.
Import ListNotations.
Local Open Scope Z_scope.

Lemma existsb_iff {A} (f : A -> bool) (P : A -> Prop) l : (forall x, f x = true <-> P x) -> existsb f l = true <-> exists x, In x l /\ P x.
Proof. intro H. rewrite existsb_exists. split; intros (x & i & e); exists x; split; auto; apply H; exact e. Qed.
Lemma existsb_eqb c l : existsb (String.eqb c) l = true <-> In c l.
Proof.
  rewrite existsb_exists. split; [intros (x & i & e) | intro i; exists c; split; [exact i | apply String.eqb_refl]].
  apply String.eqb_eq in e. subst. exact i.
Qed.

Fixpoint list_eqb {A} (f : A -> A -> bool) (l r : list A) : bool :=
  match l, r with [], [] => true | x :: l, y :: r => f x y && list_eqb f l r | _, _ => false end.
Lemma list_eqb_iff {A} (f : A -> A -> bool) l : (forall x, In x l -> forall y, f x y = true <-> x = y) -> forall r, list_eqb f l r = true <-> l = r.
Proof.
  induction l as [|x l IH]; intros H [|y r]; cbn; try (split; congruence).
  rewrite andb_true_iff, (H x (or_introl eq_refl)), IH by (intros z i; apply H; right; exact i).
  split; [intros [-> ->]; reflexivity | intro e; injection e; auto].
Qed.

Fixpoint dval_eqb (a b : dval) : bool :=
  match a, b with
  | DBool x, DBool y => Bool.eqb x y
  | DNum x, DNum y => x =? y
  | DName x, DName y => String.eqb x y
  | DBytes x, DBytes y => list_eqb Z.eqb x y
  | DSet x, DSet y => list_eqb String.eqb x y
  | DDict x, DDict y =>
      (fix go l r := match l, r with
        | [], [] => true
        | (k, x) :: l, (k', y) :: r => String.eqb k k' && dval_eqb x y && go l r
        | _, _ => false
        end) x y
  | _, _ => false
  end.
Fixpoint dsize (d : dval) : nat := match d with DDict l => S (list_sum (map (fun p => dsize (snd p)) l)) | _ => 1%nat end.
Lemma dval_eqb_iff : forall n a b, (dsize a < n)%nat -> dval_eqb a b = true <-> a = b.
Proof.
  induction n as [|n IH]; [intros; lia|]. intros a b L.
  destruct a as [x|x|x|x|x|x], b as [y|y|y|y|y|y]; cbn [dval_eqb]; try (split; intro; congruence).
  - destruct x, y; cbn; split; congruence.
  - rewrite Z.eqb_eq. split; congruence.
  - rewrite String.eqb_eq. split; congruence.
  - rewrite list_eqb_iff by (intros; apply Z.eqb_eq). split; congruence.
  - rewrite list_eqb_iff by (intros; apply String.eqb_eq). split; congruence.
  - cbn [dsize] in L.
    assert (G : forall l r, (list_sum (map (fun p => dsize (snd p)) l) < n)%nat ->
      (fix go (l r : list (string * dval)) := match l, r with
        | [], [] => true
        | (k, x) :: l, (k', y) :: r => String.eqb k k' && dval_eqb x y && go l r
        | _, _ => false
        end) l r = true <-> l = r).
    { induction l as [|[k v] l IHl]; intros [|[k' w] r] M; try (split; congruence).
      unfold list_sum in M, IHl. cbn [map fold_right snd] in M.
      rewrite !andb_true_iff, String.eqb_eq, IH, IHl by lia.
      split; [intros [[-> ->] ->]; reflexivity | intro e; injection e; auto]. }
    rewrite G by lia. split; congruence.
Qed.

Definition presence_eqb (a b : presence) : bool :=
  match a, b with Required, Required | Optional, Optional => true | Default x, Default y => dval_eqb x y | _, _ => false end.
Lemma presence_eqb_iff a b : presence_eqb a b = true <-> a = b.
Proof.
  destruct a as [| |x], b as [| |y]; cbn; try (split; congruence).
  rewrite (dval_eqb_iff (S (dsize x))) by lia. split; congruence.
Qed.

Section Decide.
Variable standards : list standard.

Definition stands_forb (c n : string) : bool := existsb (fun s => String.eqb (s_name s) n && existsb (String.eqb c) (s_classes s)) standards.
Lemma stands_forb_iff c n : stands_forb c n = true <-> stands_for standards c n.
Proof. apply existsb_iff. intro s. rewrite andb_true_iff, String.eqb_eq, existsb_eqb. reflexivity. Qed.
Definition is_choiceb (n : string) : bool :=
  existsb (fun s => String.eqb (s_name s) n && match s_def s with CHOICE _ => true | _ => false end) standards.
Lemma is_choiceb_iff n : is_choiceb n = true <-> is_choice standards n.
Proof. apply existsb_iff. intro s. rewrite andb_true_iff, String.eqb_eq. destruct (s_def s); split; intros [? ?]; split; auto; try discriminate; contradiction. Qed.
Definition only_explicitb (t : sty) : bool := match t with ANY => true | T n => is_choiceb n | _ => false end.
Lemma only_explicitb_iff t : only_explicitb t = true <-> only_explicit standards t.
Proof. destruct t; cbn; try (split; [discriminate | contradiction]); [tauto | apply is_choiceb_iff]. Qed.

Definition meantb (e : bool) (t : sty) (m : mark) (g : tagging) : bool :=
  match m, g with
  | NoTag, Untagged => true
  | TagE n, Explicit n' | TagI n, Implicit n' => n =? n'
  | Tag n, Explicit n' => (n =? n') && (e || only_explicitb t)
  | Tag n, Implicit n' => (n =? n') && negb (e || only_explicitb t)
  | _, _ => false
  end.
Lemma meantb_iff e t m g : meantb e t m g = true <-> meant standards e t m g.
Proof.
  destruct m, g; cbn; rewrite ?andb_true_iff, ?Z.eqb_eq, ?negb_true_iff;
    try (split; [discriminate | intro H; inversion H]); try (split; [intros ->; constructor | intro H; inversion H; reflexivity]).
  - split; [constructor | reflexivity].
  - rewrite orb_true_iff, only_explicitb_iff. split; [intros [-> H]; constructor; exact H | intro H; inversion H; subst; auto].
  - rewrite orb_false_iff, <- (not_true_iff_false (only_explicitb t)), only_explicitb_iff.
    split; [intros (-> & H & N); constructor; assumption | intro H; inversion H; subst; auto].
Qed.

Fixpoint agrees_typeb (t : sty) (u : ty) : bool :=
  match t, u with
  | U n, Universal n' => n =? n'
  | ANY, Open | SKIP, Chosen => true
  | OF n t, ListOf n' u => (n =? n') && agrees_typeb t u
  | T n, Named c => stands_forb c n
  | _, _ => false
  end.
Lemma agrees_typeb_iff : forall t u, agrees_typeb t u = true <-> agrees_type standards t u.
Proof.
  induction t; intros []; cbn; try (split; [discriminate | intro H; inversion H]).
  - rewrite Z.eqb_eq. split; [intros ->; constructor | intro H; inversion H; reflexivity].
  - split; [constructor | reflexivity].
  - rewrite andb_true_iff, Z.eqb_eq, IHt. split; [intros [-> H]; constructor; exact H | intro H; inversion H; subst; auto].
  - rewrite stands_forb_iff. split; [intro H; constructor; exact H | intro H; inversion H; assumption].
  - split; [constructor | reflexivity].
Qed.

Definition agrees_componentb (e : bool) (m : comp) (p : component) : bool :=
  String.eqb (m_name m) (p_name p) && presence_eqb (m_presence m) (p_presence p) && agrees_typeb (m_type m) (p_type p) && meantb e (m_type m) (m_mark m) (p_tag p).
Lemma agrees_componentb_iff e m p : agrees_componentb e m p = true <-> agrees_component standards e m p.
Proof.
  unfold agrees_componentb. rewrite !andb_true_iff, String.eqb_eq, presence_eqb_iff, agrees_typeb_iff, meantb_iff.
  split; [intros [[[A B] C] D]; constructor; assumption | intros []; auto].
Qed.

Fixpoint forall2b {A B} (f : A -> B -> bool) (l : list A) (r : list B) : bool :=
  match l, r with [], [] => true | x :: l, y :: r => f x y && forall2b f l r | _, _ => false end.
Lemma forall2b_iff {A B} (f : A -> B -> bool) P : (forall x y, f x y = true <-> P x y) -> forall l r, forall2b f l r = true <-> Forall2 P l r.
Proof.
  intro H. induction l as [|x l IH]; intros [|y r]; cbn; try (split; [discriminate | intro K; inversion K]).
  - split; [constructor | reflexivity].
  - rewrite andb_true_iff, H, IH. split; [intros []; constructor; assumption | intro K; inversion K; auto].
Qed.

Definition agreesb (e : bool) (s : sdef) (d : def) : bool :=
  match s, d with
  | SEQUENCE l, Components 16 l' | SET l, Components 17 l' | CHOICE l, Alternatives None l' => forall2b (agrees_componentb e) l l'
  | APPLICATION n l, Alternatives (Some (1, n')) l' => (n =? n') && forall2b (agrees_componentb e) l l'
  | SEQUENCE_OF t, Items 16 u | SET_OF t, Items 17 u => agrees_typeb t u
  | _, _ => false
  end.
Lemma agreesb_iff e s d : agreesb e s d = true <-> agrees standards e s d.
Proof.
  assert (F := forall2b_iff _ _ (agrees_componentb_iff e)).
  unfold agreesb, agrees.
  destruct s, d as [tag l'|tag u|[[k n']|] l'|tag]; try (split; [discriminate | contradiction]);
    repeat match goal with |- context [match ?z with Z0 => _ | _ => _ end] => destruct z | |- context [match ?z with xI _ => _ | _ => _ end] => destruct z end;
    try (split; [discriminate | contradiction]); rewrite ?andb_true_iff, ?Z.eqb_eq, ?F, ?agrees_typeb_iff; reflexivity.
Qed.

Definition conformsb (lib : list sclass) (s : standard) (c : string) : bool :=
  match def_of lib c with Some d => agreesb (s_explicit s) (s_def s) d | None => false end.
Lemma conformsb_iff lib s c : conformsb lib s c = true <-> conforms standards lib s c.
Proof.
  unfold conformsb, conforms. destruct (def_of lib c) as [d|].
  - rewrite agreesb_iff. split; [intro H; exists d; auto | intros (d' & e & H); congruence].
  - split; [discriminate | intros (d & e & _); discriminate].
Qed.

Definition is_ofb (lib : list sclass) (t : sty) (c : string) : bool :=
  match t with
  | U n => match type_of lib c with Some (Universal n') => n =? n' | _ => false end
  | T n => stands_forb c n
  | OF n t => match def_of lib c with Some (Items n' u) => (n =? n') && agrees_typeb t u | _ => false end
  | _ => false
  end.
Lemma is_ofb_iff lib t c : is_ofb lib t c = true <-> is_of standards lib t c.
Proof.
  destruct t as [n| |n t|n|]; cbn; try (split; [discriminate | intro H; inversion H]).
  - destruct (type_of lib c) as [[]|] eqn:E; try (split; [discriminate | intro H; inversion H; congruence]).
    rewrite Z.eqb_eq. split; [intros ->; constructor; exact E | intro H; inversion H; congruence].
  - destruct (def_of lib c) as [[]|] eqn:E; try (split; [discriminate | intro H; inversion H; congruence]).
    rewrite andb_true_iff, Z.eqb_eq, agrees_typeb_iff.
    split; [intros [-> H]; econstructor; eassumption | intro H; inversion H as [| |n' t' u c' D A]; subst; rewrite E in D; injection D as -> ->; auto].
  - rewrite stands_forb_iff. split; [intro; constructor; assumption | intro H; inversion H; assumption].
Qed.
End Decide.
