(* Sorting and dictionaries, as the name model uses them. *)
Require Import Verif.Base Verif.BaseFacts Verif.Text Verif.NameModel Verif.NameSpec.
Require Import Permutation Sorted.

(* ---- insertion sort by any total order ---- *)
Section Sort.
  Context {A : Type} (leb : A -> A -> bool).
  Fixpoint ins (x : A) (l : list A) : list A :=
    match l with
    | [] => [x]
    | y :: r => if leb y x then y :: ins x r else x :: l
    end.
  Definition sort (l : list A) : list A := fold_left (fun s x => ins x s) l [].

  Lemma ins_perm x l : Permutation (x :: l) (ins x l).
  Proof.
    induction l as [|y r IH]; cbn [ins]; [reflexivity|].
    destruct (leb y x); [|reflexivity].
    rewrite <- IH. apply perm_swap.
  Qed.
  Lemma sort_perm_gen l : forall s, Permutation (l ++ s) (fold_left (fun s x => ins x s) l s).
  Proof.
    induction l as [|x l IH]; intros s; cbn [fold_left app]; [reflexivity|].
    rewrite <- IH, <- ins_perm. apply Permutation_middle.
  Qed.
  Lemma sort_perm l : Permutation l (sort l).
  Proof. unfold sort. rewrite <- sort_perm_gen, app_nil_r. reflexivity. Qed.

  Definition le (x y : A) : Prop := leb x y = true.
  Hypothesis total : forall x y, le x y \/ le y x.
  Hypothesis trans : forall x y z, le x y -> le y z -> le x z.

  Lemma ins_sorted x l : StronglySorted le l -> StronglySorted le (ins x l).
  Proof.
    induction 1 as [|y r S IH F]; cbn [ins]; [repeat constructor|].
    destruct (leb y x) eqn:E.
    - constructor; [assumption|]. rewrite Forall_forall in *. intros z Hz.
      apply (Permutation_in _ (Permutation_sym (ins_perm x r))) in Hz.
      destruct Hz as [<-|Hz]; [exact E|auto].
    - assert (X : le x y) by (destruct (total x y) as [H|H]; [exact H|unfold le in H; congruence]).
      constructor; [constructor; assumption|]. constructor; [exact X|].
      rewrite Forall_forall in *. intros z Hz. eapply trans; eauto.
  Qed.
  Lemma sort_sorted l : StronglySorted le (sort l).
  Proof.
    unfold sort. assert (H : StronglySorted le []) by constructor. revert H. generalize (@nil A).
    induction l as [|x l IH]; intros s H; cbn [fold_left]; [exact H|]. apply IH, ins_sorted, H.
  Qed.

  Lemma sorted_unique l : forall m, StronglySorted le l -> StronglySorted le m -> Permutation l m ->
    (forall x y, In x l -> In y l -> le x y -> le y x -> x = y) -> l = m.
  Proof.
    induction l as [|x l IH]; intros m Sl Sm P U.
    - apply Permutation_nil in P. congruence.
    - destruct m as [|y m]; [apply Permutation_sym, Permutation_nil in P; discriminate|].
      inversion Sl as [|? ? Sl' Fl]; inversion Sm as [|? ? Sm' Fm]; subst.
      rewrite Forall_forall in Fl, Fm.
      assert (E : x = y).
      { assert (Hx : In x (y :: m)) by (eapply Permutation_in; [exact P|left; reflexivity]).
        assert (Hy : In y (x :: l)) by (eapply Permutation_in; [apply Permutation_sym, P|left; reflexivity]).
        destruct Hx as [Hx|Hx]; [congruence|]. destruct Hy as [Hy|Hy]; [congruence|].
        apply U; [left; reflexivity|right; exact Hy|apply Fl, Hy|apply Fm, Hx]. }
      subst y. f_equal. apply IH; [assumption..| |].
      + eapply Permutation_cons_inv, P.
      + intros u v Hu Hv. apply U; right; assumption.
  Qed.
  Lemma sort_unique l m : Permutation l m ->
    (forall x y, In x l -> In y l -> le x y -> le y x -> x = y) -> sort l = sort m.
  Proof.
    intros P U. apply sorted_unique; try apply sort_sorted.
    - rewrite <- !sort_perm. exact P.
    - intros x y Hx Hy. apply U; eapply Permutation_in; try apply Permutation_sym, sort_perm; assumption.
  Qed.
End Sort.

(* ---- the order on texts ---- *)
Lemma text_leb_total a : forall b, text_leb a b = true \/ text_leb b a = true.
Proof.
  induction a as [|x a IH]; intros [|y b]; cbn [text_leb]; auto.
  specialize (IH b). clear -IH. rewrite Z.eqb_sym with (x := y).
  destruct (x <? y) eqn:E1, (y <? x) eqn:E2, (x =? y) eqn:E3; cbn [andb orb]; auto; lia.
Qed.
Lemma text_leb_trans a : forall b c, text_leb a b = true -> text_leb b c = true -> text_leb a c = true.
Proof.
  induction a as [|x a IH]; intros [|y b] [|z c]; cbn [text_leb]; try discriminate; auto.
  intros H1 H2. specialize (IH b c). apply orb_true_iff in H1, H2. rewrite andb_true_iff in H1, H2.
  apply orb_true_iff. rewrite andb_true_iff.
  destruct H1 as [?|[? ?]], H2 as [?|[? ?]]; [left; lia..|right; split; [lia|auto]].
Qed.
Lemma text_leb_anti a : forall b, text_leb a b = true -> text_leb b a = true -> a = b.
Proof.
  induction a as [|x a IH]; intros [|y b]; cbn [text_leb]; try discriminate; auto.
  intros H1 H2. apply orb_true_iff in H1, H2. rewrite andb_true_iff in H1, H2.
  assert (x = y) by (destruct H1 as [?|[? ?]], H2 as [?|[? ?]]; lia). subst.
  f_equal. apply IH; [destruct H1 as [?|[? ?]]|destruct H2 as [?|[? ?]]]; lia || assumption.
Qed.

Lemma insert_key_ins x l : insert_key x l = ins text_leb x l.
Proof. induction l as [|y r IH]; cbn; [reflexivity|]. rewrite IH. reflexivity. Qed.
Lemma sort_keys_sort l : sort_keys l = sort text_leb l.
Proof.
  unfold sort_keys, sort. generalize (@nil text).
  induction l as [|x l IH]; intros s; cbn [fold_left]; [reflexivity|]. rewrite insert_key_ins. apply IH.
Qed.
Lemma sort_keys_perm l : Permutation l (sort_keys l).
Proof. rewrite sort_keys_sort. apply sort_perm. Qed.
Lemma sort_keys_unique l m : Permutation l m -> sort_keys l = sort_keys m.
Proof.
  intros P. rewrite !sort_keys_sort. apply sort_unique; [| |exact P|].
  - intros x y. apply text_leb_total.
  - intros x y z. apply text_leb_trans.
  - intros x y _ _. apply text_leb_anti.
Qed.

(* ---- dictionaries ---- *)
Lemma eqb_text_refl t : eqb_text t t = true.
Proof. apply eqb_text_spec. reflexivity. Qed.
Lemma eqb_text_false a b : eqb_text a b = false <-> a <> b.
Proof. rewrite <- eqb_text_spec. destruct (eqb_text a b); split; congruence. Qed.
Lemma eqb_text_sym a b : eqb_text a b = eqb_text b a.
Proof. destruct (eqb_text b a) eqn:E.
  - apply eqb_text_spec in E. subst. apply eqb_text_refl.
  - apply eqb_text_false in E. apply eqb_text_false. congruence.
Qed.

Lemma dget_dset {A} k (v : A) d t : dget t (dset k v d) = if eqb_text t k then Some v else dget t d.
Proof.
  induction d as [|[k' v'] d IH]; cbn [dset dget]; [reflexivity|].
  destruct (eqb_text k k') eqn:E; cbn [dget].
  - apply eqb_text_spec in E. subst k'. destruct (eqb_text t k); reflexivity.
  - rewrite IH. destruct (eqb_text t k') eqn:E1; [|reflexivity].
    apply eqb_text_spec in E1. subst k'. rewrite (eqb_text_sym t k), E. reflexivity.
Qed.
Lemma keys_dset_in {A} k (v : A) d t : In t (map fst (dset k v d)) <-> t = k \/ In t (map fst d).
Proof.
  induction d as [|[k' v'] d IH]; cbn [dset map fst In]; [intuition congruence|].
  destruct (eqb_text k k') eqn:E; cbn [map fst In].
  - apply eqb_text_spec in E. subst k'. intuition congruence.
  - rewrite IH. intuition congruence.
Qed.
Lemma keys_dset_nodup {A} k (v : A) d : NoDup (map fst d) -> NoDup (map fst (dset k v d)).
Proof.
  induction d as [|[k' v'] d IH]; cbn [dset map fst]; intros N; [repeat constructor; intros []|].
  destruct (eqb_text k k') eqn:E; cbn [map fst]; [exact N|].
  inversion N; subst. constructor; [|auto]. rewrite keys_dset_in. intros [?|?]; [|auto].
  subst. rewrite eqb_text_refl in E. discriminate.
Qed.
Lemma dget_in {A} t (d : list (text * A)) : dget t d <> None <-> In t (map fst d).
Proof.
  induction d as [|[k v] d IH]; cbn [dget map fst In]; [split; [congruence|intros []]|].
  destruct (eqb_text t k) eqn:E.
  - apply eqb_text_spec in E. subst. split; [left; reflexivity|discriminate].
  - apply eqb_text_false in E. rewrite IH. intuition congruence.
Qed.

Lemma mem_in t l : mem t l = true <-> In t l.
Proof.
  unfold mem. rewrite existsb_exists. split.
  - intros (x & Hx & E). apply eqb_text_spec in E. congruence.
  - intros H. exists t. split; [exact H|apply eqb_text_refl].
Qed.
Lemma same_set_spec a b : same_set a b = true <-> (forall t, In t a <-> In t b).
Proof.
  unfold same_set. rewrite andb_true_iff, !forallb_forall. split.
  - intros [H1 H2] t. split; intros H; apply mem_in; auto.
  - intros H. split; intros t Ht; apply mem_in, H, Ht.
Qed.
