(* Facts about the base vocabulary. *)
Require Import Verif.Base.

Lemma len_nonneg {A} (l : list A) : 0 <= len l.
Proof. unfold len; lia. Qed.

Lemma len_nil {A} : len (@nil A) = 0. Proof. reflexivity. Qed.
Lemma len_cons {A} (x : A) l : len (x :: l) = 1 + len l.
Proof. unfold len; cbn [length]; lia. Qed.
Lemma len_app {A} (a b : list A) : len (a ++ b) = len a + len b.
Proof. unfold len; rewrite app_length; lia. Qed.

Lemma len_map {A B} (f : A -> B) l : len (map f l) = len l.
Proof. unfold len. now rewrite map_length. Qed.
Global Hint Rewrite @len_nil @len_cons @len_app @len_map : len.

Lemma len_zero_nil {A} (l : list A) : len l = 0 -> l = [].
Proof. destruct l; auto. rewrite len_cons; pose proof (len_nonneg l); lia. Qed.

Lemma slice_len {A} (l : list A) a b :
  0 <= a -> a <= b -> b <= len l -> len (slice l a b) = b - a.
Proof.
  intros. unfold slice, len in *. rewrite firstn_length, skipn_length. lia.
Qed.

Lemma slice_nil {A} (l : list A) a b : b <= a -> slice l a b = [].
Proof. intros. unfold slice. replace (Z.to_nat (b - a)) with 0%nat by lia. reflexivity. Qed.

Lemma slice_full {A} (l : list A) : slice l 0 (len l) = l.
Proof.
  unfold slice, len. cbn [Z.to_nat skipn].
  rewrite Z.sub_0_r, Nat2Z.id. apply firstn_all.
Qed.

Lemma skipn_skipn_add {A} (x y : nat) (l : list A) : skipn x (skipn y l) = skipn (x + y) l.
Proof.
  revert l; induction y; intros l; [now rewrite Nat.add_0_r|].
  destruct l; [now rewrite !skipn_nil|]. rewrite Nat.add_succ_r. cbn [skipn]. apply IHy.
Qed.

Lemma slice_split {A} (l : list A) a b c :
  0 <= a -> a <= b -> b <= c -> slice l a b ++ slice l b c = slice l a c.
Proof.
  intros. unfold slice.
  replace (Z.to_nat (c - a)) with (Z.to_nat (b - a) + Z.to_nat (c - b))%nat by lia.
  replace (Z.to_nat b) with (Z.to_nat (b - a) + Z.to_nat a)%nat by lia.
  rewrite <- firstn_skipn with (n := Z.to_nat (b - a)) (l := firstn (Z.to_nat (b - a) + Z.to_nat (c - b)) (skipn (Z.to_nat a) l)).
  rewrite firstn_firstn. rewrite Nat.min_l by lia. f_equal.
  rewrite skipn_firstn_comm. f_equal; [lia|].
  rewrite skipn_skipn_add. reflexivity.
Qed.

Lemma slice_app_l {A} (l r : list A) a b :
  0 <= a -> b <= len l -> slice (l ++ r) a b = slice l a b.
Proof.
  intros. unfold slice, len in *.
  rewrite skipn_app, firstn_app.
  destruct (Z.le_gt_cases b a).
  - replace (Z.to_nat (b - a)) with 0%nat by lia. reflexivity.
  - rewrite skipn_length.
    replace (Z.to_nat (b - a) - (length l - Z.to_nat a))%nat with 0%nat by lia.
    cbn [firstn]. now rewrite app_nil_r.
Qed.

Lemma slice_app_r {A} (l r : list A) a b :
  len l <= a -> slice (l ++ r) a b = slice r (a - len l) (b - len l).
Proof.
  intros. unfold slice, len in *.
  rewrite skipn_app.
  rewrite skipn_all2 by lia. cbn [app].
  f_equal; [f_equal; lia|]. f_equal; lia.
Qed.

Lemma slice_prefix_app {A} (l r : list A) : slice (l ++ r) 0 (len l) = l.
Proof. rewrite slice_app_l by lia. apply slice_full. Qed.

Lemma slice_mid {A} (p l r : list A) a b :
  a = len p -> b = len p + len l -> slice (p ++ l ++ r) a b = l.
Proof.
  intros -> ->. rewrite slice_app_r by lia.
  rewrite Z.sub_diag. replace (len p + len l - len p) with (len l) by lia.
  apply slice_prefix_app.
Qed.

Lemma slice_bytes_ok l a b : bytes_ok l -> bytes_ok (slice l a b).
Proof.
  intros H. unfold slice, bytes_ok in *. rewrite Forall_forall in *.
  intros x Hx. apply H.
  assert (In x (skipn (Z.to_nat a) l)).
  { rewrite <- (firstn_skipn (Z.to_nat (b - a))). apply in_or_app. now left. }
  rewrite <- (firstn_skipn (Z.to_nat a)). apply in_or_app. now right.
Qed.

Lemma at_app_l l r i : 0 <= i < len l -> at_ (l ++ r) i = at_ l i.
Proof. intros. unfold at_, len in *. apply app_nth1. lia. Qed.

Lemma at_app_r l r i : len l <= i -> at_ (l ++ r) i = at_ r (i - len l).
Proof. intros. unfold at_, len in *. rewrite app_nth2 by lia. f_equal. lia. Qed.

Lemma at_ok l i : bytes_ok l -> 0 <= i < len l -> byte_ok (at_ l i).
Proof.
  intros H Hi. unfold bytes_ok in H. rewrite Forall_forall in H. apply H.
  apply nth_In. unfold len in Hi. lia.
Qed.

Lemma at_0_cons x l : at_ (x :: l) 0 = x. Proof. reflexivity. Qed.

Lemma at_mid p x r i : i = len p -> at_ (p ++ x :: r) i = x.
Proof. intros ->. rewrite at_app_r by lia. rewrite Z.sub_diag. reflexivity. Qed.

Lemma slice_1 l i : 0 <= i < len l -> slice l i (i + 1) = [at_ l i].
Proof.
  intros. unfold slice, at_, len in *. replace (Z.to_nat (i + 1 - i)) with 1%nat by lia.
  assert (Hn : (Z.to_nat i < length l)%nat) by lia.
  rewrite <- (firstn_skipn (Z.to_nat i) l) at 2.
  rewrite app_nth2 by (rewrite firstn_length; lia).
  rewrite firstn_length, Nat.min_l by lia. rewrite Nat.sub_diag.
  destruct (skipn (Z.to_nat i) l) eqn:E.
  - apply (f_equal (@length Z)) in E. rewrite skipn_length in E. cbn in E. lia.
  - reflexivity.
Qed.

Lemma eqb_bytes_spec a b : eqb_bytes a b = true <-> a = b.
Proof.
  revert b; induction a as [|x a IH]; intros [|y b]; cbn; split; intros H; try easy.
  - apply andb_true_iff in H as [H1 H2]. apply Z.eqb_eq in H1. apply IH in H2. now subst.
  - injection H as -> ->. rewrite Z.eqb_refl. now apply IH.
Qed.

Lemma eqb_bytes_refl a : eqb_bytes a a = true.
Proof. now apply eqb_bytes_spec. Qed.

Lemma bytes_okb_spec l : bytes_okb l = true <-> bytes_ok l.
Proof.
  unfold bytes_okb, bytes_ok. rewrite forallb_forall, Forall_forall.
  unfold byte_okb, byte_ok. split; intros H x Hx; specialize (H x Hx); lia.
Qed.

Lemma bytes_ok_nil : bytes_ok []. Proof. constructor. Qed.
Lemma bytes_ok_cons x l : bytes_ok (x :: l) <-> byte_ok x /\ bytes_ok l.
Proof. unfold bytes_ok. split; [intros H; inversion H; auto | intros [? ?]; constructor; auto]. Qed.
Lemma bytes_ok_app a b : bytes_ok (a ++ b) <-> bytes_ok a /\ bytes_ok b.
Proof. unfold bytes_ok. apply Forall_app. Qed.
Lemma bytes_ok_zeros n : bytes_ok (zeros n).
Proof. induction n; constructor; auto. unfold byte_ok; lia. Qed.

Lemma app_inv_len {A} (a b c d : list A) :
  length a = length c -> a ++ b = c ++ d -> a = c /\ b = d.
Proof.
  revert c; induction a as [|x a IH]; intros [|y c] H E; cbn in *; try lia; auto.
  injection E as -> E. destruct (IH c) as [-> ->]; auto.
Qed.

Lemma bind_ok {A B} (x : res A) (f : A -> res B) b :
  bind x f = Ok b -> exists a, x = Ok a /\ f a = Ok b.
Proof. destruct x; cbn; intros H; [eauto | discriminate]. Qed.
