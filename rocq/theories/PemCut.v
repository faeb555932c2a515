(* A block cut off before its last line is reported. *)
Require Import Verif.Base Verif.BaseFacts Verif.Text Verif.PemModel Verif.PemSpec Verif.PemProofs.

Lemma prefix_lines ls : Forall (fun w => no_eol w /\ w <> []) ls -> forall q r, q ++ r = unlines ls ->
  exists a b w, ls = a ++ b /\ flines q = a ++ (match w with [] => [] | _ => [w] end)
    /\ match w with [] => True | _ => exists x y, b = (w ++ x) :: y end.
Proof.
  intros F. induction F as [|l ls [N E] F IH]; intros q r H.
  - apply app_eq_nil in H as [-> ->]. exists [], [], []. repeat split.
  - rewrite unlines_cons in H.
    assert ((exists x, l = q ++ x) \/ exists q', q = l ++ 10 :: q' /\ q' ++ r = unlines ls) as [[x ->]|(q' & -> & H')].
    { clear IH F N E. revert l H. induction q as [|c q IH]; intros l H; [left; now exists l|].
      destruct l as [|d l]; cbn in H; inversion H; subst.
      - right. exists q. split; reflexivity || assumption.
      - destruct (IH _ H2) as [[x ->]|(q' & -> & H')]; [left; now exists x|right; exists q'; now split]. }
    + exists [], ((q ++ x) :: ls), q. split; [reflexivity|]. apply Forall_app in N as [N _].
      destruct q as [|c q]; [split; reflexivity|]. cbn [app]. split; [|eauto]. rewrite flines_last; [reflexivity|exact N|discriminate].
    + destruct (IH _ _ H') as (a & b & w & -> & G & W). exists (l :: a), b, w. split; [reflexivity|]. split; [|exact W].
      rewrite flines_line by (try assumption; now left). now rewrite G.
Qed.
Definition plain (w : bytes) : Prop := w <> [] /\ Forall b64c w.
Lemma loop_no_end ls st a : Forall plain ls ->
  match st with Trash => True | _ => True end -> unarmor_loop st a false ls = ([], Some ValueError).
Proof.
  intros F _. revert st a. induction F as [|w ls [N C] F IH]; intros st a; [cbn; rewrite orb_true_r; reflexivity|].
  destruct (b64_line w N C) as [D K]. unfold dashes in D. destruct w as [|c w]; [congruence|]. cbn [unarmor_loop].
  destruct st; [destruct (match_begin (c :: w)); apply IH|rewrite K, D; apply IH|rewrite D; apply IH].
Qed.
Lemma first_any w ls : Forall plain ls -> unarmor_loop Trash false false (w :: ls) = ([], Some ValueError).
Proof.
  intros F. destruct w as [|c w]; cbn [unarmor_loop]; [now apply loop_no_end|].
  destruct (match_begin (c :: w)); now apply loop_no_end.
Qed.
Lemma cut_block l der p q r : label_ok l -> bytes_ok der -> armor l der [] = Ok p ->
  p = q ++ r ++ tx "-----END " ++ l ++ tx "-----" ++ [10] -> unarmor_all q = Err ValueError /\ unarmor q = Err ValueError.
Proof.
  intros L B A E. rewrite armor_ok in A by (try exact L; split; constructor). inversion A; subst p. clear A.
  unfold armored in H0. cbn [map app] in H0. change (unlines []) with (@nil Z) in H0. cbn [app] in H0.
  rewrite (unlines_cons (end_line l)) in H0. change (unlines []) with (@nil Z) in H0. unfold end_line in H0.
  rewrite <- !app_assoc in H0. rewrite (app_assoc q r), (app_assoc (unlines _) (unlines _)) in H0. apply app_inv_tail in H0.
  rewrite <- unlines_app in H0. symmetry in H0. apply prefix_lines in H0.
  2: { destruct (block_lines_full l [] der L ltac:(split; constructor) B) as (F1 & _ & F3 & _). apply Forall_app. split; assumption. }
  destruct H0 as (a & b & w & G & Q & W).
  assert (forall x, In x (body_lines der) -> plain x) as PL by (intros x; now apply body_line_in).
  assert (unarmor_loop Trash false false (flines q) = ([], Some ValueError)) as U.
  { rewrite Q. destruct a as [|x a].
    - destruct w; cbn [app]; [reflexivity|]. apply first_any. constructor.
    - cbn [app] in G. inversion G; subst. cbn [app]. apply first_any. apply Forall_app. split.
      + apply Forall_forall. intros y Y. apply PL. rewrite H1. apply in_or_app. now left.
      + destruct w as [|c w]; [constructor|]. destruct W as (y & z & ->). constructor; [|constructor]. split; [discriminate|].
        assert (plain ((c :: w) ++ y)) as [_ X] by (apply PL; rewrite H1; apply in_or_app; right; now left).
        apply Forall_app in X. tauto. }
  unfold unarmor_all, unarmor. rewrite unarmor_flines, U. split; reflexivity.
Qed.
(* the lines of the body *)
Lemma armored_width l hs der p w : label_ok l -> headers_ok hs -> bytes_ok der -> armor l der hs = Ok p ->
  lines_of p w -> exists body, w = [begin_line l] ++ map header_line hs ++ body ++ [end_line l]
    /\ concat body = b64encode der /\ Forall (fun b => 0 < len b <= 64) body
    /\ forall a b c, body = a ++ b :: c -> c <> [] -> len b = 64.
Proof.
  intros L H B A W. rewrite armor_ok in A by assumption. inversion A; subst p. apply lines_unique in W. subst w.
  exists (body_lines der). split; [|split; [|split]].
  - rewrite <- (app_nil_r (armored l hs der)), flines_armored by assumption. rewrite app_nil_r. reflexivity.
  - unfold body_lines. apply chunks_concat. lia.
  - apply Forall_forall. intros b X. apply chunks_in in X as (N & K & _). unfold len. destruct b; [congruence|]. cbn [length] in *. lia.
  - unfold body_lines. generalize (S (length (b64encode der))) as f. generalize (b64encode der) as s. clear.
    intros s f. revert s. induction f as [|f IH]; intros s a b c E C; [destruct a; discriminate|].
    cbn [chunks64] in E. destruct s as [|x s]; [destruct a; discriminate|].
    set (t := x :: s) in *. destruct a as [|y a]; cbn [app] in E; injection E as E1 E2.
    + transitivity (len (firstn 64 t)); [now rewrite <- E1|]. unfold len. rewrite firstn_length. destruct (Nat.le_gt_cases 64 (length t)); [lia|].
      exfalso. apply C. assert (c = chunks64 f (skipn 64 t)) as -> by now symmetry. rewrite skipn_all2 by lia. destruct f; reflexivity.
    + exact (IH _ _ _ _ E2 C).
Qed.

(* a test for the hypotheses, for the examples *)
Definition header_okb (h : text * text) : bool :=
  forallb (fun c => (0 <=? c) && (c <? 128) && negb (c =? 10) && negb (c =? 13) && negb (c =? 58)) (fst h)
  && forallb (fun c => (0 <=? c) && (c <? 128) && negb (c =? 10) && negb (c =? 13)) (snd h)
  && match snd h with [] => true | c :: _ => negb (is_space c) && negb (is_space (last (snd h) 0)) end.
Lemma header_okb_ok h : header_okb h = true -> header_ok h.
Proof.
  unfold header_okb. intros H. apply andb_prop in H as [H E]. apply andb_prop in H as [K V].
  rewrite forallb_forall in K, V. split; [|split].
  - apply Forall_forall. intros c C. specialize (K c C). unfold eol. lia.
  - apply Forall_forall. intros c C. specialize (V c C). unfold eol. lia.
  - intros c r [X|X]; rewrite X in E.
    + destruct (is_space c); [discriminate|reflexivity].
    + rewrite last_last in E. destruct r; cbn in E; destruct (is_space c); try reflexivity; rewrite ?andb_false_r in E; discriminate.
Qed.

Lemma label_okb_ok l : l <> [] -> forallb label_char l = true -> label_ok l.
Proof.
  intros N H. split; [exact N|]. apply Forall_forall. intros c C. rewrite forallb_forall in H. specialize (H c C).
  unfold label_char in H. lia.
Qed.
Lemma crt_label l : label_ok l -> forall der, bytes_okb der = true -> ok_block (Block l [] der).
Proof. intros L der D. split; [exact L|]. split; [split; constructor|]. now apply bytes_okb_spec. Qed.
