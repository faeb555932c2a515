(* More about PEM: damaged base64, the first block of any text, detect. *)
Require Import Verif.Base Verif.BaseFacts Verif.Text Verif.PemModel Verif.PemSpec Verif.PemProofs Verif.PemSound.

(* ---- spec: base64 digits (RFC 4648, table 1) ---- *)
Definition digit (c : Z) : Prop := 65 <= c <= 90 \/ 97 <= c <= 122 \/ 48 <= c <= 57 \/ c = 43 \/ c = 47.
(* n of the characters are digits *)
Inductive has_digits : bytes -> Z -> Prop :=
| hd_nil : has_digits [] 0
| hd_digit c s n : digit c -> has_digits s n -> has_digits (c :: s) (n + 1)
| hd_other c s n : ~ digit c -> has_digits s n -> has_digits (c :: s) n.
(* s, which has no '=', followed by k '=' does not fill its last group of four *)
Definition incomplete (s : bytes) (k : Z) : Prop :=
  exists n, has_digits s n /\ (n mod 4 = 1 \/ n mod 4 = 2 /\ k < 2 \/ n mod 4 = 3 /\ k < 1).

Lemma value_digit c : match b64_value c with Some _ => digit c | None => ~ digit c end.
Proof.
  unfold b64_value, digit.
  destruct ((65 <=? c) && (c <=? 90)) eqn:A; [lia|]. destruct ((97 <=? c) && (c <=? 122)) eqn:B; [lia|].
  destruct ((48 <=? c) && (c <=? 57)) eqn:C; [lia|]. destruct (c =? 43) eqn:D; [lia|]. destruct (c =? 47) eqn:E; [lia|]. lia.
Qed.
Lemma has_digits_nonneg s n : has_digits s n -> 0 <= n.
Proof. induction 1; lia. Qed.
Lemma pads_refused k q l p : 0 <= q < 4 -> 0 <= p -> (2 <= q -> q + p < 4) ->
  (b64decode_loop q l p (repeat 61 k) = Err ValueError <-> q = 1 \/ 2 <= q /\ q + p + Z.of_nat k < 4).
Proof.
  revert p. induction k as [|k IH]; intros p Q P S; cbn [repeat b64decode_loop].
  - destruct (Z.eqb_spec q 0); [split; [discriminate|lia]|]. split; [lia|reflexivity].
  - change (61 =? 61) with true. cbv iota. destruct (Z.leb_spec 2 q).
    + destruct (4 <=? q + (p + 1)) eqn:E; [split; [discriminate|lia]|]. rewrite IH by lia. lia.
    + rewrite IH by lia. lia.
Qed.
Lemma loop_refused s n k : has_digits s n -> ~ In 61 s -> forall q l, 0 <= q < 4 ->
  (b64decode_loop q l 0 (s ++ repeat 61 k) = Err ValueError <->
     (q + n) mod 4 = 1 \/ (q + n) mod 4 = 2 /\ Z.of_nat k < 2 \/ (q + n) mod 4 = 3 /\ Z.of_nat k < 1).
Proof.
  intros H. induction H as [|c s n D H IH|c s n D H IH]; intros N q l Q.
  - cbn [app]. rewrite pads_refused by lia. lia.
  - cbn [app b64decode_loop]. assert (c <> 61) by (intros ->; apply N; now left). destruct (Z.eqb_spec c 61); [easy|].
    pose proof (value_digit c) as V. destruct (b64_value c) as [v|]; [|tauto]. assert (~ In 61 s) as N' by (intros I; apply N; now right).
    assert (forall (A B : Type) (r : res A) (f : A -> B), (do x <- r; Ok (f x)) = Err ValueError <-> r = Err ValueError) as E.
    { intros A B r f. destruct r; cbn [bind]; split; congruence. }
    destruct (Z.eqb_spec q 0); [subst; rewrite (IH N' 1 v) by lia; replace (1 + n) with (0 + (n + 1)) by lia; tauto|].
    destruct (Z.eqb_spec q 1); [subst; rewrite (E _ _ _ (fun x => l * 4 + v / 16 :: x)), (IH N' 2) by lia; replace (2 + n) with (1 + (n + 1)) by lia; tauto|].
    destruct (Z.eqb_spec q 2); [subst; rewrite (E _ _ _ (fun x => l * 16 + v / 4 :: x)), (IH N' 3) by lia; replace (3 + n) with (2 + (n + 1)) by lia; tauto|].
    assert (q = 3) by lia. subst. rewrite (E _ _ _ (fun x => l * 64 + v :: x)), (IH N' 0) by lia. lia.
  - cbn [app b64decode_loop]. assert (c <> 61) by (intros ->; apply N; now left). destruct (Z.eqb_spec c 61); [easy|].
    pose proof (value_digit c) as V. destruct (b64_value c) as [v|]; [tauto|]. apply IH; auto. intros I; apply N; now right.
Qed.
Lemma has_digits_fun s : exists n, has_digits s n /\ forall m, has_digits s m -> m = n.
Proof.
  induction s as [|c s (n & H & U)]. { exists 0. split; [constructor|]. intros m M. now inversion M. }
  pose proof (value_digit c) as V. destruct (b64_value c).
  - exists (n + 1). split; [now constructor|]. intros m M. inversion M; subst; [|tauto]. f_equal. auto.
  - exists n. split; [now constructor|]. intros m M. inversion M; subst; [tauto|]. auto.
Qed.
Lemma base64_refused s k : ~ In 61 s -> (b64decode (s ++ repeat 61 k) = Err ValueError <-> incomplete s (Z.of_nat k)).
Proof.
  intros N. destruct (has_digits_fun s) as (n & H & U). unfold b64decode, incomplete. rewrite (loop_refused s n k H N 0 0) by lia.
  replace (0 + n) with n by lia. split; [intros X; exists n; auto|]. intros (m & M & X). apply U in M. now subst.
Qed.

(* a block with incomplete base64 *)
Lemma loop_body_lines l hs ws a b r : Forall (fun w => w <> [] /\ ~ ends w) ws -> forall b64,
  unarmor_loop (Body l hs b64) a b (ws ++ r) = unarmor_loop (Body l hs (b64 ++ concat ws)) a b r.
Proof.
  intros F. induction F as [|w ws [W E] F IH]; intros b64; cbn [app concat]; [now rewrite app_nil_r|].
  assert (dashes w = false) as D by (destruct (dashes w) eqn:X; [apply dashes_ends in X; tauto|reflexivity]).
  rewrite loop_body_line by auto. rewrite IH. now rewrite <- app_assoc.
Qed.
Lemma broken_block text junk label body stop rest : 
  lines_of text (junk ++ (tx "-----BEGIN " ++ label ++ tx "-----") :: body ++ stop :: rest) ->
  Forall (fun l => ~ begin_like l) junk -> label_ok label -> Forall (fun w => ~ ends w /\ ~ In 58 w) body -> ends stop ->
  b64decode (concat body) = Err ValueError -> unarmor_all text = Err ValueError /\ unarmor text = Err ValueError.
Proof.
  intros L J K B E D. apply lines_unique in L. pose proof (flines_full text) as F. rewrite <- L in F.
  assert (unarmor_loop Trash false false (flines text) = ([], Some ValueError)) as G.
  { rewrite <- L, loop_silent by exact J. change (tx "-----BEGIN " ++ label ++ tx "-----") with (begin_line label).
    assert (forall a b ls, unarmor_loop Trash a b (begin_line label :: ls) = unarmor_loop (Headers label []) true b ls) as S1.
    { intros. pose proof (match_begin_line label K) as M. destruct (begin_line label) as [|c w] eqn:X; [discriminate|]. cbn [unarmor_loop]. now rewrite M. }
    rewrite S1. apply Forall_app in F as [_ F]. inversion F as [|? ? _ F2]; subst. apply Forall_app in F2 as [F2 F3].
    destruct body as [|w body].
    - cbn in D. discriminate.
    - inversion B as [|? ? [B1 B2] B3]; subst. inversion F2 as [|? ? W F4]; subst. cbn [app]. rewrite loop_enter; [|exact W|now apply no_colon].
      assert (Forall (fun w => w <> [] /\ ~ ends w) (w :: body)) as Fb.
      { apply Forall_forall. intros x X. rewrite Forall_forall in F2, B. split; [now apply F2|now apply B]. }
      change (w :: body ++ stop :: rest) with ((w :: body) ++ stop :: rest). rewrite loop_body_lines by exact Fb.
      apply dashes_ends in E. destruct stop as [|c stop]; [discriminate|]. cbn [unarmor_loop]. unfold dashes in E. rewrite E. cbn [app]. now rewrite D. }
  unfold unarmor_all, unarmor. rewrite unarmor_flines, G. auto.
Qed.

(* whatever follows the first block *)
Lemma first_block j b p s : silent_text j -> line_end j -> ok_block b -> armor_block b = Ok p -> unarmor (j ++ p ++ s) = Ok b.
Proof.
  intros J E (L & H & D) P. unfold unarmor. rewrite unarmor_flines. rewrite flines_end by exact E.
  unfold armor_block in P. rewrite armor_ok in P by auto. injection P as <-. rewrite flines_armored by auto.
  rewrite loop_silent by (apply J; apply flines_of). rewrite loop_block by auto. destruct (unarmor_loop Trash true true (flines s)). now destruct b.
Qed.

Lemma contains_spec p s : contains p s = true <-> exists a b, s = a ++ p ++ b.
Proof.
  induction s as [|c s IH]; cbn [contains].
  - rewrite orb_false_r, starts_spec. split; [intros (r & E); exists [], r; auto|]. intros (a & b & E). destruct a; [eauto|discriminate].
  - rewrite orb_true_iff, starts_spec, IH. split.
    + intros [(r & E)|(a & b & E)]; [exists [], r; auto|]. exists (c :: a), b. cbn. now f_equal.
    + intros (a & b & E). destruct a as [|x a]; [left; eauto|]. right. inversion E. eauto.
Qed.
Lemma detect_spec s : detect s = true <-> exists a b, s = a ++ tx "-----BEGIN" ++ b \/ s = a ++ tx "---- BEGIN" ++ b.
Proof.
  unfold detect. rewrite orb_true_iff, !contains_spec. split.
  - intros [(a & b & E)|(a & b & E)]; eauto.
  - intros (a & b & [E|E]); eauto.
Qed.
