Require Import Verif.Base Verif.BaseFacts Verif.IntModel Verif.IntSpec.

Lemma pow256 n : 0 <= n -> 256 ^ n = 2 ^ (8 * n).
Proof. intros. change 256 with (2 ^ 8). now rewrite <- Z.pow_mul_r by lia. Qed.

Lemma pow256_pos n : 0 <= n -> 0 < 256 ^ n.
Proof. intros; apply Z.pow_pos_nonneg; lia. Qed.

Lemma be_fold_acc l a : fold_left (fun a b => a * 256 + b) l a = a * 256 ^ len l + be_value l.
Proof.
  revert a; induction l as [|b l IH]; intros a; cbn [fold_left be_value].
  - rewrite len_nil. cbn. lia.
  - rewrite IH, len_cons. rewrite Z.pow_add_r by (pose proof (len_nonneg l); lia).
    change (256 ^ 1) with 256. ring.
Qed.

Lemma be_fold_value l : be_fold l = be_value l.
Proof. unfold be_fold. rewrite be_fold_acc. lia. Qed.

Lemma be_value_app a b : be_value (a ++ b) = be_value a * 256 ^ len b + be_value b.
Proof.
  induction a as [|x a IH]; cbn [app be_value]; [lia|].
  rewrite IH, len_app, Z.pow_add_r by (apply len_nonneg). ring.
Qed.

Lemma be_value_bound l : bytes_ok l -> 0 <= be_value l < 256 ^ len l.
Proof.
  induction l as [|b l IH]; intros H; cbn [be_value].
  - cbn; lia.
  - apply bytes_ok_cons in H as [Hb Hl]. specialize (IH Hl). unfold byte_ok in Hb.
    rewrite len_cons, Z.pow_add_r by (pose proof (len_nonneg l); lia).
    change (256 ^ 1) with 256. nia.
Qed.

Lemma be_value_zeros n : be_value (zeros n) = 0.
Proof. induction n; [reflexivity|]. change (zeros (S n)) with (0 :: zeros n). cbn [be_value]. rewrite IHn. lia. Qed.

Lemma be_value_inj a b :
  bytes_ok a -> bytes_ok b -> length a = length b -> be_value a = be_value b -> a = b.
Proof.
  revert b; induction a as [|x a IH]; intros [|y b] Ha Hb L E; cbn in L; try lia; auto.
  apply bytes_ok_cons in Ha as [Hx Ha]. apply bytes_ok_cons in Hb as [Hy Hb].
  cbn [be_value] in E.
  assert (Hl : len a = len b) by (unfold len; lia). rewrite Hl in E.
  pose proof (be_value_bound a Ha) as Ba. pose proof (be_value_bound b Hb) as Bb.
  rewrite Hl in Ba. set (P := 256 ^ len b) in *.
  assert (x = y) by nia. subst y. f_equal. apply IH; auto; lia.
Qed.

Lemma be_digits_length w v : length (be_digits w v) = w.
Proof.
  revert v; induction w; intros v; cbn [be_digits]; auto.
  rewrite app_length, IHw. cbn. lia.
Qed.
Lemma be_digits_len w v : len (be_digits w v) = Z.of_nat w.
Proof. unfold len. now rewrite be_digits_length. Qed.

Lemma be_digits_ok w v : bytes_ok (be_digits w v).
Proof.
  revert v; induction w; intros v; cbn [be_digits]; [constructor|].
  apply bytes_ok_app; split; auto. apply bytes_ok_cons; split; [|constructor].
  unfold byte_ok. apply Z.mod_pos_bound; lia.
Qed.

Lemma be_digits_value w v : be_value (be_digits w v) = v mod 256 ^ Z.of_nat w.
Proof.
  revert v; induction w as [|w IH]; intros v.
  - cbn. now rewrite Z.mod_1_r.
  - cbn [be_digits]. rewrite be_value_app, IH. cbn [be_value]. rewrite len_cons, len_nil.
    change (256 ^ (1 + 0)) with 256. change (256 ^ 0) with 1.
    rewrite Nat2Z.inj_succ, Z.pow_succ_r by lia.
    rewrite Z.rem_mul_r by (try apply pow256_pos; lia). lia.
Qed.

Lemma be_digits_unique w v l :
  bytes_ok l -> length l = w -> be_value l = v mod 256 ^ Z.of_nat w -> l = be_digits w v.
Proof.
  intros. apply be_value_inj; auto using be_digits_ok.
  - now rewrite be_digits_length.
  - now rewrite be_digits_value.
Qed.

Lemma twos_value_alt l : bytes_ok l -> l <> [] ->
  twos_value l = if 128 <=? hd 0 l then be_value l - 256 ^ len l else be_value l.
Proof.
  destruct l as [|b t]; intros H N; [easy|]. cbn [twos_value hd be_value].
  apply bytes_ok_cons in H as [Hb Ht].
  rewrite len_cons, Z.pow_add_r by (pose proof (len_nonneg t); lia). change (256 ^ 1) with 256.
  destruct (b <? 128) eqn:E1, (128 <=? b) eqn:E2; lia.
Qed.

Lemma int_from_bytes_unsigned l : int_from_bytes l false = be_value l.
Proof. unfold int_from_bytes. apply be_fold_value. Qed.

Lemma int_from_bytes_signed l : bytes_ok l -> int_from_bytes l true = twos_value l.
Proof.
  intros H. destruct l as [|b t]; [reflexivity|].
  rewrite twos_value_alt by (auto; discriminate).
  unfold int_from_bytes. rewrite be_fold_value. cbn [hd].
  rewrite pow256 by apply len_nonneg. reflexivity.
Qed.

(* top byte in terms of the value *)
Lemma be_value_top b t : bytes_ok (b :: t) ->
  (128 <=? b) = (128 * 256 ^ len t <=? be_value (b :: t)).
Proof.
  intros H. apply bytes_ok_cons in H as [Hb Ht]. unfold byte_ok in Hb.
  pose proof (be_value_bound t Ht). pose proof (pow256_pos (len t) (len_nonneg t)).
  cbn [be_value]. apply eq_true_iff_eq. rewrite !Z.leb_le. split; intros; nia.
Qed.

Lemma twos_value_bound b t : bytes_ok (b :: t) ->
  - 128 * 256 ^ len t <= twos_value (b :: t) < 128 * 256 ^ len t.
Proof.
  intros H. pose proof (be_value_top b t H) as T.
  rewrite twos_value_alt by (auto; discriminate). cbn [hd]. rewrite T.
  pose proof (be_value_bound _ H) as B. rewrite len_cons in *.
  rewrite Z.pow_add_r in * by (pose proof (len_nonneg t); lia). change (256 ^ 1) with 256 in *.
  destruct (128 * 256 ^ len t <=? be_value (b :: t)) eqn:E; lia.
Qed.

Lemma twos_be_mod l : bytes_ok l -> be_value l = twos_value l mod 256 ^ len l.
Proof.
  intros H. destruct l as [|b t]; [reflexivity|].
  pose proof (be_value_bound _ H) as B.
  rewrite twos_value_alt by (auto; discriminate).
  destruct (128 <=? hd 0 (b :: t)).
  - rewrite <- (Z.mod_add _ 1) by lia.
    replace (be_value (b :: t) - 256 ^ len (b :: t) + 1 * 256 ^ len (b :: t)) with (be_value (b :: t)) by ring.
    symmetry; now apply Z.mod_small.
  - symmetry; now apply Z.mod_small.
Qed.

Lemma twos_value_inj a b : bytes_ok a -> bytes_ok b -> length a = length b ->
  twos_value a = twos_value b -> a = b.
Proof.
  intros Ha Hb L E. apply be_value_inj; auto.
  rewrite (twos_be_mod a), (twos_be_mod b) by auto. rewrite E. unfold len. now rewrite L.
Qed.

Lemma be_digits_twos n v :
  - 128 * 256 ^ Z.of_nat n <= v < 128 * 256 ^ Z.of_nat n -> twos_value (be_digits (S n) v) = v.
Proof.
  intros Hv. pose proof (be_digits_ok (S n) v) as Hok.
  pose proof (be_digits_length (S n) v) as Hlen.
  destruct (be_digits (S n) v) as [|b t] eqn:E; [cbn in Hlen; lia|].
  assert (Ht : len t = Z.of_nat n) by (unfold len; cbn in Hlen; lia).
  rewrite twos_value_alt by (auto; discriminate). cbn [hd].
  rewrite (be_value_top b t) by auto. rewrite <- E.
  rewrite be_digits_value, E, len_cons, Ht.
  rewrite Nat2Z.inj_succ, Z.pow_succ_r by lia.
  rewrite Z.pow_add_r by lia. change (256 ^ 1) with 256.
  pose proof (pow256_pos (Z.of_nat n)) as P.
  set (Q := 256 ^ Z.of_nat n) in *.
  destruct (Z.ltb_spec v 0).
  - assert (v mod (256 * Q) = v + 256 * Q).
    { rewrite <- (Z.mod_add v 1) by lia. rewrite Z.mod_small by lia. lia. }
    rewrite H0. destruct (128 * Q <=? v + 256 * Q) eqn:F; lia.
  - rewrite Z.mod_small by lia.
    destruct (128 * Q <=? v) eqn:F; lia.
Qed.

(* ---- widths ---- *)
Lemma bit_length_spec v : 0 <= bit_length v /\ Z.abs v < 2 ^ bit_length v /\
  (v <> 0 -> 2 ^ (bit_length v - 1) <= Z.abs v).
Proof.
  unfold bit_length. destruct (Z.eqb_spec v 0) as [->|N].
  - cbn. lia.
  - pose proof (Z.log2_nonneg (Z.abs v)). pose proof (Z.log2_spec (Z.abs v)) as S.
    destruct S as [S1 S2]; [lia|].
    replace (Z.log2 (Z.abs v) + 1 - 1) with (Z.log2 (Z.abs v)) by lia.
    rewrite Z.add_1_r. lia.
Qed.

Lemma auto_width_pos v s : 1 <= auto_width v s.
Proof.
  unfold auto_width. set (bits := if s then _ else _).
  assert (0 <= bits).
  { unfold bits. pose proof (bit_length_spec v). pose proof (bit_length_spec (Z.abs (v + 1))).
    destruct s; [|lia]. destruct (v <? 0); destruct (_ =? 0); lia. }
  destruct (Z.eqb_spec ((bits + 7) / 8) 0); lia.
Qed.

(* the signed automatic width w satisfies: v fits in w bytes, and not in w-1 (w>=2) *)
Lemma auto_width_signed v : let w := auto_width v true in
  - 2 ^ (8 * w - 1) <= v < 2 ^ (8 * w - 1) /\
  (2 <= w -> ~ (- 2 ^ (8 * w - 9) <= v < 2 ^ (8 * w - 9))).
Proof.
  cbn zeta. unfold auto_width.
  set (b0 := if v <? 0 then bit_length (Z.abs (v + 1)) else bit_length v).
  set (u := if v <? 0 then Z.abs (v + 1) else v).
  assert (Hb0 : b0 = bit_length u) by (unfold b0, u; destruct (v <? 0); auto).
  assert (Hu : 0 <= u) by (unfold u; destruct (v <? 0) eqn:?; lia).
  pose proof (bit_length_spec u) as (B0 & B1 & B2). rewrite <- Hb0 in *.
  set (bits := if b0 mod 8 =? 0 then b0 + 1 else b0).
  set (w0 := (bits + 7) / 8).
  assert (Hbits : b0 <= bits /\ bits <= b0 + 1 /\ bits mod 8 <> 0).
  { unfold bits. destruct (Z.eqb_spec (b0 mod 8) 0); lia. }
  assert (Hw : 8 * w0 - 7 <= bits <= 8 * w0 - 1) by (unfold w0; lia).
  destruct (Z.eqb_spec w0 0); [lia|].
  assert (F : forall k, 0 <= k -> (- 2 ^ k <= v < 2 ^ k <-> u < 2 ^ k)).
  { intros k Hk. unfold u. pose proof (Z.pow_pos_nonneg 2 k). destruct (Z.ltb_spec v 0); lia. }
  split.
  - apply F; [lia|]. apply Z.lt_le_trans with (2 ^ b0); [lia|].
    apply Z.pow_le_mono_r; lia.
  - intros W2. rewrite F by lia. intros C.
    assert (Hb : 8 * w0 - 8 <= b0).
    { unfold bits in *. destruct (Z.eqb_spec (b0 mod 8) 0); lia. }
    assert (Hu0 : u <> 0). { intros Eu. rewrite Eu in Hb0. cbn in Hb0. lia. }
    specialize (B2 Hu0). assert (2 ^ (8 * w0 - 9) <= 2 ^ (b0 - 1)) by (apply Z.pow_le_mono_r; lia).
    lia.
Qed.

Lemma auto_width_unsigned v : 0 <= v -> let w := auto_width v false in
  v < 2 ^ (8 * w) /\ (2 <= w -> 2 ^ (8 * (w - 1)) <= v).
Proof.
  intros Hv. cbn zeta. unfold auto_width.
  pose proof (bit_length_spec v) as (B0 & B1 & B2). set (b := bit_length v) in *.
  destruct (Z.eqb_spec ((b + 7) / 8) 0).
  - split; [|lia]. assert (b = 0) by lia. rewrite H in B1. cbn in B1. cbn; lia.
  - set (w := (b + 7) / 8) in *. assert (8 * w - 7 <= b <= 8 * w) by lia. split.
    + apply Z.lt_le_trans with (2 ^ b); [lia|]. apply Z.pow_le_mono_r; lia.
    + intros. assert (v <> 0). { intros ->. cbn in b. lia. }
      specialize (B2 H1). assert (2 ^ (8 * (w - 1)) <= 2 ^ (b - 1)) by (apply Z.pow_le_mono_r; lia). lia.
Qed.

Lemma half_pow w : 1 <= w -> 2 ^ (8 * w - 1) = 128 * 256 ^ (w - 1).
Proof.
  intros. rewrite pow256 by lia. change 128 with (2 ^ 7). rewrite <- Z.pow_add_r by lia. f_equal; lia.
Qed.

(* ---- C01 ---- *)
Lemma int_to_bytes_signed_ok v : exists l,
  int_to_bytes v true None = Ok l /\ bytes_ok l /\ l <> [] /\ len l = auto_width v true /\ twos_value l = v.
Proof.
  pose proof (auto_width_pos v true) as Hp. pose proof (auto_width_signed v) as [Hf _].
  cbn zeta in Hf. set (w := auto_width v true) in *.
  exists (be_digits (Z.to_nat w) v).
  assert (Hnat : Z.to_nat w = S (Z.to_nat (w - 1))) by lia.
  repeat split; auto using be_digits_ok.
  - unfold int_to_bytes, py_to_bytes. fold w.
    destruct (Z.ltb_spec w 0); [lia|]. destruct (Z.eqb_spec w 0); [lia|].
    destruct ((- 2 ^ (8 * w - 1) <=? v) && (v <? 2 ^ (8 * w - 1))) eqn:E; auto. lia.
  - intros E. apply (f_equal (@length Z)) in E. rewrite be_digits_length in E. cbn in E. lia.
  - rewrite be_digits_len. lia.
  - rewrite Hnat. apply be_digits_twos. rewrite half_pow in Hf by lia.
    replace (Z.of_nat (Z.to_nat (w - 1))) with (w - 1) by lia. lia.
Qed.

Lemma int_signed_roundtrip v : exists l,
  int_to_bytes v true None = Ok l /\ bytes_ok l /\ l <> [] /\ int_from_bytes l true = v /\
  (forall l', bytes_ok l' -> l' <> [] -> int_from_bytes l' true = v ->
     (length l <= length l')%nat /\ (length l' = length l -> l' = l)).
Proof.
  destruct (int_to_bytes_signed_ok v) as (l & H1 & H2 & H3 & H4 & H5).
  exists l. rewrite int_from_bytes_signed by auto. split; [|split; [|split; [|split]]]; auto.
  intros l' Hl' N E. rewrite int_from_bytes_signed in E by auto. split.
  - destruct (Nat.le_gt_cases (length l) (length l')) as [|C]; auto. exfalso.
    pose proof (auto_width_signed v) as [_ Hmin]. cbn zeta in Hmin. rewrite <- H4 in Hmin.
    destruct l' as [|b t]; [easy|].
    pose proof (twos_value_bound b t Hl') as Hb. rewrite E in Hb.
    apply Hmin; [unfold len in *; cbn [length] in *; lia|].
    assert (128 * 256 ^ len t <= 2 ^ (8 * len l - 9)).
    { rewrite pow256 by apply len_nonneg. change 128 with (2 ^ 7). rewrite <- Z.pow_add_r by (pose proof (len_nonneg t); lia).
      apply Z.pow_le_mono_r; [lia|]. unfold len in *; cbn [length] in *; lia. }
    lia.
  - intros L. apply twos_value_inj; auto. now rewrite H5.
Qed.

(* ---- C02 ---- *)
Lemma int_to_bytes_width v w : 0 <= v -> 0 <= w ->
  (v < 256 ^ w -> exists l, int_to_bytes v false (Some w) = Ok l /\ bytes_ok l /\ len l = w /\ be_value l = v) /\
  (256 ^ w <= v -> int_to_bytes v false (Some w) = Err OverflowError).
Proof.
  intros Hv Hw. unfold int_to_bytes, py_to_bytes. rewrite pow256 by lia.
  destruct (Z.ltb_spec w 0); [lia|]. split; intros H0.
  - exists (be_digits (Z.to_nat w) v).
    destruct ((0 <=? v) && (v <? 2 ^ (8 * w))) eqn:E; [|lia].
    repeat split; auto using be_digits_ok.
    + rewrite be_digits_len. lia.
    + rewrite be_digits_value. apply Z.mod_small. rewrite Z2Nat.id, pow256 by lia. lia.
  - destruct ((0 <=? v) && (v <? 2 ^ (8 * w))) eqn:E; auto. lia.
Qed.

Lemma int_to_bytes_unsigned_ok v : 0 <= v -> exists l,
  int_to_bytes v false None = Ok l /\ bytes_ok l /\ l <> [] /\ be_value l = v /\ len l = auto_width v false /\
  (l = [0] \/ 0 < hd 0 l).
Proof.
  intros Hv. pose proof (auto_width_pos v false) as Hp. pose proof (auto_width_unsigned v Hv) as [Hf Hm].
  cbn zeta in *. set (w := auto_width v false) in *.
  assert (Hval : be_value (be_digits (Z.to_nat w) v) = v).
  { rewrite be_digits_value. apply Z.mod_small. rewrite Z2Nat.id, pow256 by lia. lia. }
  exists (be_digits (Z.to_nat w) v). repeat split; auto using be_digits_ok.
  - unfold int_to_bytes, py_to_bytes. fold w. destruct (Z.ltb_spec w 0); [lia|].
    destruct ((0 <=? v) && (v <? 2 ^ (8 * w))) eqn:E; auto. lia.
  - intros E. apply (f_equal (@length Z)) in E. rewrite be_digits_length in E. cbn in E. lia.
  - rewrite be_digits_len; lia.
  - pose proof (be_digits_ok (Z.to_nat w) v) as Hok. pose proof (be_digits_len (Z.to_nat w) v) as Hlen.
    destruct (be_digits (Z.to_nat w) v) as [|b t]; [cbn in Hlen; lia|].
    apply bytes_ok_cons in Hok as [Hb Ht]. unfold byte_ok in Hb. cbn [hd].
    destruct (Z.eq_dec b 0) as [->|]; [|right; lia].
    rewrite len_cons in Hlen. cbn [be_value] in Hval.
    pose proof (be_value_bound t Ht) as Bt.
    destruct (Z.le_gt_cases 2 w).
    + exfalso. specialize (Hm H). rewrite <- pow256 in Hm by lia.
      replace (w - 1) with (len t) in Hm by lia. lia.
    + left. f_equal. apply len_zero_nil. lia.
Qed.

Lemma shortest_be l l' : bytes_ok l -> bytes_ok l' -> l' <> [] ->
  (l = [0] \/ 0 < hd 0 l) -> be_value l' = be_value l ->
  (length l <= length l')%nat /\ (length l' = length l -> l' = l).
Proof.
  intros H H' N Hd E. split.
  - destruct Hd as [->|Hd]; [destruct l'; [easy|cbn; lia]|].
    destruct l as [|b t]; [cbn in *; lia|]. cbn [hd] in Hd.
    destruct (Nat.le_gt_cases (length (b :: t)) (length l')); auto. exfalso.
    pose proof (be_value_bound l' H') as B. rewrite E in B.
    apply bytes_ok_cons in H as [Hb Ht]. pose proof (be_value_bound t Ht). cbn [be_value] in B.
    assert (256 ^ len l' <= 256 ^ len t) by (apply Z.pow_le_mono_r; [lia|]; unfold len; cbn [length] in *; lia).
    nia.
  - intros L. apply be_value_inj; auto.
Qed.

Lemma int_unsigned_roundtrip v : 0 <= v -> exists l,
  int_to_bytes v false None = Ok l /\ bytes_ok l /\ l <> [] /\ int_from_bytes l false = v /\
  (forall l', bytes_ok l' -> l' <> [] -> int_from_bytes l' false = v ->
     (length l <= length l')%nat /\ (length l' = length l -> l' = l)).
Proof.
  intros Hv. destruct (int_to_bytes_unsigned_ok v Hv) as (l & H1 & H2 & H3 & H4 & H5 & H6).
  exists l. rewrite int_from_bytes_unsigned. split; [|split; [|split; [|split]]]; auto.
  intros l' Hl' N E. rewrite int_from_bytes_unsigned in E. apply shortest_be; auto; lia.
Qed.

Lemma int_to_bytes_negative v w : v < 0 ->
  (match w with Some w => 0 <= w | None => True end) -> int_to_bytes v false w = Err OverflowError.
Proof.
  intros. unfold int_to_bytes, py_to_bytes.
  set (x := match w with None => _ | Some w => w end).
  assert (0 <= x). { unfold x; destruct w; [auto|]. pose proof (auto_width_pos v false). lia. }
  destruct (Z.ltb_spec x 0); [lia|]. destruct ((0 <=? v) && _) eqn:E; auto. lia.
Qed.

(* signed fixed width *)
Lemma int_to_bytes_signed_width v w : 1 <= w ->
  (- 2 ^ (8 * w - 1) <= v < 2 ^ (8 * w - 1) ->
     exists l, int_to_bytes v true (Some w) = Ok l /\ bytes_ok l /\ len l = w /\ twos_value l = v) /\
  (~ (- 2 ^ (8 * w - 1) <= v < 2 ^ (8 * w - 1)) -> int_to_bytes v true (Some w) = Err OverflowError).
Proof.
  intros Hw. unfold int_to_bytes, py_to_bytes.
  destruct (Z.ltb_spec w 0); [lia|]. destruct (Z.eqb_spec w 0); [lia|].
  split; intros Hr; destruct ((- 2 ^ (8 * w - 1) <=? v) && (v <? 2 ^ (8 * w - 1))) eqn:E; try lia; auto.
  exists (be_digits (Z.to_nat w) v). repeat split; auto using be_digits_ok.
  - rewrite be_digits_len; lia.
  - assert (Hnat : Z.to_nat w = S (Z.to_nat (w - 1))) by lia. rewrite Hnat.
    apply be_digits_twos. rewrite half_pow in Hr by lia. rewrite Z2Nat.id by lia. lia.
Qed.

(* fill_width *)
Lemma fill_loop_spec f l w : (Z.to_nat (w - len l) <= f)%nat ->
  fill_loop f l w = zeros (Z.to_nat (w - len l)) ++ l.
Proof.
  revert l; induction f; intros l H.
  - replace (Z.to_nat (w - len l)) with 0%nat by lia. reflexivity.
  - cbn [fill_loop]. destruct (Z.ltb_spec (len l) w).
    + rewrite IHf by (rewrite len_cons; lia).
      rewrite len_cons. replace (Z.to_nat (w - len l)) with (S (Z.to_nat (w - (1 + len l)))) by lia.
      unfold zeros. cbn [repeat]. rewrite repeat_cons. rewrite <- app_assoc. reflexivity.
    + replace (Z.to_nat (w - len l)) with 0%nat by lia. reflexivity.
Qed.
Lemma fill_width_spec l w : fill_width l w = zeros (Z.to_nat (w - len l)) ++ l.
Proof. unfold fill_width. now apply fill_loop_spec. Qed.

Lemma fill_width_props l w : bytes_ok l ->
  bytes_ok (fill_width l w) /\ be_value (fill_width l w) = be_value l /\ len (fill_width l w) = Z.max w (len l).
Proof.
  intros H. rewrite fill_width_spec. split; [|split].
  - apply bytes_ok_app; split; auto using bytes_ok_zeros.
  - rewrite be_value_app, be_value_zeros. lia.
  - rewrite len_app. unfold zeros, len at 1. rewrite repeat_length. pose proof (len_nonneg l). lia.
Qed.

(* ---- Python 2 branch ---- *)
Lemma hex_bytes_unsigned v : 0 <= v -> hex_bytes v = be_digits (Z.to_nat (auto_width v false)) v.
Proof.
  intros Hv. unfold hex_bytes. f_equal. f_equal. unfold hex_len, auto_width, bit_length.
  destruct (Z.eqb_spec v 0) as [->|N]; [reflexivity|].
  rewrite Z.abs_eq by lia. pose proof (Z.log2_nonneg v).
  destruct (Z.eqb_spec ((Z.log2 v + 1 + 7) / 8) 0); lia.
Qed.

Lemma py2_unsigned_agrees v w : 0 <= v -> (match w with Some w => 0 <= w | None => True end) ->
  int_to_bytes_py2 v false w = int_to_bytes v false w.
Proof.
  intros Hv Hw. unfold int_to_bytes_py2. cbn [andb].
  destruct ((v =? 0) && match w with Some 0 => true | _ => false end) eqn:E0.
  - destruct w as [[|p|p]|]; rewrite ?andb_false_r in E0; try discriminate. assert (v = 0) by lia. subst. reflexivity.
  - destruct (Z.ltb_spec v 0); [lia|].
    destruct (int_to_bytes_unsigned_ok v Hv) as (l & H1 & H2 & H3 & H4 & H5 & H6).
    assert (Hl : hex_bytes v = l).
    { rewrite hex_bytes_unsigned by auto. symmetry. apply be_digits_unique; auto.
      - unfold len in H5. lia.
      - rewrite H4. symmetry. apply Z.mod_small. rewrite Z2Nat.id by (pose proof (auto_width_pos v false); lia).
        rewrite pow256 by (pose proof (auto_width_pos v false); lia).
        pose proof (auto_width_unsigned v Hv) as [Hf _]. cbn zeta in Hf. lia. }
    rewrite Hl. destruct w as [w|]; [|now rewrite H1].
    pose proof (int_to_bytes_width v w Hv Hw) as [Wa Wb].
    destruct (Z.ltb_spec w (len l)).
    + rewrite Wb; auto. rewrite H5 in H0. pose proof (auto_width_unsigned v Hv) as [_ Hm]. cbn zeta in Hm.
      destruct (Z.le_gt_cases 2 (auto_width v false)).
      * specialize (Hm H7). rewrite pow256 by lia.
        assert (2 ^ (8 * w) <= 2 ^ (8 * (auto_width v false - 1))) by (apply Z.pow_le_mono_r; lia). lia.
      * assert (w = 0) by lia. subst w. cbn.
        destruct (Z.eq_dec v 0) as [Ev|]; [rewrite Ev in E0; cbn in E0; lia|lia].
    + assert (Hlt : v < 256 ^ w).
      { rewrite pow256 by lia. pose proof (auto_width_unsigned v Hv) as [Hf _]. cbn zeta in Hf.
        assert (2 ^ (8 * auto_width v false) <= 2 ^ (8 * w)) by (apply Z.pow_le_mono_r; lia). lia. }
      destruct (Wa Hlt) as (l2 & G1 & G2 & G3 & G4). rewrite G1. f_equal.
      apply be_value_inj; auto.
      * apply bytes_ok_app; split; auto. apply bytes_ok_zeros.
      * rewrite app_length, repeat_length. unfold len in *. lia.
      * rewrite be_value_app. change (repeat 0 ?n) with (zeros n). rewrite be_value_zeros. lia.
Qed.

Lemma py2_from_agrees l s : int_from_bytes_py2 l s = int_from_bytes l s.
Proof.
  unfold int_from_bytes_py2, int_from_bytes. destruct l as [|b t]; [destruct s; reflexivity|].
  destruct s; cbn [negb]; auto. now rewrite Z.mul_comm.
Qed.
