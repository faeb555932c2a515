Require Import Verif.Base Verif.BaseFacts Verif.IntModel Verif.IntSpec Verif.IntProofs.
Require Import Verif.ParserModel Verif.ParserSpec.

Opaque Z.mul Z.add Z.sub Z.pow.

Ltac okeq := repeat (match goal with
  | |- Ok _ = Ok _ => f_equal
  | |- (_, _) = (_, _) => f_equal
  | |- mkParsed _ _ _ _ _ _ = mkParsed _ _ _ _ _ _ => f_equal
  | |- mkInfo _ _ _ _ _ _ = mkInfo _ _ _ _ _ _ => f_equal
  end); try reflexivity; try lia.

(* ---------- bit operations on bytes ---------- *)
Lemma land31 b : Z.land b 31 = b mod 32.
Proof. change 31 with (Z.ones 5). now rewrite Z.land_ones by lia. Qed.
Lemma land127 b : Z.land b 127 = b mod 128.
Proof. change 127 with (Z.ones 7). now rewrite Z.land_ones by lia. Qed.
Lemma land1 b : Z.land b 1 = b mod 2.
Proof. change 1 with (Z.ones 1). now rewrite Z.land_ones by lia. Qed.
Lemma shr5 b : Z.shiftr b 5 = b / 32.
Proof. now rewrite Z.shiftr_div_pow2 by lia. Qed.
Lemma shr6 b : Z.shiftr b 6 = b / 64.
Proof. now rewrite Z.shiftr_div_pow2 by lia. Qed.
Lemma shr7 b : Z.shiftr b 7 = b / 128.
Proof. now rewrite Z.shiftr_div_pow2 by lia. Qed.

Lemma lor_disjoint a b k : 0 <= k -> 0 <= b < 2 ^ k -> a mod 2 ^ k = 0 -> Z.lor a b = a + b.
Proof.
  intros Hk Hb Ha.
  assert (Hl : Z.land a b = 0).
  { apply Z.bits_inj'. intros n Hn. rewrite Z.land_spec, Z.bits_0.
    destruct (Z.lt_ge_cases n k).
    + replace (Z.testbit a n) with false; auto.
      replace a with (a / 2 ^ k * 2 ^ k) by (pose proof (Z.pow_pos_nonneg 2 k); lia).
      symmetry. apply Z.mul_pow2_bits_low. lia.
    + replace (Z.testbit b n) with false; [apply andb_false_r|].
      symmetry. destruct (Z.eq_dec b 0) as [->|]; [apply Z.bits_0|].
      apply Z.bits_above_log2; [lia|]. apply Z.log2_lt_pow2; [lia|].
      apply Z.lt_le_trans with (2 ^ k); [lia|]. apply Z.pow_le_mono_r; lia. }
  rewrite Z.add_nocarry_lxor by auto. symmetry. now apply Z.lxor_lor.
Qed.

(* ---------- pow/len helper ---------- *)
Lemma pow128_succ {A} (x : A) l : 128 ^ len (x :: l) = 128 * 128 ^ len l.
Proof. rewrite len_cons, Z.pow_add_r by (pose proof (len_nonneg l); lia). reflexivity. Qed.

Lemma b128_value_app a b : b128_value (a ++ b) = b128_value a * 128 ^ len b + b128_value b.
Proof.
  induction a as [|x a IH]; cbn [app b128_value]; [lia|].
  rewrite IH, len_app, Z.pow_add_r by apply len_nonneg. ring.
Qed.

Lemma b128_value_bound l : Forall (fun d => 0 <= d < 128) l -> 0 <= b128_value l < 128 ^ len l.
Proof.
  induction l as [|d l IH]; intros H; cbn [b128_value].
  - cbn. lia.
  - inversion H; subst. specialize (IH H3). rewrite pow128_succ.
    assert (0 < 128 ^ len l) by (apply Z.pow_pos_nonneg; [lia|apply len_nonneg]). nia.
Qed.

(* ---------- identifier octets ---------- *)
Lemma tag_loop_sound fuel : forall pre rest tag0 t p,
  bytes_ok rest -> 0 <= tag0 ->
  tag_loop fuel (pre ++ rest) (len (pre ++ rest)) (len pre) tag0 = Ok (t, p) ->
  exists hi lo rest',
    rest = (map (fun d => 128 + d) hi ++ [lo]) ++ rest' /\
    Forall (fun d => 0 <= d < 128) (hi ++ [lo]) /\
    (tag0 = 0 -> match hi with [] => True | d :: _ => d <> 0 end) /\
    t = tag0 * 128 ^ (len hi + 1) + b128_value (hi ++ [lo]) /\
    p = len pre + (len hi + 1).
Proof.
  induction fuel as [|f IH]; intros pre rest tag0 t p Hok Ht0 H; cbn [tag_loop] in H; [discriminate|].
  rewrite len_app in H. pose proof (len_nonneg pre) as Lp. pose proof (len_nonneg rest) as Lr.
  destruct (Z.ltb_spec (len pre + len rest) (len pre + 1)); [discriminate|].
  destruct rest as [|num rest]; [rewrite len_nil in *; lia|].
  rewrite at_mid in H by reflexivity.
  apply bytes_ok_cons in Hok as [Hn Hok]. unfold byte_ok in Hn.
  destruct ((num =? 128) && (tag0 =? 0)) eqn:E1; [discriminate|].
  rewrite land127, shr7 in H.
  destruct (Z.eqb_spec (num / 128) 0) as [E2|E2].
  - injection H as <- <-. exists [], num, rest.
    assert (num < 128) by lia. cbn [map app]. repeat split; auto.
    + constructor; [lia|constructor].
    + cbn [b128_value]. rewrite len_nil. change (128 ^ (0 + 1)) with 128. change (128 ^ 0) with 1.
      rewrite Z.mod_small by lia. lia.
  - change (num :: rest) with ([num] ++ rest) in H.
    assert (Hd : num = 128 + (num - 128)) by lia.
    replace (pre ++ [num] ++ rest) with ((pre ++ [num]) ++ rest) in H by now rewrite <- app_assoc.
    replace (len pre + len ([num] ++ rest)) with (len ((pre ++ [num]) ++ rest)) in H
      by (rewrite !len_app; lia).
    replace (len pre + 1) with (len (pre ++ [num])) in H by (rewrite len_app; reflexivity).
    assert (Hm : num mod 128 = num - 128) by lia. rewrite Hm in H.
    apply IH in H; [|auto|lia].
    destruct H as (hi & lo & rest' & R1 & R2 & R3 & R4 & R5).
    exists ((num - 128) :: hi), lo, rest'. cbn [map app]. rewrite <- Hd.
    repeat split.
    + now rewrite R1.
    + constructor; [lia|auto].
    + intros ->. lia.
    + rewrite R4. cbn [b128_value]. rewrite len_cons, len_app, len_cons, len_nil.
      replace (1 + len hi + 1) with (1 + (len hi + 1)) by lia.
      rewrite (Z.pow_add_r 128 1) by (pose proof (len_nonneg hi); lia).
      change (128 ^ 1) with 128. replace (len hi + (1 + 0)) with (len hi + 1) by lia. ring.
    + rewrite R5, len_app, !len_cons, len_nil. lia.
Qed.

Lemma tag_loop_complete hi : forall fuel pre lo rest tag0,
  0 <= tag0 -> (length hi < fuel)%nat ->
  Forall (fun d => 0 <= d < 128) (hi ++ [lo]) ->
  (tag0 = 0 -> match hi with [] => True | d :: _ => d <> 0 end) ->
  forall dl, len pre + (len hi + 1) <= dl ->
  tag_loop fuel (pre ++ (map (fun d => 128 + d) hi ++ [lo]) ++ rest) dl (len pre) tag0 =
  Ok (tag0 * 128 ^ (len hi + 1) + b128_value (hi ++ [lo]), len pre + (len hi + 1)).
Proof.
  induction hi as [|d hi IH]; intros fuel pre lo rest tag0 Ht0 Hf Hall Hmin dl Hdl.
  - destruct fuel as [|f]; [cbn in Hf; lia|]. cbn [tag_loop map app] in *.
    rewrite len_nil in *. destruct (Z.ltb_spec dl (len pre + 1)); [lia|].
    rewrite at_mid by reflexivity. inversion Hall; subst.
    destruct ((lo =? 128) && (tag0 =? 0)) eqn:E; [lia|].
    rewrite land127, shr7. destruct (Z.eqb_spec (lo / 128) 0); [|lia].
    cbn [b128_value]. rewrite len_nil. change (128 ^ (0 + 1)) with 128. change (128 ^ 0) with 1.
    rewrite Z.mod_small by lia. okeq.
  - destruct fuel as [|f]; [cbn in Hf; lia|].
    inversion Hall as [|? ? Hd Hall']; subst.
    rewrite len_cons in Hdl. pose proof (len_nonneg hi).
    cbn [tag_loop map app].
    destruct (Z.ltb_spec dl (len pre + 1)); [lia|].
    rewrite at_mid by reflexivity.
    destruct ((128 + d =? 128) && (tag0 =? 0)) eqn:E.
    { assert (d = 0 /\ tag0 = 0) as [-> ->] by lia. specialize (Hmin eq_refl). cbn in Hmin. lia. }
    rewrite land127, shr7. destruct (Z.eqb_spec ((128 + d) / 128) 0); [lia|].
    replace (pre ++ 128 + d :: (map (fun d0 => 128 + d0) hi ++ [lo]) ++ rest)
      with ((pre ++ [128 + d]) ++ (map (fun d0 => 128 + d0) hi ++ [lo]) ++ rest)
      by (now rewrite <- app_assoc).
    replace (len pre + 1) with (len (pre ++ [128 + d])) by (rewrite len_app; reflexivity).
    assert (Hm : (128 + d) mod 128 = d) by lia. rewrite Hm.
    rewrite IH.
    + do 2 f_equal.
      * cbn [b128_value]. rewrite len_cons, len_app, len_cons, len_nil.
        replace (1 + len hi + 1) with (1 + (len hi + 1)) by lia.
        rewrite (Z.pow_add_r 128 1) by lia. change (128 ^ 1) with 128.
        replace (len hi + (1 + 0)) with (len hi + 1) by lia. ring.
      * rewrite len_app, !len_cons, len_nil. lia.
    + lia.
    + cbn [length] in Hf. lia.
    + auto.
    + intros Hz. assert (Hd0 : d = 0) by lia. assert (Ht : tag0 = 0) by lia. specialize (Hmin Ht). cbn in Hmin. lia.
    + rewrite len_app, len_cons, len_nil. lia.
Qed.

Lemma parse_ident_sound pre rest fo m t p :
  bytes_ok rest ->
  parse_ident (pre ++ rest) (len (pre ++ rest)) (len pre) = Ok (fo, m, t, p) ->
  exists i rest', rest = i ++ rest' /\ ident (Z.shiftr fo 6) m t i /\ p = len pre + len i.
Proof.
  intros Hok H. unfold parse_ident in H. rewrite len_app in H.
  pose proof (len_nonneg pre) as Lp. pose proof (len_nonneg rest) as Lr.
  destruct (Z.ltb_spec (len pre + len rest) (len pre + 1)); [discriminate|].
  destruct rest as [|b rest]; [rewrite len_nil in *; lia|].
  rewrite at_mid in H by reflexivity.
  pose proof Hok as Hok'. apply bytes_ok_cons in Hok as [Hb Hok]. unfold byte_ok in Hb.
  rewrite land31, land1, shr5 in H.
  destruct (Z.eqb_spec (b mod 32) 31) as [E|E].
  - apply bind_ok in H as ((t' & p') & H1 & H2).
    destruct (Z.ltb_spec t' 31); [discriminate|]. injection H2 as <- <- <- <-.
    replace (pre ++ b :: rest) with ((pre ++ [b]) ++ rest) in H1 by now rewrite <- app_assoc.
    replace (len pre + len (b :: rest)) with (len ((pre ++ [b]) ++ rest)) in H1
      by (rewrite !len_app, !len_cons, len_nil; lia).
    replace (len pre + 1) with (len (pre ++ [b])) in H1 by (rewrite len_app; reflexivity).
    apply tag_loop_sound in H1; [|auto|lia].
    destruct H1 as (hi & lo & rest' & R1 & R2 & R3 & R4 & R5).
    exists (b :: map (fun d => 128 + d) hi ++ [lo]), rest'. repeat split.
    + cbn [app]. now rewrite R1.
    + replace b with (64 * (Z.shiftr b 6) + 32 * (b / 32 mod 2) + 31) at 3 by (rewrite shr6; lia).
      apply ident_high; try (rewrite ?shr6; lia).
      exists hi, lo. split; [reflexivity|split; [auto|split; [now apply R3|lia]]].
    + rewrite R5, len_app, !len_cons, len_app, len_cons, len_nil.
      rewrite len_map. lia.
  - injection H as <- <- <- <-. exists [b], rest. repeat split.
    replace b with (64 * (Z.shiftr b 6) + 32 * (b / 32 mod 2) + b mod 32) at 4 by (rewrite shr6; lia).
    apply ident_low; rewrite ?shr6; lia.
Qed.

Lemma ident_ok c m t i : ident c m t i -> bytes_ok i /\ 0 <= c <= 3 /\ 0 <= m <= 1 /\ 0 <= t /\ 1 <= len i.
Proof.
  intros [Hc Hm Ht|l Hc Hm Ht (hi & lo & -> & Hall & _ & _)].
  - repeat split; try lia.
    + constructor; [unfold byte_ok; lia|constructor].
    + rewrite len_cons, len_nil. lia.
  - repeat split; try lia.
    + constructor; [unfold byte_ok; lia|]. rewrite Forall_forall in *. intros x Hx.
      apply in_app_or in Hx as [Hx|Hx].
      * apply in_map_iff in Hx as (y & <- & Hy). specialize (Hall y (in_or_app _ _ _ (or_introl Hy))).
        unfold byte_ok. lia.
      * specialize (Hall x (in_or_app _ _ _ (or_intror Hx))). unfold byte_ok. lia.
    + rewrite len_cons. pose proof (len_nonneg (map (fun d => 128 + d) hi ++ [lo])). lia.
Qed.

Lemma parse_ident_complete c m t i pre rest dl :
  ident c m t i -> len pre + len i <= dl ->
  exists fo, parse_ident (pre ++ i ++ rest) dl (len pre) = Ok (fo, m, t, len pre + len i) /\
             Z.shiftr fo 6 = c.
Proof.
  intros Hi Hdl. unfold parse_ident. pose proof (ident_ok _ _ _ _ Hi) as (_ & _ & _ & _ & Hl).
  destruct (Z.ltb_spec dl (len pre + 1)); [lia|].
  destruct Hi as [Hc Hm Ht|l Hc Hm Ht (hi & lo & -> & Hall & Hmin & Hval)].
  - exists (64 * c + 32 * m + t). cbn [app]. rewrite at_mid by reflexivity.
    rewrite land31, land1, shr5.
    destruct (Z.eqb_spec ((64 * c + 32 * m + t) mod 32) 31); [lia|].
    split; [|rewrite shr6; lia]. rewrite len_cons, len_nil. okeq.
  - exists (64 * c + 32 * m + 31). split; [|rewrite shr6; lia].
    cbn [app]. rewrite at_mid by reflexivity. rewrite land31, land1, shr5.
    destruct (Z.eqb_spec ((64 * c + 32 * m + 31) mod 32) 31); [|lia].
    replace (pre ++ 64 * c + 32 * m + 31 :: (map (fun d => 128 + d) hi ++ [lo]) ++ rest)
      with ((pre ++ [64 * c + 32 * m + 31]) ++ (map (fun d => 128 + d) hi ++ [lo]) ++ rest)
      by (now rewrite <- app_assoc).
    replace (len pre + 1) with (len (pre ++ [64 * c + 32 * m + 31])) by (rewrite len_app; reflexivity).
    assert (Hlm : len (map (fun d => 128 + d) hi) = len hi) by (unfold len; now rewrite map_length).
    rewrite tag_loop_complete.
    + cbn [bind]. rewrite Hval. replace (0 * 128 ^ (len hi + 1) + t) with t by lia.
      destruct (Z.ltb_spec t 31); [lia|].
      autorewrite with len. okeq.
    + lia.
    + rewrite !app_length, map_length. cbn. lia.
    + auto.
    + auto.
    + autorewrite with len in *. lia.
Qed.

(* ---------- the whole element ---------- *)
Definition good (data pre rest : bytes) (r : parsed) (b : nat) :=
  exists h x tr rest',
    rest = (h ++ x ++ tr) ++ rest' /\
    ber b (Z.shiftr (p_first r) 6) (p_constructed r) (p_tag r) h x tr /\
    p_pointer r = len pre + len h /\
    p_end r = len pre + len h + len x + len tr /\
    p_trailer r = tr.

Lemma slice_at {A} (pre rest : list A) n :
  slice (pre ++ rest) (len pre) (len pre + n) = slice rest 0 n.
Proof.
  rewrite slice_app_r by lia. f_equal; lia.
Qed.

Lemma slice0_prefix {A} (l : list A) n : 0 <= n <= len l -> exists r, l = slice l 0 n ++ r.
Proof.
  intros. exists (slice l n (len l)). rewrite slice_split by lia. now rewrite slice_full.
Qed.

Definition step_sound (p : Z -> res Z) (b : nat) (data : bytes) : Prop :=
  forall pre rest e, data = pre ++ rest -> p (len pre) = Ok e ->
    exists c m t h x tr rest', rest = (h ++ x ++ tr) ++ rest' /\ ber b c m t h x tr /\
      e = len pre + len h + len x + len tr.

Lemma ber_hdr b c m t h x tr : ber b c m t h x tr -> bytes_ok h /\ 2 <= len h /\ 0 <= c <= 3 /\ 0 <= m <= 1 /\ 0 <= t.
Proof.
  intros H. destruct H as [n c m t i l x Hi Hl|n c t i x Hi Hs];
    apply ident_ok in Hi as (H1 & H2 & H3 & H4 & H5).
  - assert (bytes_ok l /\ 1 <= len l) as [L1 L2].
    { destruct Hl as [|l Hl Hll]; split.
      - constructor; [unfold byte_ok; lia|constructor].
      - rewrite len_cons, len_nil; lia.
      - constructor; auto. unfold byte_ok. lia.
      - rewrite len_cons. pose proof (len_nonneg l). lia. }
    rewrite len_app. repeat split; try lia. apply bytes_ok_app; auto.
  - rewrite len_app, len_cons, len_nil. repeat split; try lia.
    apply bytes_ok_app; split; auto. constructor; [unfold byte_ok; lia|constructor].
Qed.

Lemma eoc_loop_sound fuel : forall p b data pre rest e,
  step_sound p b data -> data = pre ++ rest ->
  eoc_loop fuel p data (len data) (len pre) = Ok e ->
  exists x rest', rest = x ++ [0; 0] ++ rest' /\ ber_series b x /\ e = len pre + len x.
Proof.
  induction fuel as [|f IH]; intros p b data pre rest e Hp Hd H; cbn [eoc_loop] in H; [discriminate|].
  destruct ((len data <? len pre + 2) || negb (eqb_bytes (slice data (len pre) (len pre + 2)) [0; 0])) eqn:E.
  - apply bind_ok in H as (e1 & H1 & H2).
    destruct (Hp pre rest e1 Hd H1) as (c & m & t & h & x & tr & rest' & R1 & R2 & R3).
    set (el := h ++ x ++ tr) in *.
    assert (He1 : e1 = len (pre ++ el)).
    { rewrite R3. unfold el. rewrite !len_app. lia. }
    rewrite He1 in H2.
    apply IH with (b := b) (rest := rest') in H2; auto.
    2:{ rewrite Hd, R1. now rewrite <- app_assoc. }
    destruct H2 as (x' & rest'' & S1 & S2 & S3).
    exists (el ++ x'), rest''. split; [|split].
    + rewrite R1, S1. now rewrite <- app_assoc.
    + unfold el. econstructor; eauto.
      intros Hh. apply orb_true_iff in E as [E|E].
      * rewrite Hd, R1 in E. unfold el in E. rewrite Hh, !len_app in E.
        pose proof (len_nonneg x). pose proof (len_nonneg tr). pose proof (len_nonneg rest').
        change (len [0; 0]) with 2 in E. lia.
      * rewrite Hd, R1 in E. unfold el in E. rewrite Hh in E. rewrite slice_at in E.
        cbn in E. discriminate.
    + rewrite S3, !len_app. lia.
  - injection H as <-. apply orb_false_iff in E as [E1 E2].
    apply negb_false_iff, eqb_bytes_spec in E2.
    rewrite Hd, slice_at in E2. rewrite Hd, len_app in E1.
    destruct (slice0_prefix rest 2) as (r & Hr); [lia|]. rewrite E2 in Hr.
    exists [], r. repeat split; auto; try lia; try constructor. rewrite len_nil. lia.
Qed.

Lemma def_short n : 0 <= n < 128 -> def_length n [n].
Proof. intros; now constructor. Qed.

Lemma parse_core_sound b : forall data pre rest r,
  data = pre ++ rest -> bytes_ok data ->
  parse_core b data (len data) (len pre) = Ok r -> good data pre rest r b.
Proof.
  induction b as [|b IH]; intros data pre rest r Hd Hok H; cbn [parse_core] in H; [discriminate|].
  apply bind_ok in H as ((((fo & m) & t) & p1) & Hid & H).
  assert (Hokr : bytes_ok rest) by (rewrite Hd in Hok; now apply bytes_ok_app in Hok).
  pose proof Hid as Hid0. rewrite Hd in Hid0. apply parse_ident_sound in Hid0; auto.
  destruct Hid0 as (i & rest1 & R1 & Hi & Hp1).
  pose proof (ident_ok _ _ _ _ Hi) as (Hoki & _ & Hm & _ & _).
  destruct (Z.ltb_spec (len data) (p1 + 1)); [discriminate|].
  assert (Hlen : len data = len pre + len i + len rest1) by (rewrite Hd, R1, !len_app; lia).
  destruct rest1 as [|lo rest1]; [rewrite len_nil in *; lia|].
  assert (Hat : at_ data p1 = lo).
  { rewrite Hd, R1, app_assoc. apply at_mid. rewrite Hp1, len_app. lia. }
  rewrite Hat in H.
  assert (Hokr1 : bytes_ok (lo :: rest1)) by (rewrite R1 in Hokr; now apply bytes_ok_app in Hokr).
  apply bytes_ok_cons in Hokr1 as [Hlo Hokr1]. unfold byte_ok in Hlo.
  apply bind_ok in H as (((p2 & e) & tr) & Hlen2 & H).
  destruct (Z.ltb_spec (len data) e); [discriminate|]. injection H as <-.
  rewrite shr7, land127 in Hlen2. rewrite len_cons in Hlen.
  unfold good. cbn [p_first p_constructed p_tag p_pointer p_end p_trailer].
  destruct (Z.eqb_spec (lo / 128) 0) as [E|E].
  - (* short form *)
    injection Hlen2 as <- <- <-.
    assert (Hlo2 : lo < 128) by lia. rewrite Z.mod_small in * by lia.
    destruct (slice0_prefix rest1 lo) as (r & Hr); [lia|].
    set (x := slice rest1 0 lo) in *.
    assert (Hx : len x = lo) by (unfold x; rewrite slice_len; lia).
    exists (i ++ [lo]), x, [], r. repeat split.
    + rewrite R1, app_nil_r, <- !app_assoc. cbn [app]. now rewrite <- Hr.
    + constructor; auto. rewrite Hx. constructor. lia.
    + rewrite len_app, len_cons, len_nil. lia.
    + rewrite len_app, len_cons, len_nil. lia.
  - destruct (Z.eqb_spec (lo mod 128) 0) as [E0|E0]; cbn [negb] in Hlen2.
    + (* indefinite *)
      destruct (Z.eqb_spec m 0); [discriminate|]. assert (m = 1) by lia. subst m.
      apply bind_ok in Hlen2 as (e0 & He0 & Hlen2). injection Hlen2 as <- <- <-.
      assert (Hpre1 : p1 + 1 = len (pre ++ i ++ [lo])).
      { rewrite !len_app, len_cons, len_nil. lia. }
      rewrite Hpre1 in He0.
      apply eoc_loop_sound with (b := b) (rest := rest1) in He0.
      * destruct He0 as (x & rest' & X1 & X2 & X3).
        assert (Hlo3 : lo = 128) by lia. clear Hat. subst lo.
        exists (i ++ [128]), x, [0; 0], rest'. repeat split.
        -- rewrite R1, X1, <- !app_assoc. reflexivity.
        -- now constructor.
        -- rewrite len_app, len_cons, len_nil. lia.
        -- rewrite X3. rewrite !len_app, !len_cons, len_nil. lia.
      * intros pre' rest' e' Hd' Hq. apply bind_ok in Hq as (r & Hq1 & Hq2).
        injection Hq2 as <-. apply IH with (rest := rest') in Hq1; auto.
        destruct Hq1 as (h & x & tr & rest'' & G1 & G2 & G3 & G4 & G5).
        exists (Z.shiftr (p_first r) 6), (p_constructed r), (p_tag r), h, x, tr, rest''. auto.
      * rewrite Hd, R1, <- !app_assoc. reflexivity.
    + (* long form *)
      destruct (Z.ltb_spec (len data) (p1 + 1 + lo mod 128)); [discriminate|].
      injection Hlen2 as <- <- <-.
      set (k := lo mod 128) in *. assert (Hk : 1 <= k <= 127) by lia.
      assert (Hpre1 : p1 + 1 = len (pre ++ i ++ [lo])).
      { rewrite !len_app, len_cons, len_nil. lia. }
      assert (Hsl : slice data (p1 + 1 + k - k) (p1 + 1 + k) = slice rest1 0 k).
      { replace (p1 + 1 + k - k) with (p1 + 1) by lia.
        rewrite Hpre1. rewrite Hd, R1.
        replace (pre ++ i ++ lo :: rest1) with ((pre ++ i ++ [lo]) ++ rest1) by (rewrite <- !app_assoc; reflexivity).
        apply slice_at. }
      rewrite Hsl in *.
      destruct (slice0_prefix rest1 k) as (r & Hr); [lia|].
      set (lb := slice rest1 0 k) in *.
      assert (Hlb : len lb = k) by (unfold lb; rewrite slice_len; lia).
      assert (Hlbok : bytes_ok lb) by (unfold lb; now apply slice_bytes_ok).
      rewrite be_fold_value in *.
      assert (Hlr : len rest1 = k + len r).
      { rewrite Hr at 1. rewrite len_app. lia. }
      pose proof (be_value_bound lb Hlbok) as Hbv.
      destruct (slice0_prefix r (be_value lb)) as (r2 & Hr2); [lia|].
      set (x := slice r 0 (be_value lb)) in *.
      assert (Hx : len x = be_value lb) by (unfold x; rewrite slice_len; lia).
      assert (Hlo3 : lo = 128 + len lb) by lia.
      exists (i ++ lo :: lb), x, [], r2. repeat split.
      * rewrite R1, app_nil_r, <- !app_assoc. cbn [app]. rewrite <- Hr2. now rewrite <- Hr.
      * constructor; auto. rewrite Hx, Hlo3. constructor; auto. lia.
      * rewrite len_app, len_cons. lia.
      * rewrite len_app, len_cons, len_nil. lia.
Qed.

(* completeness *)
Definition core_complete b c m t h x tr :=
  forall pre rest, exists fo,
    parse_core b (pre ++ (h ++ x ++ tr) ++ rest) (len (pre ++ (h ++ x ++ tr) ++ rest)) (len pre) =
    Ok (mkParsed fo m t (len pre + len h) (len pre + len h + len x + len tr) tr) /\
    Z.shiftr fo 6 = c.

Definition series_complete b x :=
  forall fuel pre rest data,
    data = pre ++ x ++ [0; 0] ++ rest -> (length x < fuel)%nat ->
    eoc_loop fuel (fun q => do r <- parse_core b data (len data) q; Ok (p_end r))
      data (len data) (len pre) = Ok (len pre + len x).

Lemma h00 b c m t h x tr : ber b c m t h x tr -> forall r, 
  (exists s, (h ++ r) = [0; 0] ++ s) -> h = [0; 0].
Proof.
  intros H r (s & Hs).
  assert (Hid : forall i l c m t, ident c m t i -> i ++ l = [0; 0] ++ s -> i = [0] /\ l = 0 :: s).
  { intros i l c0 m0 t0 Hi Hil. destruct Hi as [Hc Hm Ht|l0 Hc Hm Ht].
    - cbn in Hil. injection Hil as E1 E2. rewrite E1. auto.
    - cbn in Hil. injection Hil as E1 E2. lia. }
  destruct H as [n c m t i l x Hi Hl|n c t i x Hi Hs'].
  - rewrite <- app_assoc in Hs. apply (Hid i (l ++ r) _ _ _ Hi) in Hs as [-> Hl'].
    destruct Hl as [Hn|l Hlok Hll Hv].
    + cbn in Hl'. injection Hl' as -> _. reflexivity.
    + cbn in Hl'. injection Hl' as E _. lia.
  - rewrite <- app_assoc in Hs. apply (Hid i ([128] ++ r) _ _ _ Hi) in Hs as [-> Hl'].
    cbn in Hl'. discriminate.
Qed.

Lemma parse_complete_all :
  (forall b c m t h x tr, ber b c m t h x tr -> core_complete b c m t h x tr) /\
  (forall b x, ber_series b x -> series_complete b x).
Proof.
  apply ber_mutind.
  - (* definite *)
    intros b c m t i l x Hi Hl pre rest.
    set (data := pre ++ ((i ++ l) ++ x ++ []) ++ rest).
    assert (Hdata : data = pre ++ i ++ (l ++ x ++ rest)).
    { unfold data. rewrite app_nil_r, <- !app_assoc. reflexivity. }
    assert (Hlen : len data = len pre + len i + len l + len x + len rest).
    { rewrite Hdata, !len_app. lia. }
    pose proof (len_nonneg x). pose proof (len_nonneg rest). pose proof (len_nonneg l).
    destruct (parse_ident_complete c m t i pre (l ++ x ++ rest) (len data) Hi) as (fo & Hid & Hc); [lia|].
    rewrite <- Hdata in Hid.
    exists fo. split; auto. cbn [parse_core]. rewrite Hid. cbn [bind].
    assert (Hl1 : 1 <= len l).
    { destruct Hl as [|l Hok Hl' _]; rewrite len_cons; [rewrite len_nil; lia|lia]. }
    destruct (Z.ltb_spec (len data) (len pre + len i + 1)); [lia|].
    rewrite shr7, land127.
    destruct Hl as [Hx|l Hok Hl' Hv].
    + assert (Hat : at_ data (len pre + len i) = len x).
      { rewrite Hdata, app_assoc. cbn [app]. apply at_mid. now rewrite len_app. }
      rewrite Hat. destruct (Z.eqb_spec (len x / 128) 0); [|lia]. cbn [bind].
      rewrite Z.mod_small by lia. rewrite len_cons, len_nil in *.
      destruct (Z.ltb_spec (len data) (len pre + len i + 1 + len x)); [lia|].
      rewrite len_app, len_cons, !len_nil. okeq.
    + assert (Hat : at_ data (len pre + len i) = 128 + len l).
      { rewrite Hdata, app_assoc. cbn [app]. apply at_mid. now rewrite len_app. }
      rewrite Hat. destruct (Z.eqb_spec ((128 + len l) / 128) 0); [lia|].
      assert (Hk : (128 + len l) mod 128 = len l) by lia. rewrite Hk.
      destruct (Z.eqb_spec (len l) 0); [lia|]. cbn [negb].
      rewrite len_cons in *.
      destruct (Z.ltb_spec (len data) (len pre + len i + 1 + len l)); [lia|].
      cbn [bind].
      replace (slice data (len pre + len i + 1 + len l - len l) (len pre + len i + 1 + len l)) with l.
      * rewrite int_from_bytes_unsigned, Hv.
        destruct (Z.ltb_spec (len data) (len pre + len i + 1 + len l + len x)); [lia|].
        rewrite len_app, len_cons, !len_nil. okeq.
      * symmetry. rewrite Hdata.
        replace (pre ++ i ++ ((128 + len l) :: l) ++ x ++ rest)
          with ((pre ++ i ++ [128 + len l]) ++ l ++ (x ++ rest)) by (rewrite <- !app_assoc; reflexivity).
        apply slice_mid; rewrite !len_app, len_cons, len_nil; lia.
  - (* indefinite *)
    intros b c t i x Hi Hs IH pre rest.
    set (data := pre ++ ((i ++ [128]) ++ x ++ [0; 0]) ++ rest).
    assert (Hdata : data = pre ++ i ++ ([128] ++ x ++ [0; 0] ++ rest)).
    { unfold data. rewrite <- !app_assoc. reflexivity. }
    assert (Hlen : len data = len pre + len i + 1 + len x + 2 + len rest).
    { rewrite Hdata, !len_app, !len_cons, len_nil. lia. }
    pose proof (len_nonneg x). pose proof (len_nonneg rest).
    destruct (parse_ident_complete c 1 t i pre ([128] ++ x ++ [0; 0] ++ rest) (len data) Hi) as (fo & Hid & Hc); [lia|].
    rewrite <- Hdata in Hid.
    exists fo. split; auto. cbn [parse_core]. rewrite Hid. cbn [bind].
    destruct (Z.ltb_spec (len data) (len pre + len i + 1)); [lia|].
    rewrite shr7, land127.
    assert (Hat : at_ data (len pre + len i) = 128).
    { rewrite Hdata, app_assoc. cbn [app]. apply at_mid. now rewrite len_app. }
    rewrite Hat. change (128 / 128 =? 0) with false. cbn iota.
    change (128 mod 128 =? 0) with true. cbn [negb]. change (1 =? 0) with false. cbn iota.
    assert (Hpre1 : len pre + len i + 1 = len (pre ++ i ++ [128])).
    { rewrite !len_app, len_cons, len_nil. lia. }
    assert (Heoc : eoc_loop (S (length data)) (fun q => do r <- parse_core b data (len data) q; Ok (p_end r))
             data (len data) (len pre + len i + 1) = Ok (len pre + len i + 1 + len x)).
    { rewrite Hpre1. unfold series_complete in IH. rewrite (IH _ _ rest); auto.
      - rewrite Hdata, <- !app_assoc. reflexivity.
      - rewrite Hdata, !app_length. cbn [length]. lia. }
    rewrite Heoc. cbn [bind].
    destruct (Z.ltb_spec (len data) (len pre + len i + 1 + len x + 2)); [lia|].
    autorewrite with len. okeq.
  - (* nil *)
    intros b fuel pre rest data Hd Hf. destruct fuel as [|f]; [cbn in Hf; lia|].
    cbn [eoc_loop]. cbn [app] in Hd.
    assert (Hl : len data = len pre + 2 + len rest) by (rewrite Hd, len_app, !len_cons; lia).
    pose proof (len_nonneg rest).
    destruct (Z.ltb_spec (len data) (len pre + 2)); [lia|].
    rewrite Hd, slice_at.
    change (eqb_bytes (slice (0 :: 0 :: rest) 0 2) [0; 0]) with true.
    cbn [negb orb]. autorewrite with len. f_equal. lia.
  - (* cons *)
    intros b c m t h x tr srest Hel IHel Hne Hs IHs fuel pre rest data Hd Hf.
    destruct fuel as [|f]; [cbn in Hf; lia|].
    pose proof (ber_hdr _ _ _ _ _ _ _ Hel) as (Hoh & Hlh & _).
    set (el := h ++ x ++ tr) in *.
    assert (Hlel : 2 <= len el).
    { unfold el. rewrite len_app. pose proof (len_nonneg (x ++ tr)). lia. }
    cbn [eoc_loop].
    assert (Hcond : (len data <? len pre + 2) || negb (eqb_bytes (slice data (len pre) (len pre + 2)) [0; 0]) = true).
    { apply orb_true_iff. right. apply negb_true_iff.
      destruct (eqb_bytes (slice data (len pre) (len pre + 2)) [0; 0]) eqn:E; auto. exfalso.
      apply eqb_bytes_spec in E. rewrite Hd, slice_at in E. rewrite <- app_assoc in E.
      destruct (slice0_prefix (el ++ srest ++ [0; 0] ++ rest) 2) as (s & Hs2).
      { rewrite len_app. pose proof (len_nonneg (srest ++ [0; 0] ++ rest)). lia. }
      rewrite E in Hs2. unfold el in Hs2. rewrite <- app_assoc in Hs2.
      apply Hne. eapply h00; eauto. }
    rewrite Hcond.
    unfold core_complete in IHel. destruct (IHel pre (srest ++ [0; 0] ++ rest)) as (fo & Hpc & _).
    assert (Hd2 : data = pre ++ el ++ srest ++ [0; 0] ++ rest).
    { rewrite Hd, <- !app_assoc. reflexivity. }
    fold el in Hpc. rewrite <- Hd2 in Hpc.
    rewrite Hpc. cbn [bind p_end].
    replace (len pre + len h + len x + len tr) with (len (pre ++ el)) by (unfold el; rewrite !len_app; lia).
    unfold series_complete in IHs. rewrite (IHs _ _ rest).
    + f_equal. rewrite !len_app. lia.
    + rewrite Hd2, <- app_assoc. reflexivity.
    + rewrite app_length in Hf. unfold len in Hlel. lia.
Qed.

(* ---------- parse_ against the grammar ---------- *)
Definition encoding_of (i : info) : bytes := i_header i ++ i_contents i ++ i_trailer i.

Definition ber_info (b : nat) (i : info) : Prop :=
  ber b (i_class i) (i_method i) (i_tag i) (i_header i) (i_contents i) (i_trailer i).

Lemma parse_sound pre rest i e :
  bytes_ok (pre ++ rest) ->
  parse_ (pre ++ rest) (len (pre ++ rest)) (len pre) = Ok (i, e) ->
  ber_info max_budget i /\ (exists rest', rest = encoding_of i ++ rest') /\ e = len pre + len (encoding_of i).
Proof.
  intros Hok H. unfold parse_ in H. apply bind_ok in H as (r & H1 & H2).
  apply parse_core_sound with (rest := rest) in H1; auto.
  destruct H1 as (h & x & tr & rest' & G1 & G2 & G3 & G4 & G5).
  injection H2 as <- <-. unfold ber_info, encoding_of.
  cbn [i_class i_method i_tag i_header i_contents i_trailer].
  assert (Hh : slice (pre ++ rest) (len pre) (p_pointer r) = h).
  { rewrite G3, slice_at, G1, <- !app_assoc. apply slice_prefix_app. }
  assert (Hx : slice (pre ++ rest) (p_pointer r) (p_end r - len (p_trailer r)) = x).
  { rewrite G1, G3, G4, G5.
    replace (pre ++ (h ++ x ++ tr) ++ rest') with ((pre ++ h) ++ x ++ (tr ++ rest')) by (rewrite <- !app_assoc; reflexivity).
    apply slice_mid; rewrite len_app; lia. }
  rewrite Hh, Hx, G5. split; [auto|]. split; [now exists rest'|].
  rewrite G4, !len_app. lia.
Qed.

Lemma parse_complete i pre rest :
  ber_info max_budget i ->
  parse_ (pre ++ encoding_of i ++ rest) (len (pre ++ encoding_of i ++ rest)) (len pre)
    = Ok (i, len pre + len (encoding_of i)).
Proof.
  intros H. unfold parse_, encoding_of.
  destruct (proj1 parse_complete_all _ _ _ _ _ _ _ H pre rest) as (fo & Hp & Hc).
  set (h := i_header i) in *. set (x := i_contents i) in *. set (tr := i_trailer i) in *.
  rewrite Hp. cbn [bind p_first p_constructed p_tag p_pointer p_end p_trailer].
  rewrite Hc, slice_at.
  replace (slice ((h ++ x ++ tr) ++ rest) 0 (len h)) with h.
  2:{ rewrite <- !app_assoc. symmetry. apply slice_prefix_app. }
  replace (slice (pre ++ (h ++ x ++ tr) ++ rest) (len pre + len h) (len pre + len h + len x + len tr - len tr)) with x.
  2:{ replace (pre ++ (h ++ x ++ tr) ++ rest) with ((pre ++ h) ++ x ++ (tr ++ rest)) by (rewrite <- !app_assoc; reflexivity).
      symmetry. apply slice_mid; rewrite len_app; lia. }
  subst h x tr. rewrite !len_app. destruct i; cbn. do 2 f_equal. lia.
Qed.

(* ---------- errors: only ValueError, and fuel never runs out ---------- *)
Lemma tag_loop_err fuel : forall data dl p t e,
  0 <= p -> dl = len data -> (Z.max 0 (dl - p) < Z.of_nat fuel) ->
  tag_loop fuel data dl p t = Err e -> e = ValueError.
Proof.
  induction fuel as [|f IH]; intros data dl p t e Hp Hd Hf H; cbn [tag_loop] in H; [lia|].
  destruct (Z.ltb_spec dl (p + 1)); [congruence|].
  destruct (_ && _); [congruence|]. destruct (_ =? 0); [discriminate|].
  eapply IH; [| | |exact H]; lia.
Qed.

Lemma tag_loop_end fuel : forall data dl p t t' p',
  tag_loop fuel data dl p t = Ok (t', p') -> p + 1 <= p' <= dl.
Proof.
  induction fuel as [|f IH]; intros data dl p t t' p' H; cbn [tag_loop] in H; [discriminate|].
  destruct (Z.ltb_spec dl (p + 1)); [discriminate|].
  destruct (_ && _); [discriminate|]. destruct (_ =? 0); [injection H as <- <-; lia|].
  apply IH in H. lia.
Qed.

Lemma parse_ident_err data p e : 0 <= p ->
  parse_ident data (len data) p = Err e -> e = ValueError.
Proof.
  intros Hp H. unfold parse_ident in H.
  destruct (Z.ltb_spec (len data) (p + 1)); [congruence|].
  destruct (_ =? 31); [|discriminate].
  destruct (tag_loop _ _ _ _ _) as [[t' p']|e'] eqn:E; cbn [bind] in H.
  - destruct (t' <? 31); congruence.
  - injection H as <-. eapply tag_loop_err; [| | |exact E]; unfold len in *; lia.
Qed.

Lemma parse_ident_end data dl p fo m t p' :
  parse_ident data dl p = Ok (fo, m, t, p') -> p + 1 <= p' <= dl.
Proof.
  intros H. unfold parse_ident in H.
  destruct (Z.ltb_spec dl (p + 1)); [discriminate|].
  destruct (_ =? 31).
  - apply bind_ok in H as ((t' & p1) & H1 & H2). destruct (t' <? 31); [discriminate|].
    injection H2 as <- <- <- <-. apply tag_loop_end in H1. lia.
  - injection H as <- <- <- <-. lia.
Qed.

Lemma eoc_loop_err fuel : forall p data dl ce e,
  0 <= ce ->
  (forall q e', 0 <= q -> p q = Err e' -> e' = ValueError) ->
  (forall q r, 0 <= q -> p q = Ok r -> q + 2 <= r <= dl) ->
  Z.max 0 (dl - ce) < Z.of_nat fuel ->
  eoc_loop fuel p data dl ce = Err e -> e = ValueError.
Proof.
  induction fuel as [|f IH]; intros p data dl ce e Hce He Hr Hf H; cbn [eoc_loop] in H; [lia|].
  destruct (_ || _); [|discriminate].
  destruct (p ce) as [r|e'] eqn:E; cbn [bind] in H.
  - pose proof (Hr _ _ Hce E). eapply IH; [| | | |exact H]; auto; lia.
  - injection H as <-. eauto.
Qed.

Lemma eoc_loop_end fuel : forall p data dl ce e,
  0 <= ce ->
  (forall q r, 0 <= q -> p q = Ok r -> q + 2 <= r <= dl) ->
  eoc_loop fuel p data dl ce = Ok e -> ce <= e /\ e + 2 <= dl.
Proof.
  induction fuel as [|f IH]; intros p data dl ce e Hce Hr H; cbn [eoc_loop] in H; [discriminate|].
  destruct (_ || _) eqn:E.
  - apply bind_ok in H as (r & H1 & H2). pose proof (Hr _ _ Hce H1).
    apply IH in H2; auto; lia.
  - injection H as <-. apply orb_false_iff in E as [E _]. lia.
Qed.

Lemma parse_core_end b : forall data p r, bytes_ok data -> 0 <= p ->
  parse_core b data (len data) p = Ok r -> p + 2 <= p_end r <= len data.
Proof.
  induction b as [|b IH]; intros data p r Hok Hp H; cbn [parse_core] in H; [discriminate|].
  apply bind_ok in H as ((((fo & m) & t) & p1) & Hid & H).
  apply parse_ident_end in Hid.
  destruct (Z.ltb_spec (len data) (p1 + 1)); [discriminate|].
  apply bind_ok in H as (((p2 & e) & tr) & Hl & H).
  destruct (Z.ltb_spec (len data) e); [discriminate|]. injection H as <-. cbn [p_end].
  split; [|lia].
  rewrite shr7, land127 in Hl.
  destruct (_ =? 0); [injection Hl as <- <- <-; lia|].
  destruct (negb _) eqn:E.
  - destruct (Z.ltb_spec (len data) (p1 + 1 + at_ data p1 mod 128)); [discriminate|].
    injection Hl as <- <- <-.
    assert (bytes_ok (slice data (p1 + 1 + at_ data p1 mod 128 - at_ data p1 mod 128) (p1 + 1 + at_ data p1 mod 128)))
      as Hb by now apply slice_bytes_ok.
    apply be_value_bound in Hb. rewrite be_fold_value in *. lia.
  - destruct (m =? 0); [discriminate|]. apply bind_ok in Hl as (e0 & He & Hl).
    injection Hl as <- <- <-. apply eoc_loop_end in He; [lia|lia|].
    intros q r Hq Hqr. apply bind_ok in Hqr as (r' & Hr' & Hqr). injection Hqr as <-. eauto.
Qed.

Lemma parse_core_err b : forall data p e, bytes_ok data -> 0 <= p ->
  parse_core b data (len data) p = Err e -> e = ValueError.
Proof.
  induction b as [|b IH]; intros data p e Hok Hp H; cbn [parse_core] in H; [congruence|].
  destruct (parse_ident _ _ _) as [[[[fo m] t] p1]|e'] eqn:Hid; cbn [bind] in H.
  2:{ injection H as <-. eapply parse_ident_err; eauto. }
  apply parse_ident_end in Hid.
  destruct (Z.ltb_spec (len data) (p1 + 1)); [congruence|].
  match type of H with bind ?x _ = _ => destruct x as [[[p2 ce] tr]|e'] eqn:Hl end; cbn [bind] in H.
  - clear Hl. destruct (len data <? ce); congruence.
  - injection H as <-.
    destruct (Z.shiftr _ _ =? 0); [discriminate|].
    destruct (negb _).
    + destruct (_ <? _); congruence.
    + destruct (m =? 0); [congruence|].
      destruct (eoc_loop _ _ _ _ _) as [e0|e0] eqn:He; cbn [bind] in Hl; [discriminate|].
      injection Hl as <-. eapply eoc_loop_err; [| | | |exact He].
      * lia.
      * intros q e1 Hq Hqe. cbv beta in Hqe. destruct (parse_core b data (len data) q) eqn:Ec; cbn [bind] in Hqe; [discriminate|].
        injection Hqe as <-. eauto.
      * intros q r Hq Hqr. apply bind_ok in Hqr as (r' & Hr' & Hqr). injection Hqr as <-.
        eapply parse_core_end; eauto.
      * unfold len in *. lia.
Qed.

Lemma parse__err data p e : bytes_ok data -> 0 <= p ->
  parse_ data (len data) p = Err e -> e = ValueError.
Proof.
  intros Hok Hp H. unfold parse_ in H.
  destruct (parse_core _ _ _ _) eqn:E; cbn [bind] in H; [discriminate|].
  injection H as <-. eapply parse_core_err; eauto.
Qed.

(* ---------- emit ---------- *)
Lemma dump_tag_loop_spec fuel : forall tag cont acc,
  (cont = 0 \/ cont = 128) -> 0 <= tag < 2 ^ (Z.of_nat fuel) ->
  exists ds, Forall (fun d => 0 <= d < 128) ds /\ b128_value ds = tag /\
    (match ds with [] => tag = 0 | d :: _ => d <> 0 end) /\
    dump_tag_loop fuel tag cont acc =
      match rev ds with
      | [] => acc
      | lo :: hi => map (fun d => 128 + d) (rev hi) ++ [cont + lo] ++ acc
      end.
Proof.
  induction fuel as [|f IH]; intros tag cont acc Hc Ht.
  - change (2 ^ Z.of_nat 0) with 1 in Ht. assert (tag = 0) by lia. subst tag. exists []. repeat split; auto.
  - cbn [dump_tag_loop]. destruct (Z.ltb_spec 0 tag).
    + rewrite shr7, land127.
      assert (Hlor : Z.lor cont (tag mod 128) = cont + tag mod 128).
      { apply lor_disjoint with (k := 7); [lia|change (2 ^ 7) with 128; lia|].
        destruct Hc as [-> | ->]; reflexivity. }
      rewrite Hlor.
      assert (Hc2 : (if cont =? 0 then 128 else cont) = 128) by (destruct Hc as [-> | ->]; reflexivity).
      rewrite Hc2.
      rewrite Nat2Z.inj_succ, Z.pow_succ_r in Ht by lia.
      destruct (IH (tag / 128) 128 ((cont + tag mod 128) :: acc)) as (ds & D1 & D2 & D3 & D4); [auto|lia|].
      exists (ds ++ [tag mod 128]). repeat split.
      * apply Forall_app; split; auto. constructor; [lia|constructor].
      * rewrite b128_value_app, D2. cbn [b128_value]. autorewrite with len.
        change (128 ^ (1 + 0)) with 128. change (128 ^ 0) with 1. lia.
      * destruct ds as [|d ds]; cbn [app]; auto. lia.
      * rewrite D4, rev_app_distr. cbn [rev app].
        destruct (rev ds) as [|lo hi] eqn:Er.
        -- reflexivity.
        -- assert (Hds : rev ds = lo :: hi) by auto.
           cbn [rev]. rewrite map_app. cbn [map]. rewrite <- !app_assoc. reflexivity.
    + assert (tag = 0) by lia. subst tag. exists []. repeat split; auto.
Qed.

Lemma dump_ident_high tag : 31 <= tag ->
  b128_octets tag (dump_tag_loop (Z.to_nat (bit_length tag)) tag 0 []).
Proof.
  intros Ht. pose proof (bit_length_spec tag) as (B0 & B1 & _).
  destruct (dump_tag_loop_spec (Z.to_nat (bit_length tag)) tag 0 []) as (ds & D1 & D2 & D3 & D4); [auto| |].
  { rewrite Z2Nat.id by lia. lia. }
  rewrite D4. destruct (rev ds) as [|lo hi] eqn:Er.
  - apply (f_equal (@rev Z)) in Er. rewrite rev_involutive in Er. subst ds. cbn in *. lia.
  - apply (f_equal (@rev Z)) in Er. rewrite rev_involutive in Er. cbn [rev] in Er. subst ds.
    exists (rev hi), lo. rewrite app_nil_r.
    repeat split; auto.
    destruct (rev hi) as [|d l]; auto.
Qed.

Lemma dump_header_spec c m t x :
  0 <= c <= 3 -> 0 <= m <= 1 -> 0 <= t -> len x < 2 ^ 1008 ->
  exists i l, dump_header c m t x = i ++ l /\ ident c m t i /\ def_length (len x) l /\
    (len x < 128 -> l = [len x]) /\ (128 <= len x -> exists lb, l = (128 + len lb) :: lb /\ 0 < hd 0 lb).
Proof.
  intros Hc Hm Ht Hx. unfold dump_header.
  assert (Hid : Z.lor (Z.shiftl c 6) (Z.shiftl m 5) = 64 * c + 32 * m).
  { rewrite !Z.shiftl_mul_pow2 by lia. change (2 ^ 6) with 64. change (2 ^ 5) with 32.
    rewrite lor_disjoint with (k := 6); try lia; change (2 ^ 6) with 64; lia. }
  rewrite Hid.
  set (i := if 31 <=? t then _ else _).
  assert (Hi : ident c m t i).
  { unfold i. destruct (Z.leb_spec 31 t).
    - rewrite (lor_disjoint (64 * c + 32 * m) 31 5) by (change (2 ^ 5) with 32; lia).
      apply ident_high; auto. now apply dump_ident_high.
    - rewrite (lor_disjoint (64 * c + 32 * m) t 5) by (change (2 ^ 5) with 32; lia).
      apply ident_low; lia. }
  pose proof (len_nonneg x).
  destruct (Z.leb_spec (len x) 127).
  - exists i, [len x]. repeat split; auto; [constructor; lia|lia].
  - destruct (int_to_bytes_unsigned_ok (len x)) as (lb & L1 & L2 & L3 & L4 & L5 & L6); [lia|].
    rewrite L1.
    assert (Hlb : len lb <= 126).
    { destruct L6 as [->|L6]; [autorewrite with len; lia|].
      destruct lb as [|b lb]; [cbn in L6; lia|]. cbn [hd] in L6.
      cbn [be_value] in L4. apply bytes_ok_cons in L2 as [_ L2].
      pose proof (be_value_bound lb L2).
      assert (256 ^ len lb < 2 ^ 1008) by nia.
      rewrite pow256 in H2 by apply len_nonneg.
      apply Z.pow_lt_mono_r_iff in H2; try (pose proof (len_nonneg lb)); try lia.
      autorewrite with len. lia. }
    assert (Hlb1 : 1 <= len lb).
    { destruct lb; [easy|]. autorewrite with len. pose proof (len_nonneg lb). lia. }
    rewrite (lor_disjoint 128 (len lb) 7) by (change (2 ^ 7) with 128; cbn; lia).
    exists i, ((128 + len lb) :: lb). repeat split; auto.
    + constructor; auto. lia.
    + lia.
    + intros _. exists lb. split; auto. destruct L6 as [->|]; auto.
      cbn [be_value] in L4. autorewrite with len in L4. change (256 ^ 0) with 1 in L4. lia.
Qed.

Lemma dump_header_ber c m t x n :
  0 <= c <= 3 -> 0 <= m <= 1 -> 0 <= t -> len x < 2 ^ 1008 ->
  ber (S n) c m t (dump_header c m t x) x [].
Proof.
  intros. destruct (dump_header_spec c m t x) as (i & l & E & Hi & Hl & _); auto.
  rewrite E. now constructor.
Qed.
