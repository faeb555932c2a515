Require Import Verif.Base Verif.BaseFacts Verif.Text Verif.Calendar Verif.TimeModel Verif.TimeSpec.

Lemma pad_dec_len k : forall n, len (pad_dec k n) = Z.of_nat k.
Proof. induction k as [|k IH]; intros n; [reflexivity|]. cbn [pad_dec]. rewrite len_app, IH, len_cons, len_nil. lia. Qed.

Lemma pad_dec_digits k : forall n, digits (pad_dec k n).
Proof.
  induction k as [|k IH]; intros n; cbn [pad_dec]; [constructor|].
  apply Forall_app. split; [apply IH|]. constructor; [lia|constructor].
Qed.

Lemma pow10_S k : 10 ^ Z.of_nat (S k) = 10 * 10 ^ Z.of_nat k.
Proof. rewrite Nat2Z.inj_succ, Z.pow_succ_r by lia. reflexivity. Qed.

Lemma take_pad k : forall n r, 0 <= n < 10 ^ Z.of_nat k -> take_digits k (pad_dec k n ++ r) = Some (n, r).
Proof.
  induction k as [|k IH]; intros n r H.
  - change (10 ^ Z.of_nat 0) with 1 in H. cbn. repeat f_equal. lia.
  - rewrite pow10_S in H. cbn [pad_dec take_digits]. rewrite <- app_assoc. rewrite IH by lia. cbn [app].
    unfold is_digit. replace ((48 <=? 48 + n mod 10) && (48 + n mod 10 <=? 57)) with true by lia.
    repeat f_equal. lia.
Qed.

Lemma take2 n r : 0 <= n < 100 -> take_digits 2 (pad_dec 2 n ++ r) = Some (n, r).
Proof. intros. apply take_pad. change (10 ^ Z.of_nat 2) with 100. lia. Qed.
Lemma take4 n r : 0 <= n < 10000 -> take_digits 4 (pad_dec 4 n ++ r) = Some (n, r).
Proof. intros. apply take_pad. change (10 ^ Z.of_nat 4) with 10000. lia. Qed.

Lemma dec_value_pad k : forall n, 0 <= n < 10 ^ Z.of_nat k -> dec_value (pad_dec k n) = n.
Proof.
  induction k as [|k IH]; intros n H.
  - change (10 ^ Z.of_nat 0) with 1 in H. cbn. unfold dec_value. cbn. lia.
  - rewrite pow10_S in H. cbn [pad_dec]. rewrite dec_value_snoc, IH by lia. lia.
Qed.

(* the facts carried by valid fields *)
Lemma valid_fields_bounds f : valid_fields f = true ->
  1 <= f_month f <= 12 /\ 1 <= f_day f <= 31 /\ 0 <= f_hour f <= 23 /\ 0 <= f_minute f <= 59 /\
  0 <= f_second f <= 59 /\ 0 <= f_micro f <= 999999.
Proof.
  unfold valid_fields. intros H. rewrite !andb_true_iff in H.
  destruct H as ((((((((V & ?) & ?) & ?) & ?) & ?) & ?) & ?) & ?).
  apply valid_date_bounds in V. lia.
Qed.

Lemma mdhms_len f : len (mdhms f) = 10.
Proof. unfold mdhms. rewrite !len_app, !pad_dec_len. reflexivity. Qed.
Lemma mdhms_digits f : digits (mdhms f).
Proof. unfold mdhms. do 4 (apply Forall_app; split; [apply pad_dec_digits|]). apply pad_dec_digits. Qed.

(* without the sub-second part *)
Definition whole (f : fields) : fields :=
  Fields (f_year f) (f_month f) (f_day f) (f_hour f) (f_minute f) (f_second f) 0.

Lemma us_whole f : us_of f = us_of (whole f) + f_micro f.
Proof. unfold us_of, whole. cbn. lia. Qed.

Lemma valid_whole f : valid_fields f = true -> valid_fields (whole f) = true.
Proof. unfold valid_fields, whole. cbn. rewrite !andb_true_iff. tauto. Qed.

Lemma utc_roundtrip f : valid_fields f = true -> 1950 <= f_year f <= 2049 ->
  utctime_native (strftime_utc f) = Ok (DT (whole f) (Some 0)).
Proof.
  intros V Hy. pose proof (valid_fields_bounds f V) as (H1 & H2 & H3 & H4 & H5 & _).
  unfold utctime_native, utc_parse, utc_match, strftime_utc, mdhms. rewrite <- !app_assoc.
  rewrite take2 by lia. cbn [obind]. rewrite take2 by lia. cbn [obind]. rewrite take2 by lia. cbn [obind].
  rewrite take2 by lia. cbn [obind]. rewrite take2 by lia. cbn [obind].
  unfold opt_digits2. rewrite take2 by lia. cbn [take_zone obind at_end zone_of].
  change (tz_ok (0 * 60000000)) with true. cbn [bind]. unfold mk_datetime, p_fields.
  cbn [p_year p_month p_day p_hour p_minute p_second p_tz or0].
  replace (if f_year f mod 100 <? 50 then f_year f mod 100 + 2000 else f_year f mod 100 + 1900) with (f_year f)
    by (destruct (Z.ltb_spec (f_year f mod 100) 50); lia).
  fold (whole f). rewrite (valid_whole f V). cbn [f_year whole].
  replace ((1 <=? f_year f) && (f_year f <=? 9999) && true) with true by lia.
  reflexivity.
Qed.

Lemma utctime_ok x off : dt_ok x -> 1 <= d_year x -> d_tz x = Some off ->
  let t := us_of (d_fields x) - off in
  (1950 <= utc_year t <= 2049 -> exists s v, utctime_format x = Ok s /\ der_utctime s /\ len s = 13 /\
     utctime_native s = Ok v /\ instant v = Some (t - t mod 1000000)) /\
  (~ 1950 <= utc_year t <= 2049 -> 1 <= utc_year t <= 9999 -> utctime_format x = Err ValueError) /\
  (~ 1 <= utc_year t <= 9999 -> utctime_format x = Err OverflowError).
Proof.
  intros (Hy & V & _) Hy1 Htz t. unfold utctime_format, datetime_utc, datetime_at. rewrite Htz. fold t.
  unfold utc_year. destruct (us_of_fields t) as [Vt Et]. set (f := fields_of t) in *.
  split; [|split].
  - intros H. replace ((1 <=? f_year f) && (f_year f <=? 9999)) with true by lia. cbn [bind d_year d_fields].
    unfold d_year. cbn [d_fields].
    replace ((1950 <=? f_year f) && (f_year f <=? 2049)) with true by lia.
    exists (strftime_utc f), (DT (whole f) (Some 0)).
    split; [reflexivity|split; [|split; [|split]]].
    + exists (pad_dec 2 (f_year f mod 100) ++ mdhms f). rewrite <- app_assoc. split; [reflexivity|split].
      * apply Forall_app. split; [apply pad_dec_digits|apply mdhms_digits].
      * rewrite len_app, pad_dec_len, mdhms_len. reflexivity.
    + unfold strftime_utc. rewrite !len_app, pad_dec_len, mdhms_len. reflexivity.
    + apply utc_roundtrip; auto.
    + unfold instant. cbn [d_tz d_fields]. f_equal. rewrite <- Et. rewrite (us_whole f).
      pose proof (valid_fields_bounds f Vt). 
      assert (us_of (whole f) mod 1000000 = 0) by (unfold us_of, whole, us_per_day; cbn; lia). lia.
  - intros H1 H2. replace ((1 <=? f_year f) && (f_year f <=? 9999)) with true by lia. cbn [bind].
    unfold d_year. cbn [d_fields]. destruct ((1950 <=? f_year f) && (f_year f <=? 2049)) eqn:E; [lia|reflexivity].
  - intros H. destruct ((1 <=? f_year f) && (f_year f <=? 9999)) eqn:E; [lia|reflexivity].
Qed.

(* ---- GeneralizedTime ---- *)
Lemma merge_y2k_same s : merge_y2k s s = s.
Proof.
  induction s as [|c s IH]; cbn; auto. rewrite IH. destruct (Z.eqb_spec c 50); cbn; auto.
  subst. reflexivity.
Qed.

Lemma strftime_ext_ok pad f : strftime_ext pad f = pad_dec 4 0 ++ mdhms f.
Proof.
  unfold strftime_ext, strftime_gen, mdhms. cbn [f_year set_year f_month f_day f_hour f_minute f_second].
  set (m := pad_dec 2 (f_month f) ++ _).
  transitivity (merge_y2k (pad_dec 4 2000 ++ m) (pad_dec 4 4000 ++ m)).
  { destruct pad; [reflexivity|]. reflexivity. }
  change (pad_dec 4 2000) with [50; 48; 48; 48]. change (pad_dec 4 4000) with [52; 48; 48; 48].
  change (pad_dec 4 0) with [48; 48; 48; 48]. cbn [app merge_y2k].
  change ((50 =? 50) && (52 =? 52)) with true. change ((48 =? 50) && (48 =? 52)) with false. cbn iota.
  now rewrite merge_y2k_same.
Qed.

Lemma strftime_gen_ok pad f : pad = true \/ 1000 <= f_year f <= 9999 ->
  strftime_gen pad f = pad_dec 4 (f_year f) ++ mdhms f.
Proof.
  intros [->|H]; [reflexivity|]. unfold strftime_gen. destruct pad; auto. f_equal.
  assert (D : dec_value (dec (f_year f)) = f_year f) by (apply dec_value_dec; lia).
  generalize dependent (f_year f). clear f. intros y Hy _.
  unfold dec. destruct (Z.ltb_spec y 0); [lia|]. unfold dec_nonneg.
  destruct (Z.to_nat (Z.log2 y)) as [|[|[|[|n]]]] eqn:E.
  1-4: exfalso; assert (L : Z.log2 1000 <= Z.log2 y) by (apply Z.log2_le_mono; lia);
       change (Z.log2 1000) with 9 in L; lia.
  cbn [dec_loop]. 
  destruct (Z.eqb_spec (y / 10) 0); [lia|]. destruct (Z.eqb_spec (y / 10 / 10) 0); [lia|].
  destruct (Z.eqb_spec (y / 10 / 10 / 10) 0); [lia|]. destruct (Z.eqb_spec (y / 10 / 10 / 10 / 10) 0); [|lia].
  cbn [pad_dec app]. reflexivity.
Qed.

Lemma rstrip_zeros s : exists k, s = rstrip_by (fun c => c =? 48) s ++ repeat 48 k /\
  (rstrip_by (fun c => c =? 48) s = [] \/ last (rstrip_by (fun c => c =? 48) s) 0 <> 48).
Proof.
  unfold rstrip_by. assert (E : s = rev (rev s)) by (symmetry; apply rev_involutive).
  revert E. generalize (rev s) as r. intros r ->.
  induction r as [|c r (k & E & H)]; cbn [lstrip_by rev].
  - exists 0%nat. cbn. auto.
  - destruct (Z.eqb_spec c 48).
    + subst c. exists (S k). split; auto. cbn [repeat]. rewrite repeat_cons, app_assoc. f_equal. exact E.
    + exists 0%nat. cbn [repeat rev]. rewrite app_nil_r. split; auto. right. now rewrite last_last.
Qed.

Lemma dec_value_zeros s k : dec_value (s ++ repeat 48 k) = dec_value s * 10 ^ Z.of_nat k.
Proof.
  induction k as [|k IH].
  - cbn [repeat]. rewrite app_nil_r. change (10 ^ Z.of_nat 0) with 1. lia.
  - cbn [repeat]. rewrite repeat_cons, app_assoc, dec_value_snoc, IH, pow10_S. lia.
Qed.

Lemma span_digits_app ds c r : digits ds -> is_digit c = false -> span_digits (ds ++ c :: r) = (ds, c :: r).
Proof.
  intros H Hc. induction H as [|d ds Hd H IH]; cbn [app span_digits].
  - now rewrite Hc.
  - unfold is_digit at 1. replace ((48 <=? d) && (d <=? 57)) with true by lia. now rewrite IH.
Qed.

Lemma round_exact n d : 0 < d -> round_half_down (n * d) d = n.
Proof.
  intros H. unfold round_half_down. rewrite Z.mod_mul, Z.div_mul by lia.
  destruct (Z.ltb_spec d (2 * 0)); lia.
Qed.

Definition gen_fraction (us : Z) : text :=
  if us =? 0 then [] else 46 :: rstrip_by (fun c => c =? 48) (pad_dec 6 us).

Lemma gen_fraction_ok us : 0 <= us <= 999999 ->
  (gen_fraction us = [] /\ us = 0) \/
  (0 < us /\ exists fs, gen_fraction us = 46 :: fs /\ fs <> [] /\ digits fs /\ last fs 0 <> 48 /\
     round_half_down (dec_value fs * 1000000 * 1) (10 ^ len fs) = us).
Proof.
  intros H. unfold gen_fraction. destruct (Z.eqb_spec us 0); [auto|right]. split; [lia|].
  exists (rstrip_by (fun c => c =? 48) (pad_dec 6 us)). split; auto.
  destruct (rstrip_zeros (pad_dec 6 us)) as (k & E & L). set (fs := rstrip_by _ _) in *.
  assert (V : dec_value (pad_dec 6 us) = us) by (apply dec_value_pad; change (10 ^ Z.of_nat 6) with 1000000; lia).
  assert (D : digits (pad_dec 6 us)) by apply pad_dec_digits.
  assert (Lk : len fs + Z.of_nat k = 6).
  { pose proof (pad_dec_len 6 us) as P. rewrite E, len_app in P.
    unfold len in P at 2. rewrite repeat_length in P. lia. }
  rewrite E, dec_value_zeros in V. rewrite E in D. apply Forall_app in D as [D _].
  assert (N : fs <> []). { intros N. rewrite N in V. unfold dec_value in V. cbn in V. lia. }
  destruct L as [L|L]; [easy|]. repeat split; auto.
  assert (P : 1000000 = 10 ^ Z.of_nat k * 10 ^ len fs).
  { rewrite <- Z.pow_add_r; [|lia|apply len_nonneg]. replace (Z.of_nat k + len fs) with 6 by lia. reflexivity. }
  rewrite P. replace (dec_value fs * (10 ^ Z.of_nat k * 10 ^ len fs) * 1) with
    (dec_value fs * 10 ^ Z.of_nat k * 10 ^ len fs) by lia.
  rewrite round_exact; auto. apply Z.pow_pos_nonneg; [lia|apply len_nonneg].
Qed.

Lemma gen_parse_ok f us : valid_fields f = true -> 0 <= f_year f <= 9999 -> us = f_micro f ->
  gen_parse ((pad_dec 4 (f_year f) ++ mdhms f) ++ gen_fraction us ++ [90]) =
  Ok (Parsed (f_year f) (f_month f) (f_day f) (f_hour f) (f_minute f) (f_second f) (Some 0) us).
Proof.
  intros V Hy ->. pose proof (valid_fields_bounds f V) as (H1 & H2 & H3 & H4 & H5 & H6).
  unfold gen_parse, gen_match, mdhms. rewrite <- !app_assoc.
  rewrite take4 by lia. cbn [obind]. rewrite take2 by lia. cbn [obind]. rewrite take2 by lia. cbn [obind].
  rewrite take2 by lia. cbn [obind]. unfold opt_digits2 at 1. rewrite take2 by lia.
  unfold opt_digits2 at 1. rewrite take2 by lia.
  destruct (gen_fraction_ok (f_micro f) H6) as [[-> E]|(Hp & fs & -> & N & D & L & E)].
  - cbn. rewrite E. reflexivity.
  - cbn [app opt_fraction]. change ((46 =? 44) || (46 =? 46)) with true. cbn iota.
    rewrite (span_digits_app fs 90 []) by (auto; reflexivity).
    destruct fs as [|c fs]; [easy|]. cbn [take_zone obind at_end zone_of].
    change (tz_ok (0 * 60000000)) with true. cbn [bind or0]. now rewrite E.
Qed.

Lemma us_set f k : us_of (set_year f (f_year f + 400 * k)) = us_of f + 146097 * us_per_day * k.
Proof. exact (us_period f k). Qed.
Lemma valid_set f k : valid_fields (set_year f (f_year f + 400 * k)) = valid_fields f.
Proof. exact (valid_fields_period f k). Qed.

Lemma set_year_id f : set_year f (f_year f) = f.
Proof. now destruct f. Qed.

Lemma from_y2k_ok f tz : valid_fields f = true -> 0 <= f_year f <= 9999 ->
  from_y2k (DT (set_year f (f_year f + 2000)) tz) = Ok (DT f tz).
Proof.
  intros V Hy. unfold from_y2k, d_year. cbn [d_fields d_tz].
  change (f_year (set_year f (f_year f + 2000))) with (f_year f + 2000).
  replace (f_year f + 2000 - 2000) with (f_year f) by lia.
  replace (set_year (set_year f (f_year f + 2000)) (f_year f)) with f by now destruct f.
  destruct (Z.ltb_spec 0 (f_year f)).
  - unfold mk_datetime. rewrite V. replace ((1 <=? f_year f) && (f_year f <=? 9999) && true) with true by lia. reflexivity.
  - assert (E : f_year f = 0) by lia. unfold mk_extended. rewrite E. cbn [Z.eqb negb].
    change (0 =? 0) with true. cbn [negb]. unfold mk_datetime. cbn [set_year f_year].
    change ((1 <=? 2000) && (2000 <=? 9999)) with true. cbn [andb].
    replace (valid_fields (set_year f 2000)) with true.
    + cbn [bind d_fields]. unfold set_year. cbn. rewrite <- E. now destruct f.
    + symmetry. rewrite <- V. rewrite <- (valid_fields_period f 5). rewrite E. reflexivity.
Qed.

Lemma y2k_us f : us_of (set_year f (f_year f + 2000)) = us_of f + 146097 * us_per_day * 5.
Proof. exact (us_set f 5). Qed.

Lemma fields_shift t k : fields_of (t + 146097 * us_per_day * k) = set_year (fields_of t) (f_year (fields_of t) + 400 * k).
Proof.
  destruct (us_of_fields t) as [V E]. 
  transitivity (fields_of (us_of (set_year (fields_of t) (f_year (fields_of t) + 400 * k)))).
  - now rewrite us_set, E.
  - apply fields_of_us. now rewrite valid_set.
Qed.

(* arithmetic of extended_datetime goes through the year 2000 but is plain arithmetic *)
Lemma y2k_at t tz : 0 <= utc_year t <= 7999 ->
  (do v <- datetime_at (t + 146097 * us_per_day * 5) tz; from_y2k v) = Ok (DT (fields_of t) tz).
Proof.
  intros H. unfold datetime_at. rewrite fields_shift. destruct (us_of_fields t) as [V E]. unfold utc_year in H.
  replace (f_year (fields_of t) + 400 * 5) with (f_year (fields_of t) + 2000) by lia.
  cbn [set_year f_year].
  replace ((1 <=? f_year (fields_of t) + 2000) && (f_year (fields_of t) + 2000 <=? 9999)) with true by lia.
  cbn [bind]. apply from_y2k_ok; auto. lia.
Qed.


(* ---- the time line and the calendar year ---- *)
Lemma days_day y m d : days_of y m d = days_of y m 1 + d - 1.
Proof. unfold days_of. cbn zeta. lia. Qed.

Lemma dim_pos y m : 28 <= days_in_month y m <= 31.
Proof.
  unfold days_in_month. destruct (m =? 2); [destruct (leap y); lia|].
  destruct ((m =? 4) || (m =? 6) || (m =? 9) || (m =? 11)); lia.
Qed.

Lemma days_in_year y m d : valid_date y m d = true -> days_of y 1 1 <= days_of y m d < days_of (y + 1) 1 1.
Proof.
  intros V. pose proof (valid_date_bounds _ _ _ V) as [Hm _].
  assert (Hd : 1 <= d <= days_in_month y m) by (unfold valid_date in V; lia). clear V.
  assert (N : forall k, 1 <= k <= 11 -> days_of y (k + 1) 1 = days_of y k 1 + days_in_month y k).
  { intros k Hk. rewrite days_next_month by lia. rewrite (days_day y k (days_in_month y k)). lia. }
  pose proof (N 1 ltac:(lia)); pose proof (N 2 ltac:(lia)); pose proof (N 3 ltac:(lia)); pose proof (N 4 ltac:(lia));
  pose proof (N 5 ltac:(lia)); pose proof (N 6 ltac:(lia)); pose proof (N 7 ltac:(lia)); pose proof (N 8 ltac:(lia));
  pose proof (N 9 ltac:(lia)); pose proof (N 10 ltac:(lia)); pose proof (N 11 ltac:(lia)).
  pose proof (days_next_year y) as Y. rewrite (days_day y 12 31) in Y. rewrite (days_day y m d).
  assert (D12 : days_in_month y 12 = 31) by reflexivity.
  pose proof (dim_pos y 1); pose proof (dim_pos y 2); pose proof (dim_pos y 3); pose proof (dim_pos y 4);
  pose proof (dim_pos y 5); pose proof (dim_pos y 6); pose proof (dim_pos y 7); pose proof (dim_pos y 8);
  pose proof (dim_pos y 9); pose proof (dim_pos y 10); pose proof (dim_pos y 11).
  repeat match goal with H : days_of y (?a + 1) 1 = _ |- _ => 
    let b := eval compute in (a + 1) in change (a + 1) with b in H end.
  assert (C : m = 1 \/ m = 2 \/ m = 3 \/ m = 4 \/ m = 5 \/ m = 6 \/ m = 7 \/ m = 8 \/ m = 9 \/ m = 10 \/ m = 11 \/ m = 12) by lia.
  clear N Hm. repeat destruct C as [C|C]; subst m; lia.
Qed.

Lemma days_year_mono y k : 0 <= k -> days_of y 1 1 + k <= days_of (y + k) 1 1.
Proof.
  intros H. pattern k. apply natlike_ind; auto; clear k H.
  - rewrite !Z.add_0_r. lia.
  - intros k Hk IH. pose proof (days_in_year (y + k) 1 1 ltac:(reflexivity)) as L.
    replace (y + Z.succ k) with (y + k + 1) by lia. lia.
Qed.

Lemma us_day f : valid_fields f = true ->
  days_of (f_year f) (f_month f) (f_day f) * us_per_day <= us_of f < (days_of (f_year f) (f_month f) (f_day f) + 1) * us_per_day.
Proof. intros V. pose proof (valid_fields_bounds f V). unfold us_of, us_per_day. lia. Qed.

Lemma valid_fields_date f : valid_fields f = true -> valid_date (f_year f) (f_month f) (f_day f) = true.
Proof. unfold valid_fields. intros H. rewrite !andb_true_iff in H. tauto. Qed.

Lemma us_year_mono f g : valid_fields f = true -> valid_fields g = true -> us_of f <= us_of g ->
  f_year f <= f_year g.
Proof.
  intros Vf Vg H. destruct (Z.le_gt_cases (f_year f) (f_year g)) as [L|L]; auto. exfalso.
  pose proof (us_day f Vf). pose proof (us_day g Vg).
  pose proof (days_in_year _ _ _ (valid_fields_date _ Vf)). pose proof (days_in_year _ _ _ (valid_fields_date _ Vg)).
  pose proof (days_year_mono (f_year g + 1) (f_year f - (f_year g + 1)) ltac:(lia)) as M.
  replace (f_year g + 1 + (f_year f - (f_year g + 1))) with (f_year f) in M by lia.
  unfold us_per_day in *. nia.
Qed.

Lemma utc_year_near f off : valid_fields f = true -> tz_ok off = true ->
  f_year f - 1 <= utc_year (us_of f - off) <= f_year f + 1.
Proof.
  intros V H. unfold tz_ok in H. destruct (us_of_fields (us_of f - off)) as [Vt Et].
  unfold utc_year. set (g := fields_of (us_of f - off)) in *.
  pose proof (us_day f V). pose proof (us_day g Vt).
  pose proof (days_in_year _ _ _ (valid_fields_date _ V)). pose proof (days_in_year _ _ _ (valid_fields_date _ Vt)).
  destruct (Z.le_gt_cases (f_year f - 1) (f_year g)); [destruct (Z.le_gt_cases (f_year g) (f_year f + 1)); [lia|]|]; exfalso.
  - pose proof (days_year_mono (f_year f + 1) (f_year g - (f_year f + 1)) ltac:(lia)) as M.
    replace (f_year f + 1 + (f_year g - (f_year f + 1))) with (f_year g) in M by lia.
    pose proof (days_next_year (f_year f + 1)). pose proof (days_in_year (f_year f + 1) 12 31 ltac:(reflexivity)).
    pose proof (days_in_year (f_year f + 1) 1 2 ltac:(reflexivity)). pose proof (days_day (f_year f + 1) 1 2).
    pose proof (days_year_mono (f_year f + 1 + 1) (f_year g - (f_year f + 1 + 1)) ltac:(lia)) as M2.
    replace (f_year f + 1 + 1 + (f_year g - (f_year f + 1 + 1))) with (f_year g) in M2 by lia.
    unfold us_per_day in *. nia.
  - pose proof (days_in_year (f_year f - 1) 1 2 ltac:(reflexivity)). pose proof (days_day (f_year f - 1) 1 2).
    replace (f_year f - 1 + 1) with (f_year f) in * by lia.
    pose proof (days_year_mono (f_year g + 1) (f_year f - 1 - (f_year g + 1)) ltac:(lia)) as M2.
    replace (f_year g + 1 + (f_year f - 1 - (f_year g + 1))) with (f_year f - 1) in M2 by lia.
    unfold us_per_day in *. nia.
Qed.

Opaque fields_of us_of civil_of days_of.

Lemma astimezone_ok x off : dt_ok x -> d_tz x = Some off ->
  let t := us_of (d_fields x) - off in
  astimezone_utc x off =
    if d_year x =? 0 then if utc_year t <? 0 then Err ValueError else Ok (DT (fields_of t) (Some 0))
    else if (1 <=? utc_year t) && (utc_year t <=? 9999) then Ok (DT (fields_of t) (Some 0)) else Err OverflowError.
Proof.
  intros (Hy & V & Hz) Htz t. rewrite Htz in Hz. pose proof (utc_year_near _ _ V Hz) as N. fold t in N.
  unfold astimezone_utc. destruct (Z.eqb_spec (d_year x) 0) as [E|E]; [|reflexivity].
  unfold datetime_utc, to_y2k. cbn [d_fields]. unfold d_year in *. rewrite y2k_us.
  replace (us_of (d_fields x) + 146097 * us_per_day * 5 - off) with (t + 146097 * us_per_day * 5) by (unfold t; lia).
  destruct (Z.ltb_spec (utc_year t) 0) as [L|L].
  - unfold datetime_at. rewrite fields_shift. unfold utc_year in *. cbn [set_year f_year].
    replace (f_year (fields_of t) + 400 * 5) with (f_year (fields_of t) + 2000) by lia.
    replace ((1 <=? f_year (fields_of t) + 2000) && (f_year (fields_of t) + 2000 <=? 9999)) with true by lia.
    cbn [bind]. unfold from_y2k, d_year. cbn [d_fields set_year f_year].
    replace (f_year (fields_of t) + 2000 - 2000) with (f_year (fields_of t)) by lia.
    destruct (Z.ltb_spec 0 (f_year (fields_of t))); [lia|]. unfold mk_extended. cbn [set_year f_year].
    destruct (Z.eqb_spec (f_year (fields_of t)) 0); [lia|]. reflexivity.
  - apply y2k_at. lia.
Qed.

Lemma mk_ok f tz : valid_fields f = true -> 0 <= f_year f <= 9999 ->
  (if f_year f =? 0 then mk_extended (whole f) tz else mk_datetime (whole f) tz) = Ok (DT (whole f) tz).
Proof.
  intros V H. pose proof (valid_whole f V) as W. destruct (Z.eqb_spec (f_year f) 0) as [E|E].
  - unfold mk_extended. change (f_year (whole f)) with (f_year f). rewrite E. change (negb (0 =? 0)) with false. cbn iota.
    unfold mk_datetime. change (f_year (set_year (whole f) 2000)) with 2000.
    change ((1 <=? 2000) && (2000 <=? 9999)) with true. cbn [andb].
    replace (valid_fields (set_year (whole f) 2000)) with true.
    + cbn [bind d_fields]. unfold whole. rewrite E. reflexivity.
    + symmetry. rewrite <- W, <- (valid_set (whole f) 5). change (f_year (whole f)) with (f_year f). rewrite E. reflexivity.
  - unfold mk_datetime. rewrite W. change (f_year (whole f)) with (f_year f).
    replace ((1 <=? f_year f) && (f_year f <=? 9999) && true) with true by lia. reflexivity.
Qed.

Lemma add_us_ok f tz : valid_fields f = true -> 0 <= f_year f <= 9999 ->
  add_us (DT (whole f) tz) (f_micro f) = Ok (DT f tz).
Proof.
  intros V H. unfold add_us, d_year. cbn [d_fields]. change (f_year (whole f)) with (f_year f).
  destruct (Z.eqb_spec (f_year f) 0) as [E|E].
  - unfold datetime_add, to_y2k, d_year. cbn [d_fields d_tz].
    pose proof (y2k_us (whole f)) as Y. rewrite Y.
    replace (us_of (whole f) + 146097 * us_per_day * 5 + f_micro f) with (us_of f + 146097 * us_per_day * 5)
      by (rewrite (us_whole f); lia).
    rewrite y2k_at; unfold utc_year; rewrite (fields_of_us f V); [reflexivity|lia].
  - unfold datetime_add, datetime_at. cbn [d_fields d_tz]. rewrite <- us_whole, (fields_of_us f V).
    replace ((1 <=? f_year f) && (f_year f <=? 9999)) with true by lia. reflexivity.
Qed.

Lemma gen_native_ok f : valid_fields f = true -> 0 <= f_year f <= 9999 ->
  gentime_native ((pad_dec 4 (f_year f) ++ mdhms f) ++ gen_fraction (f_micro f) ++ [90]) = Ok (DT f (Some 0)).
Proof.
  intros V H. unfold gentime_native. rewrite (gen_parse_ok f (f_micro f)) by auto. cbn [bind].
  unfold p_fields. cbn [p_year p_month p_day p_hour p_minute p_second p_tz p_fraction].
  pose proof (mk_ok f (Some 0) V H) as M. unfold whole in M.
  destruct (Z.eqb_spec (f_year f) 0) as [E|E].
  - rewrite E in M. rewrite M. cbn [bind].
    destruct (Z.eqb_spec (f_micro f) 0) as [U|U].
    + f_equal. f_equal. destruct f; cbn in *. now subst.
    + pose proof (add_us_ok f (Some 0) V H) as A. unfold whole in A. rewrite E in A. exact A.
  - rewrite M. cbn [bind]. destruct (Z.eqb_spec (f_micro f) 0) as [U|U].
    + f_equal. f_equal. destruct f; cbn in *. now subst.
    + exact (add_us_ok f (Some 0) V H).
Qed.

Lemma gentime_ok pad x off : dt_ok x -> d_tz x = Some off ->
  let t := us_of (d_fields x) - off in let Y := utc_year t in
  ((d_year x = 0 -> 0 <= Y) -> (1 <= d_year x -> 1 <= Y <= 9999) -> (pad = true \/ Y = 0 \/ 1000 <= Y) ->
    exists s v, gentime_format pad x = Ok s /\ der_gentime s /\ gentime_native s = Ok v /\
      instant v = Some t /\ d_tz v = Some 0) /\
  (d_year x = 0 -> Y < 0 -> gentime_format pad x = Err ValueError) /\
  (1 <= d_year x -> ~ 1 <= Y <= 9999 -> gentime_format pad x = Err OverflowError).
Proof.
  intros H Htz t Y. pose proof (astimezone_ok x off H Htz) as A. cbn zeta in A. fold t in A. fold Y in A.
  destruct H as (Hy & V & Hz). rewrite Htz in Hz. pose proof (utc_year_near _ _ V Hz) as N. fold t in N. fold Y in N.
  fold (d_year x) in N.
  unfold gentime_format. rewrite Htz, A. clear A. split; [|split].
  - intros H0 H1 HP. destruct (us_of_fields t) as [Vt Et].
    assert (R : 0 <= Y <= 9999) by (destruct (Z.eq_dec (d_year x) 0); lia).
    set (g := fields_of t) in *. change Y with (f_year g) in *.
    replace (if d_year x =? 0 then _ else _) with (@Ok dt (DT g (Some 0))).
    2: { destruct (Z.eqb_spec (d_year x) 0); [destruct (Z.ltb_spec (f_year g) 0); [lia|reflexivity]|].
         replace ((1 <=? f_year g) && (f_year g <=? 9999)) with true by lia. reflexivity. }
    exists ((pad_dec 4 (f_year g) ++ mdhms g) ++ gen_fraction (f_micro g) ++ [90]), (DT g (Some 0)).
    cbn [bind]. unfold d_year. cbn [d_fields]. cbn zeta. fold (gen_fraction (f_micro g)).
    assert (F : (if f_year g =? 0 then strftime_ext pad g else strftime_gen pad g) = pad_dec 4 (f_year g) ++ mdhms g).
    { destruct (Z.eqb_spec (f_year g) 0) as [E|E].
      - now rewrite strftime_ext_ok, E.
      - apply strftime_gen_ok. destruct HP as [?|[?|?]]; [auto|lia|right; lia]. }
    split; [f_equal; f_equal; exact F|]. split; [|split; [now apply gen_native_ok|]].
    + exists (pad_dec 4 (f_year g) ++ mdhms g), (gen_fraction (f_micro g)). split; [reflexivity|]. split; [|split].
      * apply Forall_app. split; [apply pad_dec_digits|apply mdhms_digits].
      * rewrite len_app, pad_dec_len, mdhms_len. reflexivity.
      * pose proof (valid_fields_bounds g Vt) as (_ & _ & _ & _ & _ & U).
        destruct (gen_fraction_ok (f_micro g) U) as [[-> _]|(_ & fs & -> & K1 & K2 & K3 & _)]; [auto|].
        right. exists fs. auto.
    + unfold instant. cbn [d_tz d_fields]. split; [f_equal; lia|reflexivity].
  - intros E L. rewrite E. change (0 =? 0) with true. cbn iota. destruct (Z.ltb_spec Y 0); [reflexivity|lia].
  - intros E L. destruct (Z.eqb_spec (d_year x) 0); [lia|].
    destruct ((1 <=? Y) && (Y <=? 9999)) eqn:K; [lia|reflexivity].
Qed.

Lemma utctime_naive x : d_tz x = None -> utctime_format x = Err ValueError.
Proof. intros H. unfold utctime_format. now rewrite H. Qed.

Lemma utctime_newline : exists s s', s <> s' /\
  utctime_native s = utctime_native s' /\ is_ok (utctime_native s) = true /\ ~ der_utctime s'.
Proof.
  exists (tx "000101003005Z"), (tx "000101003005Z" ++ [10]). split; [discriminate|].
  split; [vm_compute; reflexivity|]. split; [vm_compute; reflexivity|].
  intros (ds & E & _). apply (f_equal (fun l => last l 0)) in E. rewrite !last_last in E. discriminate.
Qed.
