Require Import Verif.Base Verif.BaseFacts Verif.Text Verif.Calendar Verif.TimeModel Verif.TimeSpec Verif.TimeProofs
  Verif.ExtModel Verif.ExtProofs Verif.DateModel Verif.DateSpec Verif.DateProofs2.

(* microseconds since 1970 *)
Definition since_1970 (x : dt) : Z := position x - epoch.

Lemma year0_days : days_of 0 1 1 = -60 /\ days_of 1 1 1 = 306 /\ epoch = 719468 * us_per_day.
Proof. vm_compute. auto. Qed.

Lemma since_range x off : dt_ok x -> d_year x = 0 -> d_tz x = Some off ->
  -62168000000 * 1000000 < since_1970 x < -62135000000 * 1000000.
Proof.
  intros (_ & V & Hz) Y T. rewrite T in Hz. unfold tz_ok in Hz. unfold d_year in Y.
  pose proof (us_day _ V) as U. pose proof (days_in_year _ _ _ (valid_fields_date _ V)) as D.
  destruct year0_days as (A & B & C). rewrite Y in D. change (0 + 1) with 1 in D. rewrite A, B in D.
  rewrite Y in U. unfold since_1970, position. rewrite T, C. unfold us_per_day in *. lia.
Qed.

Lemma log2_between n k : 0 <= k -> 2 ^ k <= n < 2 ^ (k + 1) -> Z.log2 n = k.
Proof. intros H B. apply Z.log2_unique; [exact H|]. replace (Z.succ k) with (k + 1) by lia. exact B. Qed.

Definition stamp (t : Z) : Z :=
  round_even (round_even ((t + 63113904000 * 1000000) * 8388608) 1000000 - 63113904000 * 8388608) 64.

Lemma timestamp_eq x off : dt_ok x -> d_year x = 0 -> d_tz x = Some off ->
  ext_timestamp x = Ok (stamp (since_1970 x), 17).
Proof.
  intros O Y T. pose proof (since_range x off O Y T) as R. unfold ext_timestamp. rewrite T, to_y2k_us.
  set (t := since_1970 x) in *.
  replace (us_of (d_fields x) + days_in_2000_years * us_per_day - off - epoch) with (t + 63113904000 * 1000000).
  2: { unfold t, since_1970, position. rewrite T. change (days_in_2000_years * us_per_day) with (63113904000 * 1000000). lia. }
  unfold float_div at 1. clearbody t.
  rewrite (log2_between (Z.abs (t + 63113904000 * 1000000) / 1000000) 29) by (try lia; change (2 ^ 29) with 536870912; change (2 ^ (29 + 1)) with 1073741824; lia).
  change (52 - 29) with 23. change (2 ^ 23) with 8388608.
  pose proof (round_even_near ((t + 63113904000 * 1000000) * 8388608) 1000000 ltac:(lia)) as N.
  unfold stamp. set (m := round_even ((t + 63113904000 * 1000000) * 8388608) 1000000) in *.
  change (days_in_2000_years * 86400) with 63113904000. change (2 ^ 23) with 8388608.
  unfold float_div.
  rewrite (log2_between (Z.abs (m - 63113904000 * 8388608) / 8388608) 35) by (try lia; change (2 ^ 35) with 34359738368; change (2 ^ (35 + 1)) with 68719476736; lia).
  change (52 - 35) with 17. change (2 ^ 17) with 131072. f_equal. f_equal.
  set (k := m - 63113904000 * 8388608). clearbody k.
  unfold round_even.
  replace (k * 131072 / 8388608) with (k / 64) by lia.
  replace (k * 131072 mod 8388608) with (k mod 64 * 131072) by lia.
  replace (2 * (k mod 64 * 131072) <? 8388608) with (2 * (k mod 64) <? 64) by lia.
  replace (8388608 <? 2 * (k mod 64 * 131072)) with (64 <? 2 * (k mod 64)) by lia. reflexivity.
Qed.

(* within four microseconds *)
Lemma stamp_near t : - 4 * 131072 <= stamp t * 1000000 - t * 131072 <= 4 * 131072.
Proof.
  unfold stamp.
  pose proof (round_even_near ((t + 63113904000 * 1000000) * 8388608) 1000000 ltac:(lia)) as N.
  set (m := round_even ((t + 63113904000 * 1000000) * 8388608) 1000000) in *.
  pose proof (round_even_near (m - 63113904000 * 8388608) 64 ltac:(lia)) as N2.
  set (s := round_even (m - 63113904000 * 8388608) 64) in *. lia.
Qed.
Lemma stamp_mono t u : t <= u -> stamp t <= stamp u.
Proof.
  intros H. unfold stamp. apply round_even_mono; [lia|]. apply Z.sub_le_mono_r. apply round_even_mono; lia.
Qed.
Lemma stamp_whole s : stamp (s * 1000000) = s * 131072.
Proof.
  unfold stamp. replace ((s * 1000000 + 63113904000 * 1000000) * 8388608) with ((s + 63113904000) * 8388608 * 1000000) by ring.
  rewrite round_even_exact by lia.
  replace ((s + 63113904000) * 8388608 - 63113904000 * 8388608) with (s * 131072 * 64) by ring. apply round_even_exact. lia.
Qed.

(* ---- times read from GeneralizedTime ---- *)
Require Import Verif.TimeText Verif.TimeTextProofs.
Lemma loaded_minutes s v : gentime_native s = Ok v -> whole_minutes (d_tz v) /\ dt_ok v.
Proof.
  intros H. apply gentime_reads in H as (s0 & _ & y & mo & d & h & mt & mi & sec & unit & ft & us & z & tz & Hy & _ & _ & _ & GM & GF & _ & HZ & _ & V & Hm & ->).
  cbn [d_tz]. split.
  - destruct tz; cbn; [lia|auto].
  - pose proof (frac_bound unit ft us (unit_bound _ _ _ _ GM) GF) as B.
    destruct (us_of_fields (us_of (Fields y mo d h mi sec 0) + us)) as [Vt Et].
    unfold dt_ok, d_year. cbn [d_fields d_tz]. split; [|split; auto].
    + unfold utc_year in Hm. split; auto.
      pose proof (us_year_mono (Fields y mo d h mi sec 0) (fields_of (us_of (Fields y mo d h mi sec 0) + us)) V Vt ltac:(lia)) as M.
      cbn [f_year] in M. lia.
    + destruct tz; auto. unfold tz_ok, us_per_day, day in *. lia.
Qed.
