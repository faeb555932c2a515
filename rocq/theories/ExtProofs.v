Require Import Verif.Base Verif.BaseFacts Verif.Text Verif.Calendar Verif.TimeModel Verif.TimeSpec Verif.TimeProofs Verif.ExtModel.

(* position on the time line: UTC for aware values, the local clock for naive ones *)
Definition position (x : dt) : Z := us_of (d_fields x) - match d_tz x with Some o => o | None => 0 end.
Definition comparable (a b : dt) : Prop :=
  match d_tz a, d_tz b with None, None => True | Some _, Some _ => True | _, _ => False end.

Lemma to_y2k_us x : us_of (d_fields (to_y2k x)) = us_of (d_fields x) + days_in_2000_years * us_per_day.
Proof. unfold to_y2k. cbn [d_fields]. unfold d_year. rewrite y2k_us. unfold days_in_2000_years, us_per_day. lia. Qed.

Lemma ext_diff_ok a b : comparable a b -> ext_diff a b = Ok (position a - position b).
Proof.
  unfold comparable, ext_diff, position. intros H. unfold datetime_diff.
  change (d_tz (to_y2k a)) with (d_tz a). change (d_tz (to_y2k b)) with (d_tz b).
  destruct (d_tz a), (d_tz b); try easy; destruct (d_year b =? 0); cbn [bind]; f_equal; rewrite !to_y2k_us; lia.
Qed.

Lemma dt_diff_ok a b : comparable a b -> dt_diff a b = Ok (position a - position b).
Proof.
  intros H. unfold dt_diff. destruct (d_year a =? 0); [now apply ext_diff_ok|].
  destruct (d_year b =? 0).
  - rewrite ext_diff_ok. 2: { unfold comparable in *. now destruct (d_tz a), (d_tz b). }
    cbn [bind]. f_equal. lia.
  - unfold datetime_diff, comparable, position in *. destruct (d_tz a), (d_tz b); try easy. f_equal. lia.
Qed.

Lemma incomparable a b o : ~ comparable a b -> dt_diff a b = Err TypeError /\ dt_compare o a b = Err TypeError /\ dt_eq a b = false.
Proof.
  unfold comparable, dt_diff, dt_compare, dt_eq, ext_cmp, ext_diff, datetime_diff. intros H.
  change (d_tz (to_y2k a)) with (d_tz a). change (d_tz (to_y2k b)) with (d_tz b).
  destruct (d_tz a), (d_tz b); try tauto; destruct (d_year a =? 0), (d_year b =? 0); cbn; auto.
Qed.

Lemma comparable_sym a b : comparable a b -> comparable b a.
Proof. unfold comparable. now destruct (d_tz a), (d_tz b). Qed.

Lemma ext_cmp_ok a b : comparable a b -> ext_cmp a b =
  Ok (if position a - position b <? 0 then -1 else if 0 <? position a - position b then 1 else 0).
Proof.
  intros H. unfold ext_cmp. rewrite ext_diff_ok by auto. unfold comparable in H.
  destruct (d_tz a), (d_tz b); try easy.
Qed.

Lemma compare_ok o a b : comparable a b -> dt_compare o a b = Ok (cmp_holds o (position a - position b)).
Proof.
  intros H. unfold dt_compare. destruct (d_year a =? 0); [|destruct (d_year b =? 0)].
  - rewrite ext_cmp_ok by auto. cbn [bind]. f_equal. unfold cmp_holds.
    destruct (Z.ltb_spec (position a - position b) 0), (Z.ltb_spec 0 (position a - position b)), o; try lia; reflexivity.
  - rewrite ext_cmp_ok by now apply comparable_sym. cbn [bind]. f_equal. unfold cmp_holds, swap.
    destruct (Z.ltb_spec (position b - position a) 0), (Z.ltb_spec 0 (position b - position a)), o; lia.
  - unfold datetime_diff, comparable, position in *. destruct (d_tz a), (d_tz b); try easy; cbn [bind]; repeat f_equal; lia.
Qed.

Lemma eq_ok a b : comparable a b -> dt_eq a b = (position a =? position b).
Proof.
  intros H. assert (E : dt_eq a b = match (if d_year a =? 0 then ext_cmp a b
             else if d_year b =? 0 then ext_cmp b a else datetime_diff a b) with Ok c => c =? 0 | Err _ => false end).
  { unfold dt_eq, comparable in *. now destruct (d_tz a), (d_tz b). }
  rewrite E. destruct (d_year a =? 0); [|destruct (d_year b =? 0)].
  - rewrite ext_cmp_ok by auto.
    destruct (Z.ltb_spec (position a - position b) 0), (Z.ltb_spec 0 (position a - position b)); lia.
  - rewrite ext_cmp_ok by now apply comparable_sym.
    destruct (Z.ltb_spec (position b - position a) 0), (Z.ltb_spec 0 (position b - position a)); lia.
  - unfold datetime_diff, comparable, position in *. destruct (d_tz a), (d_tz b); try easy; lia.
Qed.

(* ---- adding a duration ---- *)
(* the local clock reading us microseconds later *)
Definition later (x : dt) (us : Z) : dt := DT (fields_of (us_of (d_fields x) + us)) (d_tz x).

Lemma from_y2k_neg f tz : f_year f < 0 -> from_y2k (DT (set_year f (f_year f + 2000)) tz) = Err ValueError.
Proof.
  intros H. unfold from_y2k, d_year. cbn [d_fields d_tz set_year f_year].
  replace (f_year f + 2000 - 2000) with (f_year f) by lia.
  destruct (Z.ltb_spec 0 (f_year f)); [lia|]. unfold mk_extended. cbn [set_year f_year].
  destruct (Z.eqb_spec (f_year f) 0); [lia|reflexivity].
Qed.

Lemma add_us_spec x us : dt_ok x ->
  let Y := d_year (later x us) in
  add_us x us =
    if d_year x =? 0 then
      if (0 <=? Y) && (Y <=? 7999) then Ok (later x us)
      else if (-1999 <=? Y) && (Y <? 0) then Err ValueError else Err OverflowError
    else if (1 <=? Y) && (Y <=? 9999) then Ok (later x us) else Err OverflowError.
Proof.
  intros (Hy & V & _) Y. unfold add_us. destruct (Z.eqb_spec (d_year x) 0) as [E|E]; [|reflexivity].
  unfold datetime_add. rewrite to_y2k_us. change (d_tz (to_y2k x)) with (d_tz x).
  set (t := us_of (d_fields x) + us).
  replace (us_of (d_fields x) + days_in_2000_years * us_per_day + us) with (t + 146097 * us_per_day * 5)
    by (unfold t, days_in_2000_years, us_per_day; lia).
  assert (EY : Y = utc_year t) by reflexivity.
  destruct ((0 <=? Y) && (Y <=? 7999)) eqn:G1.
  - rewrite y2k_at by lia. reflexivity.
  - unfold datetime_at. rewrite fields_shift. cbn [set_year f_year]. fold (utc_year t). rewrite <- EY.
    destruct ((-1999 <=? Y) && (Y <? 0)) eqn:G2.
    + replace ((1 <=? Y + 400 * 5) && (Y + 400 * 5 <=? 9999)) with true by lia. cbn [bind].
      replace (Y + 400 * 5) with (f_year (fields_of t) + 2000) by (rewrite EY; unfold utc_year; lia).
      apply (from_y2k_neg (fields_of t)). unfold utc_year in EY. lia.
    + replace ((1 <=? Y + 400 * 5) && (Y + 400 * 5 <=? 9999)) with false by lia. reflexivity.
Qed.

Lemma later_position x us : position (later x us) = position x + us.
Proof.
  unfold position, later. cbn [d_fields d_tz]. destruct (us_of_fields (us_of (d_fields x) + us)) as [_ ->].
  destruct (d_tz x); lia.
Qed.

Lemma later_ok x us : dt_ok x -> 0 <= d_year (later x us) <= 9999 -> dt_ok (later x us).
Proof.
  intros (Hy & V & Z1) H. unfold dt_ok. split; [auto|]. split; [|exact Z1].
  unfold later. cbn [d_fields]. apply us_of_fields.
Qed.

Lemma later_later x a b : later (later x a) b = later x (a + b).
Proof.
  unfold later. cbn [d_fields d_tz]. destruct (us_of_fields (us_of (d_fields x) + a)) as [_ ->].
  f_equal. f_equal. lia.
Qed.

Lemma later_0 x : dt_ok x -> later x 0 = x.
Proof.
  intros (_ & V & _). unfold later. rewrite Z.add_0_r, fields_of_us by auto. now destruct x.
Qed.

Lemma add_us_ok_inv x us y : dt_ok x -> add_us x us = Ok y -> y = later x us /\ 0 <= d_year y <= 9999.
Proof.
  intros H. rewrite add_us_spec by auto. cbn zeta.
  destruct (d_year x =? 0).
  - destruct ((0 <=? d_year (later x us)) && (d_year (later x us) <=? 7999)) eqn:G;
      [|destruct ((-1999 <=? d_year (later x us)) && (d_year (later x us) <? 0)); discriminate].
    intros [= <-]. split; auto. lia.
  - destruct ((1 <=? d_year (later x us)) && (d_year (later x us) <=? 9999)) eqn:G; [|discriminate].
    intros [= <-]. split; auto. lia.
Qed.

Lemma add_then_diff x us y : dt_ok x -> add_us x us = Ok y -> dt_ok y /\ dt_diff y x = Ok us.
Proof.
  intros H A. destruct (add_us_ok_inv x us y H A) as [-> R]. split; [now apply later_ok|].
  rewrite dt_diff_ok. - rewrite later_position. f_equal. lia.
  - unfold comparable, later. cbn. now destruct (d_tz x).
Qed.

Lemma add_then_sub x us y : dt_ok x -> add_us x us = Ok y ->
  (d_year x = 0 -> d_year y = 0) -> sub_us y us = Ok x.
Proof.
  intros H A R0. destruct (add_us_ok_inv x us y H A) as [-> R]. unfold sub_us.
  rewrite add_us_spec by now apply later_ok. cbn zeta. rewrite later_later.
  replace (us + - us) with 0 by lia. rewrite later_0 by auto.
  destruct (Z.eqb_spec (d_year (later x us)) 0) as [E|E].
  - assert (d_year x = 0) as ->; [|reflexivity].
    destruct (Z.eq_dec (d_year x) 0) as [|N]; auto. exfalso.
    rewrite add_us_spec in A by auto. cbn zeta in A.
    destruct (Z.eqb_spec (d_year x) 0); [lia|]. rewrite E in A. discriminate.
  - replace ((1 <=? d_year x) && (d_year x <=? 9999)) with true; auto.
    destruct H as (Hy & _). destruct (Z.eq_dec (d_year x) 0); [tauto|lia].
Qed.

(* ---- extended_date ---- *)
Definition date_ok (a : date_val) : Prop := let '(y, m, d) := a in 0 <= y <= 9999 /\ valid_date y m d = true.
Definition date_pos (a : date_val) : Z := let '(y, m, d) := a in days_of y m d.

Lemma days_in_month_order y m m' d d' : valid_date y m d = true -> valid_date y m' d' = true -> m < m' ->
  days_of y m d < days_of y m' d'.
Proof.
  intros V V' H.
  pose proof (valid_date_bounds _ _ _ V) as [Hm _]. pose proof (valid_date_bounds _ _ _ V') as [Hm' _].
  assert (Hd : 1 <= d <= days_in_month y m) by (unfold valid_date in V; lia).
  assert (Hd' : 1 <= d' <= days_in_month y m') by (unfold valid_date in V'; lia).
  assert (K : forall k, 0 <= k -> m + 1 + k <= 12 -> days_of y (m + 1) 1 <= days_of y (m + 1 + k) 1).
  { intros k Hk. pattern k. apply natlike_ind; auto; clear k Hk.
    - rewrite Z.add_0_r. lia.
    - intros k Hk IH L. replace (m + 1 + Z.succ k) with (m + 1 + k + 1) by lia.
      rewrite (days_next_month y (m + 1 + k)) by lia. rewrite (days_day y (m + 1 + k) (days_in_month y (m + 1 + k))). pose proof (dim_pos y (m + 1 + k)). specialize (IH ltac:(lia)). lia. }
  specialize (K (m' - (m + 1)) ltac:(lia) ltac:(lia)). replace (m + 1 + (m' - (m + 1))) with m' in K by lia.
  rewrite (days_next_month y m) in K by lia. rewrite (days_day y m (days_in_month y m)) in K.
  rewrite (days_day y m d), (days_day y m' d'). lia.
Qed.

Lemma days_order y m d y' m' d' : valid_date y m d = true -> valid_date y' m' d' = true ->
  (days_of y m d < days_of y' m' d' <-> y < y' \/ (y = y' /\ (m < m' \/ (m = m' /\ d < d')))).
Proof.
  intros V V'.
  assert (A : forall y m d y' m' d', valid_date y m d = true -> valid_date y' m' d' = true -> y < y' ->
    days_of y m d < days_of y' m' d').
  { clear. intros y m d y' m' d' V V' H. pose proof (days_in_year _ _ _ V). pose proof (days_in_year _ _ _ V').
    pose proof (days_year_mono (y + 1) (y' - (y + 1)) ltac:(lia)) as M.
    replace (y + 1 + (y' - (y + 1))) with y' in M by lia. lia. }
  split.
  - intros H. destruct (Z.lt_trichotomy y y') as [|[->|G]]; [auto| |exfalso; pose proof (A _ _ _ _ _ _ V' V G); lia].
    right. split; auto. destruct (Z.lt_trichotomy m m') as [|[->|G]]; auto.
    + right. split; auto. rewrite (days_day y' m' d), (days_day y' m' d') in H. lia.
    + exfalso. pose proof (days_in_month_order _ _ _ _ _ V' V G). lia.
  - intros [H|(-> & [H|(-> & H)])]; [now apply A|now apply days_in_month_order|].
    rewrite (days_day y' m' d), (days_day y' m' d'). lia.
Qed.

Lemma ymd_cmp_ok y m d y' m' d' : valid_date y m d = true -> valid_date y' m' d' = true ->
  Z.sgn (ymd_cmp (y, m, d) (y', m', d')) = Z.sgn (days_of y m d - days_of y' m' d').
Proof.
  intros V V'. pose proof (days_order _ _ _ _ _ _ V V') as O1. pose proof (days_order _ _ _ _ _ _ V' V) as O2.
  unfold ymd_cmp.
  destruct (Z.ltb_spec y y'); [cbn; lia|]. destruct (Z.ltb_spec y' y); [cbn; lia|].
  destruct (Z.ltb_spec m m'); [cbn; lia|]. destruct (Z.ltb_spec m' m); [cbn; lia|].
  destruct (Z.ltb_spec d d'); [cbn; lia|]. destruct (Z.ltb_spec d' d); [cbn; lia|].
  assert (y = y' /\ m = m' /\ d = d') as (-> & -> & ->) by lia. rewrite Z.sub_diag. reflexivity.
Qed.

Lemma date_cmp_ok a b : date_ok a -> date_ok b -> Z.sgn (date_cmp a b) = Z.sgn (date_pos a - date_pos b) /\
  (date_eq a b = true <-> a = b).
Proof.
  destruct a as [[y m] d], b as [[y' m'] d']. intros (Hy & V) (Hy' & V').
  assert (C : Z.sgn (date_cmp (y, m, d) (y', m', d')) = Z.sgn (date_pos (y, m, d) - date_pos (y', m', d'))).
  { unfold date_cmp, date_pos. pose proof (days_order _ _ _ _ _ _ V V') as O1. pose proof (days_order _ _ _ _ _ _ V' V) as O2.
    destruct (Z.eqb_spec y 0) as [E|E], (Z.eqb_spec y' 0) as [E'|E']; cbn [negb].
    - subst y y'.
      rewrite ymd_cmp_ok by (rewrite <- (valid_date_period _ (-5)); assumption).
      change 2000 with (0 + 400 * 5). rewrite !days_period. f_equal. lia.
    - cbn. lia.
    - cbn. lia.
    - now apply ymd_cmp_ok. }
  split; auto. unfold date_eq. 
  assert (I : days_of y m d = days_of y' m' d' -> (y, m, d) = (y', m', d')).
  { intros I. rewrite <- (civil_days y m d), <- (civil_days y' m' d') by auto. now rewrite I. }
  unfold date_pos in C.
  destruct (Z.eqb_spec y 0) as [E|E], (Z.eqb_spec y' 0) as [E'|E']; cbn [negb Bool.eqb]; split; intros H; try discriminate; try (injection H; lia).
  - apply I. lia.
  - rewrite H in C |- *. injection H as -> -> ->. rewrite Z.sub_diag in C. lia.
  - apply I. lia.
  - rewrite H in C |- *. injection H as -> -> ->. rewrite Z.sub_diag in C. lia.
Qed.
