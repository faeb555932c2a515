(* C98: text forms, zones, changes and time stamps of the times of year 0. *)
Require Import Verif.Base Verif.BaseFacts Verif.Text Verif.Calendar Verif.TimeModel Verif.TimeSpec
  Verif.ExtModel Verif.ExtProofs Verif.DateModel Verif.DateSpec Verif.DateProofs Verif.DateProofs2 Verif.DateProofs3.
Ltac calc := vm_compute; reflexivity.

(* isoformat and str write the form of ISO 8601, and no two times have one text *)
Theorem C98_isoformat (sep : Z) (x : dt) : dt_ok x -> d_year x = 0 -> whole_minutes (d_tz x) ->
  iso_text sep x (isoformat sep x) /\
  (forall y, dt_ok y -> iso_text sep y (isoformat sep x) -> y = x) /\
  (forall y, dt_ok y -> d_year y = 0 -> whole_minutes (d_tz y) -> isoformat sep y = isoformat sep x -> y = x) /\
  ext_str x = isoformat 32 x.
Proof.
  intros O Y W. pose proof (isoformat_ok sep x O Y W) as H. split; auto. split; [|split; auto].
  - intros y Oy Hy. eapply iso_unique; eauto.
  - intros y Oy Yy Wy E. eapply iso_unique; eauto. rewrite <- E. now apply isoformat_ok.
Qed.
Print Assumptions C98_isoformat.

Definition leap_day : dt := DT (Fields 0 2 29 23 59 58 700) (Some (-19800000000)).
Example C98_isoformat_ex : dt_ok leap_day /\ d_year leap_day = 0 /\ whole_minutes (d_tz leap_day) /\
  isoformat 84 leap_day = tx "0000-02-29T23:59:58.000700-05:30".
Proof. repeat split; try calc; vm_compute; discriminate. Qed.

(* every time of year 0 that is read from a GeneralizedTime is such a time *)
Theorem C98_loaded (s : text) (x : dt) (sep : Z) : gentime_native s = Ok x -> d_year x = 0 ->
  dt_ok x /\ iso_text sep x (isoformat sep x).
Proof. intros H Y. destruct (loaded_minutes s x H) as [W O]. split; auto. now apply isoformat_ok. Qed.
Print Assumptions C98_loaded.
Example C98_loaded_ex : exists x, gentime_native (tx "00000101000000.5+0130") = Ok x /\ d_year x = 0 /\
  isoformat 32 x = tx "0000-01-01 00:00:00.500000+01:30".
Proof. eexists. split; [calc|]. split; calc. Qed.

(* seconds of an offset are rounded down *)
Theorem C98_isoformat_refuted : exists x y, dt_ok x /\ dt_ok y /\ d_year x = 0 /\ d_year y = 0 /\
  x <> y /\ dt_eq x y = false /\ isoformat 84 x = isoformat 84 y.
Proof.
  exists (DT (Fields 0 6 1 0 0 0 0) (Some (-30000000))), (DT (Fields 0 6 1 0 0 0 0) (Some (-60000000))).
  repeat split; try calc; vm_compute; discriminate.
Qed.
Print Assumptions C98_isoformat_refuted.

(* strftime means in year 0 what it means in other years *)
Theorem C98_strftime_partial (L : locale) (pad : bool) (fmt : text) (x : dt) : dt_ok x -> d_year x = 0 ->
  (In 71 (directives fmt) -> ~ (f_month (d_fields x) = 1 /\ f_day (d_fields x) <= 2)) ->
  ext_strftime L pad fmt x = strf L true fmt (d_fields x) (d_tz x).
Proof.
  intros O Y G. apply ext_strftime_ok; auto. intros H. specialize (G H). unfold early. lia.
Qed.
Print Assumptions C98_strftime_partial.

Definition plain : locale := Locale (fun _ n => dec n) (fun _ n => dec n) (fun _ => []) (fun _ _ => []).
Example C98_strftime_ex :
  ext_strftime plain false (tx "%Y/%C/%y 2 %j %w %G-W%V %F") leap_day = Some (tx "0000/00/00 2 060 2 0000-W09 0000-02-29").
Proof. calc. Qed.

(* on the first two days of the year the ISO year is that of another millennium *)
Theorem C98_strftime_refuted : exists x, dt_ok x /\ d_year x = 0 /\
  ext_strftime plain true (tx "%G") x = Some (tx "1999") /\ iso_year (d_fields x) = -1.
Proof.
  exists (DT (Fields 0 1 1 0 0 0 0) (Some 0)). repeat split; try calc; vm_compute; discriminate.
Qed.
Print Assumptions C98_strftime_refuted.

(* the text of the date is the first part of the text of the time *)
Theorem C98_date (L : locale) (pad : bool) (sep : Z) (x : dt) : dt_ok x -> d_year x = 0 ->
  date_isoformat L pad (ext_date x) = Some (firstn 10 (isoformat sep x)) /\
  date_str L pad (ext_date x) = Some (firstn 10 (isoformat sep x)) /\
  us_of (d_fields x) = days_of 0 (f_month (d_fields x)) (f_day (d_fields x)) * us_per_day + ext_time x.
Proof.
  intros O Y. destruct (date_iso L pad x O Y) as [E1 E2]. destruct O as (Hy & V & T).
  pose proof (isoformat_ok sep (DT (d_fields x) None) (conj Hy (conj V Logic.I)) Y Logic.I) as (fr & z & _ & _ & E).
  assert (F : firstn 10 (isoformat sep x) = iso_date (d_fields x)).
  { transitivity (firstn 10 (isoformat sep (DT (d_fields x) None))).
    - unfold isoformat. cbn [d_fields]. pose proof (TimeProofs.valid_fields_bounds _ V). rewrite !pct02_dd by lia. reflexivity.
    - rewrite E. reflexivity. }
  rewrite F. split; auto. split; auto. unfold us_of, ext_time. unfold d_year in Y. rewrite Y. lia.
Qed.
Print Assumptions C98_date.
Example C98_date_ex : date_isoformat plain true (ext_date leap_day) = Some (tx "0000-02-29") /\
  date_str plain false (ext_date leap_day) = Some (tx "0000-02-29").
Proof. split; calc. Qed.

(* replace changes the fields given and no others, and refuses what is no time *)
Theorem C98_replace (x : dt) (c : changes) : dt_ok x -> d_year x = 0 ->
  ext_replace x c = if exists_time (changed c x) then Ok (changed c x) else Err ValueError.
Proof. exact (ext_replace_ok x c). Qed.
Print Assumptions C98_replace.
Definition no_change : changes := Changes None None None None None None None None.
Definition to_1999 : changes := Changes (Some 1999) None (Some 28) None None None None None.
Example C98_replace_ex : ext_replace leap_day to_1999 = Ok (DT (Fields 1999 2 28 23 59 58 700) (Some (-19800000000))) /\
  ext_replace leap_day no_change = Ok leap_day /\
  ext_replace leap_day (Changes (Some 1999) None None None None None None None) = Err ValueError.
Proof. split; [calc|]. split; calc. Qed.

Theorem C98_date_replace (m0 d0 : Z) (y m d : option Z) : valid_date 0 m0 d0 = true ->
  date_replace (0, m0, d0) y m d =
    let y' := match y with Some v => v | None => 0 end in
    let m' := match m with Some v => v | None => m0 end in
    let d' := match d with Some v => v | None => d0 end in
    if (0 <=? y') && (y' <=? 9999) && valid_date y' m' d' then Ok (y', m', d') else Err ValueError.
Proof. exact (date_replace_ok m0 d0 y m d). Qed.
Print Assumptions C98_date_replace.
Example C98_date_replace_ex : date_replace (0, 2, 29) (Some 4) None None = Ok (4, 2, 29) /\
  date_replace (0, 2, 29) (Some 1) None None = Err ValueError /\ date_replace (0, 2, 29) None (Some 3) (Some 31) = Ok (0, 3, 31).
Proof. split; [calc|]. split; calc. Qed.

(* astimezone gives the same instant on the clock of the zone, if that clock does not
   show a year before year 0 *)
Theorem C98_astimezone (x : dt) (o off : Z) : dt_ok x -> d_year x = 0 -> d_tz x = Some o -> tz_ok off = true ->
  exists y, d_tz y = Some off /\ position y = position x /\ valid_fields (d_fields y) = true /\
    astimezone x off = if 0 <=? d_year y then Ok y else Err ValueError.
Proof.
  intros O Y T Z1. exists (in_zone x off). destruct (in_zone_position x off) as [P V].
  split; auto. split; auto. split; auto. eapply astimezone_spec; eauto.
Qed.
Print Assumptions C98_astimezone.
Example C98_astimezone_ex : astimezone leap_day 3600000000 = Ok (DT (Fields 0 3 1 6 29 58 700) (Some 3600000000)) /\
  astimezone (DT (Fields 0 1 1 0 0 0 0) (Some 0)) (-60000000) = Err ValueError /\
  astimezone (DT (Fields 0 12 31 23 0 0 0) (Some 0)) 3600000000 = Ok (DT (Fields 1 1 1 0 0 0 0) (Some 3600000000)).
Proof. split; [calc|]. split; calc. Qed.

(* a time that came to year 1 that way does not come back *)
Theorem C98_astimezone_back_refuted : exists x y o off, dt_ok x /\ d_year x = 0 /\ d_tz x = Some o /\
  astimezone x off = Ok y /\ dt_eq x y = true /\ astimezone y o = Err OverflowError.
Proof.
  exists (DT (Fields 0 12 31 23 0 0 0) (Some 0)), (DT (Fields 1 1 1 0 0 0 0) (Some 3600000000)), 0, 3600000000.
  repeat split; try calc; vm_compute; discriminate.
Qed.
Print Assumptions C98_astimezone_back_refuted.

(* zones: Python 2 zones are those of whole minutes within a day, named by their
   offsets, and the kept zones are the zones asked for *)
Theorem C98_timezone (off : Z) :
  (tz_ok off = true -> off mod 60000000 = 0 ->
     exists z, new_timezone off = Ok z /\ z_off z = off /\
       (off = 0 -> z_name z = tx "UTC") /\
       (off <> 0 -> exists s, z_name z = tx "UTC" ++ s /\ iso_zone (Some off) s)) /\
  (~ (tz_ok off = true /\ off mod 60000000 = 0) -> new_timezone off = Err ValueError).
Proof.
  assert (Q : (negb (off mod us_per_day / 1000000 mod 60 =? 0) || negb (off mod 1000000 =? 0)) = negb (off mod 60000000 =? 0)).
  { unfold us_per_day. lia. }
  unfold new_timezone. rewrite Q. split.
  - intros T M. rewrite T, M. change (negb (0 =? 0)) with false. cbn [negb]. eexists. split; [reflexivity|]. cbn [z_off z_name].
    split; auto. split.
    + intros ->. reflexivity.
    + intros N. replace (off =? 0) with false by lia. exists (format_offset (Some off)). split; auto. now apply format_zone.
  - intros H. destruct (tz_ok off); cbn [negb]; auto. destruct (Z.eqb_spec (off mod 60000000) 0); auto. tauto.
Qed.
Print Assumptions C98_timezone.
Theorem C98_create_timezone (make : Z -> res zone) (offs : list Z) :
  create_timezones make offs [] = map make offs.
Proof. apply cached_sound. discriminate. Qed.
Print Assumptions C98_create_timezone.
Example C98_timezone_ex : new_timezone (-12600000000) = Ok (Zone (-12600000000) (tx "UTC-03:30")) /\
  new_timezone 30000000 = Err ValueError /\ new_timezone 86400000000 = Err ValueError /\
  create_timezones new_timezone [0; 3600000000; 30000000; 0] [] =
    [Ok (Zone 0 (tx "UTC")); Ok (Zone 3600000000 (tx "UTC+01:00")); Err ValueError; Ok (Zone 0 (tx "UTC"))].
Proof. split; [calc|]. split; [calc|]. split; calc. Qed.

(* time stamps: whole seconds are exact, others within four microseconds and in order.
   The double is m / 2^17; position is in microseconds *)
Theorem C98_timestamp_partial (x y : dt) (o o' : Z) : dt_ok x -> d_year x = 0 -> d_tz x = Some o ->
  dt_ok y -> d_year y = 0 -> d_tz y = Some o' ->
  exists m n, ext_timestamp x = Ok (m, 17) /\ ext_timestamp y = Ok (n, 17) /\
    - 4 * 2 ^ 17 <= m * 1000000 - (position x - epoch) * 2 ^ 17 <= 4 * 2 ^ 17 /\
    (position x mod 1000000 = 0 -> m * 1000000 = (position x - epoch) * 2 ^ 17) /\
    (position x <= position y -> m <= n).
Proof.
  intros O Y T O' Y' T'. exists (stamp (since_1970 x)), (stamp (since_1970 y)).
  split; [now apply (timestamp_eq x o)|]. split; [now apply (timestamp_eq y o')|].
  change (2 ^ 17) with 131072. split; [apply stamp_near|]. split.
  - intros H. assert (E : epoch mod 1000000 = 0) by calc.
    set (s := (position x - epoch) / 1000000). assert (S1 : since_1970 x = s * 1000000) by (unfold since_1970, s; lia).
    rewrite S1, stamp_whole. unfold since_1970 in S1. rewrite S1. ring.
  - intros H. apply stamp_mono. unfold since_1970. lia.
Qed.
Print Assumptions C98_timestamp_partial.
Example C98_timestamp_ex : ext_timestamp (DT (Fields 0 1 1 0 0 0 0) (Some 0)) = Ok (-62167219200 * 2 ^ 17, 17).
Proof. calc. Qed.

(* times that differ by a microsecond may have the same time stamp *)
Theorem C98_timestamp_refuted : exists x y, dt_ok x /\ dt_ok y /\ d_year x = 0 /\ d_year y = 0 /\
  dt_eq x y = false /\ ext_timestamp x = ext_timestamp y /\ exists t, ext_timestamp x = Ok t.
Proof.
  exists (DT (Fields 0 1 1 0 0 0 0) (Some 0)), (DT (Fields 0 1 1 0 0 0 1) (Some 0)).
  repeat split; try calc; try (vm_compute; discriminate). eexists. calc.
Qed.
Print Assumptions C98_timestamp_refuted.
