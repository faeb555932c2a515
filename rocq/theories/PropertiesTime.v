(* C19, C20, C58: UTCTime and GeneralizedTime. *)
Require Import Verif.Base Verif.BaseFacts Verif.Text Verif.Calendar Verif.TimeModel Verif.TimeSpec Verif.TimeProofs Verif.PrimSpec Verif.TimeText Verif.TimeTextProofs.

(* the calendar used to state the theorems is the Gregorian one *)
Theorem C19_calendar_is_gregorian (y m d : Z) :
  days_of y m (d + 1) = days_of y m d + 1 /\
  (1 <= m <= 11 -> days_of y (m + 1) 1 = days_of y m (days_in_month y m) + 1) /\
  days_of (y + 1) 1 1 = days_of y 12 31 + 1 /\
  (valid_date y m d = true -> civil_of (days_of y m d) = (y, m, d)).
Proof. exact (conj (days_next_day y m d) (conj (days_next_month y m) (conj (days_next_year y) (civil_days y m d)))). Qed.
Print Assumptions C19_calendar_is_gregorian.

(* C19 *)
Theorem C19_utctime_roundtrip (x : dt) (off : Z) : dt_ok x -> 1 <= d_year x -> d_tz x = Some off ->
  let t := us_of (d_fields x) - off in
  (1950 <= utc_year t <= 2049 -> exists s v, utctime_format x = Ok s /\ der_utctime s /\ len s = 13 /\
     utctime_native s = Ok v /\ instant v = Some (t - t mod 1000000)) /\
  (~ 1950 <= utc_year t <= 2049 -> 1 <= utc_year t <= 9999 -> utctime_format x = Err ValueError) /\
  (~ 1 <= utc_year t <= 9999 -> utctime_format x = Err OverflowError).
Proof. exact (utctime_ok x off). Qed.
Print Assumptions C19_utctime_roundtrip.

Theorem C19_naive_rejected (x : dt) : d_tz x = None -> utctime_format x = Err ValueError.
Proof. exact (utctime_naive x). Qed.
Print Assumptions C19_naive_rejected.

Definition sample : dt := DT (Fields 2049 12 31 23 30 5 0) (Some (-3600000000)).
Definition sample2 : dt := DT (Fields 1950 1 1 0 59 59 7) (Some 3600000000).
Example C19_ex : dt_ok sample /\ utctime_format sample = Err ValueError /\
  dt_ok sample2 /\ utctime_format sample2 = Err ValueError /\
  utctime_format (DT (Fields 1999 12 31 23 30 5 0) (Some (-3600000000))) = Ok (tx "000101003005Z") /\
  utctime_native (tx "000101003005Z") = Ok (DT (Fields 2000 1 1 0 30 5 0) (Some 0)) /\
  utctime_format (DT (Fields 1950 1 1 0 0 0 0) (Some 0)) = Ok (tx "500101000000Z") /\
  utctime_native (tx "500101000000Z") = Ok (DT (Fields 1950 1 1 0 0 0 0) (Some 0)).
Proof. repeat split; vm_compute; (reflexivity || discriminate). Qed.

(* C20 *)
Theorem C20_gentime_roundtrip (pad : bool) (x : dt) (off : Z) : dt_ok x -> d_tz x = Some off ->
  let t := us_of (d_fields x) - off in let Y := utc_year t in
  ((d_year x = 0 -> 0 <= Y) -> (1 <= d_year x -> 1 <= Y <= 9999) -> (pad = true \/ Y = 0 \/ 1000 <= Y) ->
    exists s v, gentime_format pad x = Ok s /\ der_gentime s /\ gentime_native s = Ok v /\
      instant v = Some t /\ d_tz v = Some 0) /\
  (d_year x = 0 -> Y < 0 -> gentime_format pad x = Err ValueError) /\
  (1 <= d_year x -> ~ 1 <= Y <= 9999 -> gentime_format pad x = Err OverflowError).
Proof. exact (gentime_ok pad x off). Qed.
Print Assumptions C20_gentime_roundtrip.

Example C20_ex :
  gentime_format false (DT (Fields 2024 2 29 23 59 59 120000) (Some (-5400000000))) = Ok (tx "20240301012959.12Z") /\
  gentime_native (tx "20240301012959.12Z") = Ok (DT (Fields 2024 3 1 1 29 59 120000) (Some 0)) /\
  gentime_format false (DT (Fields 0 2 29 0 0 0 1) (Some 0)) = Ok (tx "00000229000000.000001Z") /\
  gentime_native (tx "00000229000000.000001Z") = Ok (DT (Fields 0 2 29 0 0 0 1) (Some 0)) /\
  gentime_native (tx "2024022912.5+0130") = Ok (DT (Fields 2024 2 29 12 30 0 0) (Some 5400000000)) /\
  dt_ok (DT (Fields 0 2 29 0 0 0 1) (Some 0)).
Proof. repeat split; vm_compute; (reflexivity || discriminate). Qed.

(* C20 without the restriction on the year: where strftime('%Y') does not pad (as in
   glibc), years below 1000 are written as a different instant *)
Theorem C20_unpadded_year_refuted : exists x s v,
  dt_ok x /\ gentime_format false x = Ok s /\ gentime_native s = Ok v /\ instant v <> instant x.
Proof.
  exists (DT (Fields 50 1 12 10 0 0 0) (Some 0)), (tx "500112100000Z"), (DT (Fields 5001 12 10 0 0 0 0) (Some 0)).
  repeat split; vm_compute; (reflexivity || discriminate).
Qed.
Print Assumptions C20_unpadded_year_refuted.

(* C52: false for GeneralizedTime, rounding the fraction up past the last instant *)
Theorem C52_gentime_overflow_refuted : exists s, gentime_native s = Err OverflowError.
Proof. exists (tx "99991231235959.9999999Z"). vm_compute. reflexivity. Qed.
Print Assumptions C52_gentime_overflow_refuted.

(* C53: a trailing line feed is accepted, so two different contents read the same *)
Theorem C53_trailing_newline_refuted : exists s s', s <> s' /\
  utctime_native s = utctime_native s' /\ is_ok (utctime_native s) = true /\ ~ der_utctime s'.
Proof. exact utctime_newline. Qed.
Print Assumptions C53_trailing_newline_refuted.

(* C58: exactly which texts are read, and as what *)
Theorem C58_utctime_texts (s : text) (v : dt) :
  utctime_native s = Ok v <-> exists s0, line_end s0 s /\ utc_reads s0 v.
Proof. exact (utctime_reads s v). Qed.
Print Assumptions C58_utctime_texts.

Theorem C58_gentime_texts (s : text) (v : dt) :
  gentime_native s = Ok v <-> exists s0, line_end s0 s /\ gen_reads s0 v.
Proof. exact (gentime_reads s v). Qed.
Print Assumptions C58_gentime_texts.

Example C58_ex :
  utctime_native (tx "4912312359-0130") = Ok (DT (Fields 2049 12 31 23 59 0 0) (Some (-5400000000))) /\
  utctime_native (tx "5002291200Z") = Err ValueError /\
  gentime_native (tx "2024022923.999999-05") = Ok (DT (Fields 2024 2 29 23 59 59 996400) (Some (-18000000000))) /\
  gentime_native (tx "20240229235959,9999996") = Ok (DT (Fields 2024 3 1 0 0 0 0) None) /\
  utc_reads (tx "4912312359-0130") (DT (Fields 2049 12 31 23 59 0 0) (Some (-5400000000))).
Proof.
  do 4 (split; [vm_compute; reflexivity|]).
  exists 49, 12, 31, 23, 59, 0, [], (tx "-0130"), (-90). unfold two, day. do 5 (split; [lia|]). split; [left; split; reflexivity|].
  split; [apply (zone_west 1 30); unfold two; lia|]. split; [lia|].
  split; [reflexivity|]. split; reflexivity.
Qed.
