(* What the DER forms of UTCTime and GeneralizedTime look like (X.690 11.7, 11.8,
   RFC 5280 4.1.2.5) and which instant a date-time denotes. *)
Require Import Verif.Base Verif.Text Verif.Calendar Verif.TimeModel.

(* datetime.datetime and extended_datetime objects that can exist *)
Definition dt_ok (x : dt) : Prop :=
  0 <= d_year x <= 9999 /\ valid_fields (d_fields x) = true /\
  match d_tz x with Some off => tz_ok off = true | None => True end.

(* position of an aware date-time on the UTC time line, in microseconds *)
Definition instant (x : dt) : option Z :=
  match d_tz x with Some off => Some (us_of (d_fields x) - off) | None => None end.

(* the calendar year, in UTC, of a position on the time line *)
Definition utc_year (t : Z) : Z := f_year (fields_of t).

Definition digits (s : text) : Prop := Forall (fun c => 48 <= c <= 57) s.

(* YYMMDDHHMMSSZ *)
Definition der_utctime (s : text) : Prop := exists ds, s = ds ++ [90] /\ digits ds /\ len ds = 12.

(* YYYYMMDDHHMMSSZ or YYYYMMDDHHMMSS.fffZ, the fraction not ending in 0 *)
Definition der_gentime (s : text) : Prop := exists ds fr, s = ds ++ fr ++ [90] /\ digits ds /\ len ds = 14 /\
  (fr = [] \/ exists fs, fr = 46 :: fs /\ fs <> [] /\ digits fs /\ last fs 0 <> 48).
