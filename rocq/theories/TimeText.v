(* Which texts are read as which times: the BER forms of UTCTime (X.680 47.3) and
   GeneralizedTime (X.680 46.2, X.690 8.25), stated on the text. *)
Require Import Verif.Base Verif.Text Verif.Calendar Verif.TimeModel Verif.TimeSpec Verif.PrimSpec.

Definition two (n : Z) : Prop := 0 <= n < 100.

(* a time zone and its offset from UTC in minutes *)
Inductive zone_text : text -> Z -> Prop :=
| zone_utc : zone_text [90] 0
| zone_east h m : two h -> two m -> zone_text (43 :: dd h ++ dd m) (60 * h + m)
| zone_west h m : two h -> two m -> zone_text (45 :: dd h ++ dd m) (- (60 * h + m)).

Definition day : Z := 1440.   (* minutes *)

(* YYMMDDhhmm[ss]zone; two-digit years stand for 1950..2049 *)
Definition utc_reads (s : text) (v : dt) : Prop :=
  exists y mo d h mi sec st z zm,
    two y /\ two mo /\ two d /\ two h /\ two mi /\ ((st = [] /\ sec = 0) \/ (st = dd sec /\ two sec)) /\
    zone_text z zm /\ - day < zm < day /\
    s = dd y ++ dd mo ++ dd d ++ dd h ++ dd mi ++ st ++ z /\
    let f := Fields (if y <? 50 then 2000 + y else 1900 + y) mo d h mi sec 0 in
    valid_fields f = true /\ v = DT f (Some (zm * 60000000)).

(* the zone of a GeneralizedTime may be missing, or lack its minutes *)
Inductive gen_zone : text -> option Z -> Prop :=
| gz_none : gen_zone [] None
| gz_full z zm : zone_text z zm -> gen_zone z (Some zm)
| gz_east h : two h -> gen_zone (43 :: dd h) (Some (60 * h))
| gz_west h : two h -> gen_zone (45 :: dd h) (Some (- (60 * h))).

(* minutes and seconds, with the number of seconds a fraction refers to *)
Inductive gen_minutes : text -> Z -> Z -> Z -> Prop :=
| gm_hour : gen_minutes [] 0 0 3600
| gm_minute mi : two mi -> gen_minutes (dd mi) mi 0 60
| gm_second mi sec : two mi -> two sec -> gen_minutes (dd mi ++ dd sec) mi sec 1.

(* a decimal fraction of a unit of that many seconds, to the nearest microsecond
   (a tie goes down) *)
Inductive gen_frac (unit : Z) : text -> Z -> Prop :=
| gf_none : gen_frac unit [] 0
| gf_some c ds us : c = 44 \/ c = 46 -> ds <> [] -> digits ds ->
    (2 * us - 1) * 10 ^ len ds < 2 * (dec_value ds * 1000000 * unit) <= (2 * us + 1) * 10 ^ len ds ->
    gen_frac unit (c :: ds) us.

Definition gen_reads (s : text) (v : dt) : Prop :=
  exists y mo d h mt mi sec unit ft us z tz,
    0 <= y < 10000 /\ two mo /\ two d /\ two h /\ gen_minutes mt mi sec unit /\ gen_frac unit ft us /\ gen_zone z tz /\
    (match tz with Some zm => - day < zm < day | None => True end) /\
    s = dd (y / 100) ++ dd (y mod 100) ++ dd mo ++ dd d ++ dd h ++ mt ++ ft ++ z /\
    let f := Fields y mo d h mi sec 0 in
    valid_fields f = true /\
    let t := us_of f + us in
    utc_year t <= 9999 /\
    v = DT (fields_of t) (match tz with Some zm => Some (zm * 60000000) | None => None end).

(* what the library allows after the time *)
Definition line_end (s s' : text) : Prop := s' = s \/ s' = s ++ [10].
