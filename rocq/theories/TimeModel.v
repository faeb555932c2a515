(* Model of AbstractTime / UTCTime / GeneralizedTime, /repo/asn1crypto/core.py:4895-5171,
   and of the parts of extended_datetime they use, /repo/asn1crypto/util.py:506-880. *)
Require Import Verif.Base Verif.Text Verif.Calendar.

(* A datetime.datetime (year 1..9999) or an extended_datetime (year 0) object; the
   offset of its tzinfo from UTC in microseconds, None for a naive value.
   Simplification: tzinfo objects are fixed offsets. *)
Record dt := DT { d_fields : fields; d_tz : option Z }.
Definition d_year (x : dt) : Z := f_year (d_fields x).

Definition set_year (f : fields) (y : Z) : fields :=
  Fields y (f_month f) (f_day f) (f_hour f) (f_minute f) (f_second f) (f_micro f).

(* datetime.timezone accepts offsets strictly between -24 and 24 hours *)
Definition tz_ok (off : Z) : bool := (- us_per_day <? off) && (off <? us_per_day).

(* the constructor datetime(...): ValueError for values out of range *)
Definition mk_datetime (f : fields) (tz : option Z) : res dt :=
  if (1 <=? f_year f) && (f_year f <=? 9999) && valid_fields f then Ok (DT f tz) else Err ValueError.

(* util.py:520-535 extended_datetime.__init__ over datetime(2000, ...) *)
Definition mk_extended (f : fields) (tz : option Z) : res dt :=
  if negb (f_year f =? 0) then Err ValueError
  else do y2k <- mk_datetime (set_year f 2000) tz; Ok (DT (set_year (d_fields y2k) 0) tz).

(* datetime arithmetic in Python: OverflowError when the year leaves 1..9999 *)
Definition datetime_at (t : Z) (tz : option Z) : res dt :=
  let f := fields_of t in
  if (1 <=? f_year f) && (f_year f <=? 9999) then Ok (DT f tz) else Err OverflowError.

(* util.py:851-880 from_y2k *)
Definition from_y2k (v : dt) : res dt :=
  let f := set_year (d_fields v) (d_year v - 2000) in
  if 0 <? f_year f then mk_datetime f (d_tz v) else mk_extended f (d_tz v).

(* the object held in extended_datetime._y2k *)
Definition to_y2k (x : dt) : dt := DT (set_year (d_fields x) (d_year x + 2000)) (d_tz x).

(* datetime.astimezone(utc_with_dst) *)
Definition datetime_utc (x : dt) (off : Z) : res dt := datetime_at (us_of (d_fields x) - off) (Some 0).

(* value.astimezone(utc_with_dst) for both classes; util.py:692-703 *)
Definition astimezone_utc (x : dt) (off : Z) : res dt :=
  if d_year x =? 0 then do v <- datetime_utc (to_y2k x) off; from_y2k v
  else datetime_utc x off.

(* value + timedelta(microseconds=us) for both classes; util.py:812-823 *)
Definition datetime_add (x : dt) (us : Z) : res dt := datetime_at (us_of (d_fields x) + us) (d_tz x).
Definition add_us (x : dt) (us : Z) : res dt :=
  if d_year x =? 0 then do v <- datetime_add (to_y2k x) us; from_y2k v
  else datetime_add x us.

(* ---- formatting ---- *)
(* n as exactly k decimal digits *)
Fixpoint pad_dec (k : nat) (n : Z) : text :=
  match k with O => [] | S k' => pad_dec k' (n / 10) ++ [48 + n mod 10] end.

(* strftime('%y%m%d%H%M%SZ') and strftime('%Y%m%d%H%M%S').  Whether '%Y' pads years
   below 1000 with zeros depends on the platform's C library: [pad]. *)
Definition mdhms (f : fields) : text :=
  pad_dec 2 (f_month f) ++ pad_dec 2 (f_day f) ++ pad_dec 2 (f_hour f) ++
  pad_dec 2 (f_minute f) ++ pad_dec 2 (f_second f).
Definition strftime_utc (f : fields) : text := pad_dec 2 (f_year f mod 100) ++ mdhms f ++ [90].
Definition strftime_gen (pad : bool) (f : fields) : text :=
  (if pad then pad_dec 4 (f_year f) else dec (f_year f)) ++ mdhms f.

(* util.py:633-648 extended_datetime.strftime: format with years 2000 and 4000 and
   replace every place where they read '2' and '4' by '0' *)
Fixpoint merge_y2k (a b : text) : text :=
  match a, b with
  | c2 :: a', c4 :: b' => (if (c2 =? 50) && (c4 =? 52) then 48 else c2) :: merge_y2k a' b'
  | _, _ => []
  end.
Definition strftime_ext (pad : bool) (f : fields) : text :=
  merge_y2k (strftime_gen pad (set_year f 2000)) (strftime_gen pad (set_year f 4000)).

(* core.py:5029-5057 UTCTime.set for a datetime: the text it stores *)
Definition utctime_format (x : dt) : res text :=
  match d_tz x with
  | None => Err ValueError
  | Some off =>
      do v <- datetime_utc x off;
      if (1950 <=? d_year v) && (d_year v <=? 2049) then Ok (strftime_utc (d_fields v))
      else Err ValueError
  end.

(* core.py:5125-5156 GeneralizedTime.set for a datetime or extended_datetime *)
Definition gentime_format (pad : bool) (x : dt) : res text :=
  match d_tz x with
  | None => Err ValueError
  | Some off =>
      do v <- astimezone_utc x off;
      let us := f_micro (d_fields v) in
      let fraction := if us =? 0 then [] else 46 :: rstrip_by (fun c => c =? 48) (pad_dec 6 us) in
      Ok ((if d_year v =? 0 then strftime_ext pad (d_fields v) else strftime_gen pad (d_fields v))
          ++ fraction ++ [90])
  end.

(* ---- parsing ---- *)
(* \d{2} and \d{4} at the front.  \d matches ASCII digits only: the text is latin1,
   which has no other decimal digits. *)
Fixpoint take_digits (n : nat) (s : text) : option (Z * text) :=
  match n with
  | O => Some (0, s)
  | S n' => match take_digits n' s with
            | Some (v, c :: r) => if is_digit c then Some (v * 10 + (c - 48), r) else None
            | _ => None
            end
  end.

(* the end of the pattern: '$' also matches before one trailing newline *)
Definition at_end (s : text) : bool := match s with [] => true | [c] => c =? 10 | _ => false end.

(* Z or [-+]hhmm; minutes may be missing in GeneralizedTime.  Result: offset in
   minutes of the time zone, if any, and the rest of the text *)
Definition take_zone (min_opt : bool) (s : text) : option (option Z * text) :=
  match s with
  | 90 :: r => Some (Some 0, r)
  | sg :: r =>
      if (sg =? 43) || (sg =? 45) then
        let sign := if sg =? 43 then 1 else -1 in
        match take_digits 2 r with
        | None => None
        | Some (h, r1) =>
            match take_digits 2 r1 with
            | Some (m, r2) => Some (Some (sign * (h * 60 + m)), r2)
            | None => if min_opt then Some (Some (sign * (h * 60)), r1) else None
            end
        end
      else Some (None, s)
  | [] => Some (None, s)
  end.

(* what _parsed_time (core.py:4900-4962) returns, before the datetime is built *)
Record parsed := Parsed {
  p_year : Z; p_month : Z; p_day : Z; p_hour : Z; p_minute : Z; p_second : Z;
  p_tz : option Z; p_fraction : Z }.

(* core.py:4921-4929 create_timezone: offset in minutes to tzinfo, ValueError when
   it is not within 24 hours *)
Definition zone_of (z : option Z) : res (option Z) :=
  match z with
  | None => Ok None
  | Some m => if tz_ok (m * 60000000) then Ok (Some (m * 60000000)) else Err ValueError
  end.

(* a chain of optional steps, ending in a match failure *)
Definition obind {A B} (x : option A) (f : A -> option B) : option B :=
  match x with Some a => f a | None => None end.
Notation "'try' p <- x ; f" := (obind x (fun p => f))
  (at level 200, p pattern, x at level 100, f at level 200, right associativity).

Definition opt_digits2 (s : text) : option Z * text :=
  match take_digits 2 s with Some (v, r) => (Some v, r) | None => (None, s) end.
Definition or0 (x : option Z) : Z := match x with Some v => v | None => 0 end.

(* core.py:5001-5027, the UTCTime pattern *)
Definition utc_match (s : text) : option (Z * Z * Z * Z * Z * option Z * Z) :=
  try (y, s) <- take_digits 2 s;
  try (mo, s) <- take_digits 2 s;
  try (d, s) <- take_digits 2 s;
  try (h, s) <- take_digits 2 s;
  try (mi, s) <- take_digits 2 s;
  let (sec, s) := opt_digits2 s in
  try (z, s) <- take_zone false s;
  match z with
  | Some z => if at_end s then Some (y, mo, d, h, mi, sec, z) else None
  | None => None
  end.

Definition utc_parse (s : text) : res parsed :=
  match utc_match s with
  | None => Err ValueError
  | Some (y, mo, d, h, mi, sec, z) =>
      do tz <- zone_of (Some z); Ok (Parsed y mo d h mi (or0 sec) tz 0)
  end.

(* \d+ *)
Fixpoint span_digits (s : text) : text * text :=
  match s with
  | c :: r => if is_digit c then let (a, b) := span_digits r in (c :: a, b) else ([], s)
  | [] => ([], [])
  end.

(* (?: [,.] (?P<fraction>\d+) )? *)
Definition opt_fraction (s : text) : text * text :=
  match s with
  | c :: r =>
      if (c =? 44) || (c =? 46) then
        match span_digits r with
        | ([], _) => ([], s)
        | (ds, r') => (ds, r')
        end
      else ([], s)
  | [] => ([], s)
  end.

(* fractions.Fraction(n, d).limit_denominator(1): nearest integer, halves down *)
Definition round_half_down (n d : Z) : Z := if d <? 2 * (n mod d) then n / d + 1 else n / d.

(* core.py:5088-5123, the GeneralizedTime pattern *)
Definition gen_match (s : text) : option (Z * Z * Z * Z * option Z * option Z * text * option Z) :=
  try (y, s) <- take_digits 4 s;
  try (mo, s) <- take_digits 2 s;
  try (d, s) <- take_digits 2 s;
  try (h, s) <- take_digits 2 s;
  let (mi, s) := opt_digits2 s in
  let (sec, s) := match mi with None => (None, s) | Some _ => opt_digits2 s end in
  let (fr, s) := opt_fraction s in
  try (z, s) <- take_zone true s;
  if at_end s then Some (y, mo, d, h, mi, sec, fr, z) else None.

(* core.py:4921-4961 *)
Definition gen_parse (s : text) : res parsed :=
  match gen_match s with
  | None => Err ValueError
  | Some (y, mo, d, h, mi, sec, fr, z) =>
      do tz <- zone_of z;
      let unit := match mi, sec with
                  | None, _ => 3600
                  | _, None => 60
                  | _, _ => 1
                  end in
      let fraction := match fr with
                      | [] => 0
                      | _ => round_half_down (dec_value fr * 1000000 * unit) (10 ^ len fr)
                      end in
      Ok (Parsed y mo d h (or0 mi) (or0 sec) tz fraction)
  end.

Definition p_fields (p : parsed) (year : Z) : fields :=
  Fields year (p_month p) (p_day p) (p_hour p) (p_minute p) (p_second p) 0.

(* core.py:4964-4990 native, 5059-5076 UTCTime._get_datetime *)
Definition utctime_native (s : text) : res dt :=
  do p <- utc_parse s;
  mk_datetime (p_fields p (if p_year p <? 50 then p_year p + 2000 else p_year p + 1900)) (p_tz p).

(* core.py:4964-4990 native, 5158-5171 GeneralizedTime._get_datetime *)
Definition gentime_native (s : text) : res dt :=
  do p <- gen_parse s;
  do v <- (if p_year p =? 0 then mk_extended (p_fields p 0) (p_tz p)
           else mk_datetime (p_fields p (p_year p)) (p_tz p));
  if p_fraction p =? 0 then Ok v else add_us v (p_fraction p).
