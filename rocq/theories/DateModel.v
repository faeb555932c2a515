(* Model of the text forms, time zones, replacement of parts and time stamps of
   extended_datetime and extended_date, /repo/asn1crypto/util.py:118-313 and 316-880. *)
Require Import Verif.Base Verif.Text Verif.Calendar Verif.TimeModel Verif.ExtModel.

(* '%02d' for a number that is not negative *)
Definition pct02 (n : Z) : text := if n <? 100 then pad_dec 2 n else dec n.

(* util.py:262-271 _format_offset; a timedelta is a number of microseconds, its days
   and seconds are rounded down *)
Definition format_offset (off : option Z) : text :=
  match off with
  | None => []
  | Some us =>
      let days := us / us_per_day in
      let seconds := us mod us_per_day / 1000000 in
      let mins := days * 24 * 60 + seconds / 60 in
      (if mins <? 0 then 45 else 43) :: pct02 (Z.abs mins / 60) ++ 58 :: pct02 (Z.abs mins mod 60)
  end.

(* util.py:650-667 extended_datetime.isoformat; 715-721 __str__ passes a space *)
Definition isoformat (sep : Z) (x : dt) : text :=
  let f := d_fields x in
  tx "0000-" ++ pct02 (f_month f) ++ 45 :: pct02 (f_day f) ++ sep :: pct02 (f_hour f) ++ 58 :: pct02 (f_minute f) ++
  58 :: pct02 (f_second f) ++ (if f_micro f =? 0 then [] else 46 :: pad_dec 6 (f_micro f)) ++ format_offset (d_tz x).
Definition ext_str (x : dt) : text := isoformat 32 x.

(* ---- the zones of Python 2 ---- *)
Record zone := Zone { z_off : Z; z_name : text }.

(* util.py:125-147 timezone.__init__ without a name; Python 3 has the class in its
   library, which accepts offsets of any number of microseconds *)
Definition new_timezone (off : Z) : res zone :=
  if negb (tz_ok off) then Err ValueError
  else if negb (off mod us_per_day / 1000000 mod 60 =? 0) || negb (off mod 1000000 =? 0) then Err ValueError
  else Ok (Zone off (if off =? 0 then tx "UTC" else tx "UTC" ++ format_offset (Some off))).

(* util.py:149-162 timezone.__eq__ for two zones *)
Definition zone_eq (a b : zone) : bool := z_off a =? z_off b.

(* util.py:294-310 create_timezone with the dict it keeps; [make] is the class *)
Fixpoint cached (off : Z) (cache : list (Z * zone)) : option zone :=
  match cache with
  | [] => None
  | (k, z) :: r => if k =? off then Some z else cached off r
  end.
Definition create_timezone (make : Z -> res zone) (off : Z) (cache : list (Z * zone)) : res zone * list (Z * zone) :=
  match cached off cache with
  | Some z => (Ok z, cache)
  | None => match make off with Ok z => (Ok z, (off, z) :: cache) | Err e => (Err e, cache) end
  end.
Fixpoint create_timezones (make : Z -> res zone) (offs : list Z) (cache : list (Z * zone)) : list (res zone) :=
  match offs with
  | [] => []
  | off :: r => let (z, c) := create_timezone make off cache in z :: create_timezones make r c
  end.

(* ---- strftime ---- *)
(* what depends on the locale: names by number of the day of the week (Sunday is 0)
   and of the month, morning or afternoon by hour, and the text of a zone *)
Record locale := Locale {
  l_day : bool -> Z -> text; l_month : bool -> Z -> text; l_half : Z -> text; l_zone : Z -> option Z -> text }.

Definition day_no (f : fields) : Z := days_of (f_year f) (f_month f) (f_day f).
(* 0000-03-01, like 2000-03-01, is a Wednesday *)
Definition wday (f : fields) : Z := (day_no f + 3) mod 7.
Definition yday (f : fields) : Z := day_no f - days_of (f_year f) 1 1.
(* the Thursday of the week that starts on Monday: its year is the ISO year *)
Definition thursday (f : fields) : Z := day_no f - (wday f + 6) mod 7 + 3.
Definition iso_year (f : fields) : Z := let '(y, _, _) := civil_of (thursday f) in y.
Definition iso_week (f : fields) : Z := (thursday f - days_of (iso_year f) 1 1) / 7 + 1.
Definition year_text (pad : bool) (y : Z) : text := if pad then pad_dec 4 y else dec y.

(* the directives of C's strftime and of Python's datetime.strftime (no code of
   /repo), except those whose form the locale chooses (c, x, X, r), E and O, and s *)
Definition basic (L : locale) (pad : bool) (d : Z) (f : fields) (tz : option Z) : option text :=
  if d =? 89 then Some (year_text pad (f_year f))                               (* Y *)
  else if d =? 71 then Some (year_text pad (iso_year f))                        (* G *)
  else if d =? 67 then Some (pad_dec 2 (f_year f / 100))                        (* C *)
  else if d =? 121 then Some (pad_dec 2 (f_year f mod 100))                     (* y *)
  else if d =? 103 then Some (pad_dec 2 (iso_year f mod 100))                   (* g *)
  else if d =? 109 then Some (pad_dec 2 (f_month f))                            (* m *)
  else if d =? 100 then Some (pad_dec 2 (f_day f))                              (* d *)
  else if d =? 101 then Some (if f_day f <? 10 then [32; 48 + f_day f] else pad_dec 2 (f_day f))  (* e *)
  else if d =? 72 then Some (pad_dec 2 (f_hour f))                              (* H *)
  else if d =? 73 then Some (pad_dec 2 ((f_hour f + 11) mod 12 + 1))            (* I *)
  else if d =? 77 then Some (pad_dec 2 (f_minute f))                            (* M *)
  else if d =? 83 then Some (pad_dec 2 (f_second f))                            (* S *)
  else if d =? 102 then Some (pad_dec 6 (f_micro f))                            (* f *)
  else if d =? 106 then Some (pad_dec 3 (yday f + 1))                           (* j *)
  else if d =? 117 then Some (dec ((wday f + 6) mod 7 + 1))                     (* u *)
  else if d =? 119 then Some (dec (wday f))                                     (* w *)
  else if d =? 85 then Some (pad_dec 2 ((yday f + 7 - wday f) / 7))             (* U *)
  else if d =? 87 then Some (pad_dec 2 ((yday f + 7 - (wday f + 6) mod 7) / 7)) (* W *)
  else if d =? 86 then Some (pad_dec 2 (iso_week f))                            (* V *)
  else if d =? 97 then Some (l_day L true (wday f))                             (* a *)
  else if d =? 65 then Some (l_day L false (wday f))                            (* A *)
  else if (d =? 98) || (d =? 104) then Some (l_month L true (f_month f))        (* b h *)
  else if d =? 66 then Some (l_month L false (f_month f))                       (* B *)
  else if d =? 112 then Some (l_half L (f_hour f))                              (* p *)
  else if (d =? 122) || (d =? 90) then Some (l_zone L d tz)                     (* z Z *)
  else if d =? 37 then Some [37]
  else if d =? 110 then Some [10]                                               (* n *)
  else if d =? 116 then Some [9]                                                (* t *)
  else None.

(* D, F, R and T are short for others *)
Definition expand (d : Z) : option text :=
  if d =? 68 then Some (tx "%m/%d/%y")
  else if d =? 70 then Some (tx "%Y-%m-%d")
  else if d =? 82 then Some (tx "%H:%M")
  else if d =? 84 then Some (tx "%H:%M:%S") else None.
Fixpoint expanded (fmt : text) : text :=
  match fmt with
  | 37 :: d :: r => match expand d with Some s => s ++ expanded r | None => 37 :: d :: expanded r end
  | c :: r => c :: expanded r
  | [] => []
  end.

(* the text, None when the format holds another directive or ends in a percent sign *)
Fixpoint strf_basic (L : locale) (pad : bool) (fmt : text) (f : fields) (tz : option Z) : option text :=
  match fmt with
  | 37 :: d :: r =>
      match basic L pad d f tz, strf_basic L pad r f tz with Some a, Some b => Some (a ++ b) | _, _ => None end
  | [37] => None
  | c :: r => match strf_basic L pad r f tz with Some b => Some (c :: b) | None => None end
  | [] => Some []
  end.
Definition strf (L : locale) (pad : bool) (fmt : text) (f : fields) (tz : option Z) : option text :=
  strf_basic L pad (expanded fmt) f tz.

(* util.py:633-648 extended_datetime.strftime *)
Definition ext_strftime (L : locale) (pad : bool) (fmt : text) (x : dt) : option text :=
  match strf L pad fmt (set_year (d_fields x) 2000) (d_tz x), strf L pad fmt (set_year (d_fields x) 4000) (d_tz x) with
  | Some a, Some b => Some (merge_y2k a b)
  | _, _ => None
  end.

(* util.py:625-631 extended_datetime.date, 617-623 time as a number of microseconds *)
Definition ext_date (x : dt) : date_val := (0, f_month (d_fields x), f_day (d_fields x)).
Definition ext_time (x : dt) : Z :=
  let f := d_fields x in ((f_hour f * 60 + f_minute f) * 60 + f_second f) * 1000000 + f_micro f.

(* util.py:323-338 extended_date.__init__, and datetime.date *)
Definition mk_date (d : date_val) : res date_val :=
  let '(y, m, d') := d in
  if (1 <=? y) && (y <=? 9999) && valid_date y m d' then Ok d else Err ValueError.
Definition mk_extended_date (d : date_val) : res date_val :=
  let '(y, m, d') := d in
  if negb (y =? 0) then Err ValueError else do _ <- mk_date (2000, m, d'); Ok (0, m, d').

(* util.py:367-383 extended_date.strftime, 385-394 isoformat, 423-429 __str__ *)
Definition date_fields (d : date_val) : fields := let '(y, m, d') := d in Fields y m d' 0 0 0 0.
Definition date_strftime (L : locale) (pad : bool) (fmt : text) (d : date_val) : option text :=
  ext_strftime L pad fmt (DT (date_fields d) None).
Definition date_isoformat (L : locale) (pad : bool) (d : date_val) : option text :=
  date_strftime L pad (tx "0000-%m-%d") d.
Definition date_str (L : locale) (pad : bool) (d : date_val) : option text :=
  date_strftime L pad (tx "%Y-%m-%d") d.

(* ---- replacing parts ---- *)
Record changes := Changes {
  c_year : option Z; c_month : option Z; c_day : option Z; c_hour : option Z; c_minute : option Z;
  c_second : option Z; c_micro : option Z; c_tz : option (option Z) }.
Definition or_else {A} (x : option A) (a : A) : A := match x with Some b => b | None => a end.

(* datetime.replace(year, ...) of Python *)
Definition datetime_replace (v : dt) (year : Z) (c : changes) : res dt :=
  let f := d_fields v in
  mk_datetime (Fields year (or_else (c_month c) (f_month f)) (or_else (c_day c) (f_day f))
                 (or_else (c_hour c) (f_hour f)) (or_else (c_minute c) (f_minute f))
                 (or_else (c_second c) (f_second f)) (or_else (c_micro c) (f_micro f)))
              (or_else (c_tz c) (d_tz v)).

(* util.py:669-690 extended_datetime.replace *)
Definition ext_replace (x : dt) (c : changes) : res dt :=
  match c_year c with
  | Some y => if negb (y =? 0) then datetime_replace (to_y2k x) y c
              else do v <- datetime_replace (to_y2k x) 2000 c; from_y2k v
  | None => do v <- datetime_replace (to_y2k x) 2000 c; from_y2k v
  end.

(* util.py:396-421 extended_date.replace *)
Definition date_replace (d : date_val) (y m d' : option Z) : res date_val :=
  let '(y0, m0, d0) := d in
  let n := (or_else y y0, or_else m m0, or_else d' d0) in
  if 0 <? or_else y y0 then mk_date n else mk_extended_date n.

(* util.py:692-703 astimezone with any fixed offset; datetime.astimezone of Python
   goes through UTC.  A naive value, which Python takes to be in the zone of the
   system, gives the marker OutOfFuel. *)
Definition datetime_astimezone (v : dt) (off : Z) : res dt :=
  match d_tz v with
  | None => Err OutOfFuel
  | Some o => do u <- datetime_at (us_of (d_fields v) - o) (Some off);
              datetime_at (us_of (d_fields u) + off) (Some off)
  end.
Definition astimezone (x : dt) (off : Z) : res dt :=
  if d_year x =? 0 then do v <- datetime_astimezone (to_y2k x) off; from_y2k v else datetime_astimezone x off.

(* ---- time stamps ---- *)
(* the integer nearest to n / d, of two the even one *)
Definition round_even (n d : Z) : Z :=
  let q := n / d in let r := n mod d in
  if 2 * r <? d then q else if d <? 2 * r then q + 1 else if Z.even q then q else q + 1.
(* the double nearest to n / d, as a fraction m / 2^e; for quotients of at least one
   and less than 2^53 *)
Definition float_div (n d : Z) : Z * Z :=
  let e := 52 - Z.log2 (Z.abs n / d) in (round_even (n * 2 ^ e) d, e).

Definition epoch : Z := us_of (Fields 1970 1 1 0 0 0 0).
(* util.py:705-713 timestamp of an aware value: datetime.timestamp divides the
   microseconds since 1970 by a million, the integer subtracted is a double *)
Definition ext_timestamp (x : dt) : res (Z * Z) :=
  match d_tz x with
  | None => Err OutOfFuel
  | Some off =>
      let (m, e) := float_div (us_of (d_fields (to_y2k x)) - off - epoch) 1000000 in
      Ok (float_div (m - days_in_2000_years * 86400 * 2 ^ e) (2 ^ e))
  end.
