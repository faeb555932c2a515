(* Model of comparison and arithmetic of extended_datetime and extended_date,
   /repo/asn1crypto/util.py:309-880, together with the datetime objects they mix with.
   A value with year 0 is an extended_datetime, one with year 1..9999 a
   datetime.datetime (see TimeModel). *)
Require Import Verif.Base Verif.Text Verif.Calendar Verif.TimeModel.

(* timedelta objects, in microseconds.  Simplification: the limits of timedelta
   (999999999 days) are not modelled; all differences here stay far below. *)

(* datetime - datetime; both naive or both aware, otherwise TypeError *)
Definition datetime_diff (a b : dt) : res Z :=
  match d_tz a, d_tz b with
  | None, None => Ok (us_of (d_fields a) - us_of (d_fields b))
  | Some o, Some o' => Ok ((us_of (d_fields a) - o) - (us_of (d_fields b) - o'))
  | _, _ => Err TypeError
  end.

(* util.py:517-518 DAYS_IN_2000_YEARS *)
Definition days_in_2000_years : Z := 5 * (400 * 365 + 97).

(* util.py:825-846 extended_datetime.__sub__ for a datetime or extended_datetime *)
Definition ext_diff (a b : dt) : res Z :=
  if d_year b =? 0 then datetime_diff (to_y2k a) (to_y2k b)
  else do d <- datetime_diff (to_y2k a) b; Ok (d - days_in_2000_years * us_per_day).

(* a - b as Python evaluates it; datetime - extended_datetime goes to __rsub__
   (util.py:848-849) *)
Definition dt_diff (a b : dt) : res Z :=
  if d_year a =? 0 then ext_diff a b
  else if d_year b =? 0 then do d <- ext_diff b a; Ok (- d)
  else datetime_diff a b.

(* util.py:837-838 subtracting a timedelta *)
Definition sub_us (x : dt) (us : Z) : res dt := add_us x (- us).

(* util.py:775-798 __cmp__ *)
Definition ext_cmp (a b : dt) : res Z :=
  match d_tz a, d_tz b with
  | None, Some _ | Some _, None => Err TypeError
  | _, _ =>
      do diff <- ext_diff a b;
      Ok (if diff <? 0 then -1 else if 0 <? diff then 1 else 0)
  end.

Inductive cmpop := LT | LE | GT | GE.
Definition swap (o : cmpop) : cmpop := match o with LT => GT | LE => GE | GT => LT | GE => LE end.
Definition cmp_holds (o : cmpop) (c : Z) : bool :=
  match o with LT => c <? 0 | LE => c <=? 0 | GT => 0 <? c | GE => 0 <=? c end.

(* a < b etc.: extended_datetime.__lt__ .. __ge__ (util.py:800-810), the built-in
   comparison of two datetimes, or the reflected method *)
Definition dt_compare (o : cmpop) (a b : dt) : res bool :=
  if d_year a =? 0 then do c <- ext_cmp a b; Ok (cmp_holds o c)
  else if d_year b =? 0 then do c <- ext_cmp b a; Ok (cmp_holds (swap o) c)
  else do d <- datetime_diff a b; Ok (cmp_holds o d).

(* util.py:723-742 __eq__, and datetime.__eq__ *)
Definition dt_eq (a b : dt) : bool :=
  match d_tz a, d_tz b with
  | None, Some _ | Some _, None => false
  | _, _ =>
      match (if d_year a =? 0 then ext_cmp a b
             else if d_year b =? 0 then ext_cmp b a
             else datetime_diff a b) with
      | Ok c => c =? 0
      | Err _ => false
      end
  end.

(* extended_date (year 0) and datetime.date (year >= 1): (year, month, day) *)
Definition date_val := (Z * Z * Z)%type.

Definition ymd_cmp (a b : date_val) : Z :=
  let '(y, m, d) := a in let '(y', m', d') := b in
  if y <? y' then -1 else if y' <? y then 1
  else if m <? m' then -1 else if m' <? m then 1
  else if d <? d' then -1 else if d' <? d then 1 else 0.

(* util.py:469-491 extended_date.__cmp__, 431-445 __eq__, and built-in date order *)
Definition date_cmp (a b : date_val) : Z :=
  let '(y, m, d) := a in let '(y', m', d') := b in
  if y =? 0 then if negb (y' =? 0) then -1 else ymd_cmp (2000, m, d) (2000, m', d')
  else if y' =? 0 then 1 else ymd_cmp a b.
Definition date_eq (a b : date_val) : bool :=
  let '(y, _, _) := a in let '(y', _, _) := b in
  if negb (Bool.eqb (y =? 0) (y' =? 0)) then false else date_cmp a b =? 0.
