(* What the text of a time looks like (ISO 8601), which parts a changed time has, and
   which formats mean the same in every 400 years. *)
Require Import Verif.Base Verif.Text Verif.Calendar Verif.TimeModel Verif.TimeSpec Verif.PrimSpec Verif.DateModel.

(* hh:mm, east or west of Greenwich *)
Inductive iso_zone : option Z -> text -> Prop :=
| iz_none : iso_zone None []
| iz_east h m : 0 <= h < 24 -> 0 <= m < 60 -> iso_zone (Some ((60 * h + m) * 60000000)) (43 :: dd h ++ 58 :: dd m)
| iz_west h m : 0 <= h < 24 -> 0 <= m < 60 -> 0 < 60 * h + m ->
    iso_zone (Some (- (60 * h + m) * 60000000)) (45 :: dd h ++ 58 :: dd m).

Inductive iso_fraction : Z -> text -> Prop :=
| if_none : iso_fraction 0 []
| if_some us ds : us <> 0 -> digits ds -> len ds = 6 -> dec_value ds = us -> iso_fraction us (46 :: ds).

(* yyyy-mm-dd hh:mm:ss[.ffffff][zone], with the character sep between date and time *)
Definition iso_date (f : fields) : text :=
  dd (f_year f / 100) ++ dd (f_year f mod 100) ++ 45 :: dd (f_month f) ++ 45 :: dd (f_day f).
Definition iso_text (sep : Z) (x : dt) (s : text) : Prop :=
  exists fr z, iso_fraction (f_micro (d_fields x)) fr /\ iso_zone (d_tz x) z /\
    let f := d_fields x in
    s = iso_date f ++ sep :: dd (f_hour f) ++ 58 :: dd (f_minute f) ++ 58 :: dd (f_second f) ++ fr ++ z.

Definition whole_minutes (tz : option Z) : Prop :=
  match tz with None => True | Some off => off mod 60000000 = 0 end.

(* the fields after a change, and whether there is such a time *)
Definition changed (c : changes) (x : dt) : dt :=
  let f := d_fields x in
  DT (Fields (or_else (c_year c) (f_year f)) (or_else (c_month c) (f_month f)) (or_else (c_day c) (f_day f))
        (or_else (c_hour c) (f_hour f)) (or_else (c_minute c) (f_minute f))
        (or_else (c_second c) (f_second f)) (or_else (c_micro c) (f_micro f)))
     (or_else (c_tz c) (d_tz x)).
Definition exists_time (x : dt) : bool := (0 <=? d_year x) && (d_year x <=? 9999) && valid_fields (d_fields x).

(* the directives of a format *)
Fixpoint directives (fmt : text) : list Z :=
  match fmt with
  | 37 :: d :: r => d :: directives r
  | _ :: r => directives r
  | [] => []
  end.
