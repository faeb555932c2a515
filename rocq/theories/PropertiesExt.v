(* C43: extended_datetime and extended_date. *)
Require Import Verif.Base Verif.BaseFacts Verif.Text Verif.Calendar Verif.TimeModel Verif.TimeSpec
  Verif.ExtModel Verif.ExtProofs.

(* comparison of any mixture of datetime and extended_datetime is the order of the
   instants they denote, hence a total order; == agrees with it *)
Theorem C43_order_is_time_line (o : cmpop) (a b : dt) : comparable a b ->
  dt_compare o a b = Ok (cmp_holds o (position a - position b)) /\
  dt_eq a b = (position a =? position b) /\
  dt_diff a b = Ok (position a - position b).
Proof. exact (fun H => conj (compare_ok o a b H) (conj (eq_ok a b H) (dt_diff_ok a b H))). Qed.
Print Assumptions C43_order_is_time_line.

Theorem C43_naive_and_aware_do_not_mix (o : cmpop) (a b : dt) : ~ comparable a b ->
  dt_diff a b = Err TypeError /\ dt_compare o a b = Err TypeError /\ dt_eq a b = false.
Proof. exact (incomparable a b o). Qed.
Print Assumptions C43_naive_and_aware_do_not_mix.

Theorem C43_add_then_diff (x y : dt) (us : Z) : dt_ok x -> add_us x us = Ok y ->
  dt_ok y /\ dt_diff y x = Ok us.
Proof. exact (add_then_diff x us y). Qed.
Print Assumptions C43_add_then_diff.

Theorem C43_add_then_sub_partial (x y : dt) (us : Z) : dt_ok x -> add_us x us = Ok y ->
  (d_year x = 0 -> d_year y = 0) -> sub_us y us = Ok x.
Proof. exact (add_then_sub x us y). Qed.
Print Assumptions C43_add_then_sub_partial.

(* exactly when adding a duration succeeds, and what it gives *)
Theorem C43_add_total (x : dt) (us : Z) : dt_ok x ->
  let Y := d_year (later x us) in
  add_us x us =
    if d_year x =? 0 then
      if (0 <=? Y) && (Y <=? 7999) then Ok (later x us)
      else if (-1999 <=? Y) && (Y <? 0) then Err ValueError else Err OverflowError
    else if (1 <=? Y) && (Y <=? 9999) then Ok (later x us) else Err OverflowError.
Proof. exact (add_us_spec x us). Qed.
Print Assumptions C43_add_total.

Definition year0 : dt := DT (Fields 0 6 15 12 0 0 0) (Some 0).
Definition ad1 : dt := DT (Fields 1 1 1 0 0 0 0) (Some 3600000000).
Example C43_ex : dt_ok year0 /\ dt_ok ad1 /\ comparable year0 ad1 /\ dt_compare LT year0 ad1 = Ok true /\
  dt_compare GT ad1 year0 = Ok true /\ dt_eq year0 ad1 = false /\
  add_us year0 86400000000 = Ok (DT (Fields 0 6 16 12 0 0 0) (Some 0)) /\
  dt_diff (DT (Fields 0 6 16 12 0 0 0) (Some 0)) year0 = Ok 86400000000 /\
  add_us year0 (366 * 86400000000) = Ok (DT (Fields 1 6 16 12 0 0 0) (Some 0)).
Proof. repeat split; vm_compute; (reflexivity || discriminate). Qed.

(* going from year 0 into year 1 and back fails: the datetime in between cannot return *)
Theorem C43_add_then_sub_refuted : exists x us y, dt_ok x /\ add_us x us = Ok y /\ sub_us y us = Err OverflowError.
Proof.
  exists year0, (366 * 86400000000), (DT (Fields 1 6 16 12 0 0 0) (Some 0)).
  repeat split; vm_compute; (reflexivity || discriminate).
Qed.
Print Assumptions C43_add_then_sub_refuted.

(* a result in the years 8000..9999, representable as datetime, is refused *)
Theorem C43_far_sum_refuted : exists x us, dt_ok x /\ dt_ok (later x us) /\ add_us x us = Err OverflowError.
Proof.
  exists year0, (146097 * 86400000000 * 20). repeat split; vm_compute; (reflexivity || discriminate).
Qed.
Print Assumptions C43_far_sum_refuted.

(* extended_date with datetime.date *)
Theorem C43_extended_date_order (a b : date_val) : date_ok a -> date_ok b ->
  Z.sgn (date_cmp a b) = Z.sgn (date_pos a - date_pos b) /\ (date_eq a b = true <-> a = b).
Proof. exact (date_cmp_ok a b). Qed.
Print Assumptions C43_extended_date_order.

Example C43_ex_date : date_ok (0, 2, 29) /\ date_ok (1, 1, 1) /\ date_cmp (0, 2, 29) (1, 1, 1) = -1 /\
  date_cmp (0, 2, 29) (0, 3, 1) = -1 /\ date_eq (0, 2, 29) (0, 2, 29) = true.
Proof. repeat split; vm_compute; (reflexivity || discriminate). Qed.
