(* The proleptic Gregorian calendar, as Python's datetime module uses it.  No code
   of /repo is modelled here. *)
Require Import Verif.Base Verif.BaseFacts Verif.Text.

Definition leap (y : Z) : bool := (y mod 4 =? 0) && (negb (y mod 100 =? 0) || (y mod 400 =? 0)).

Definition days_in_month (y m : Z) : Z :=
  if m =? 2 then (if leap y then 29 else 28)
  else if (m =? 4) || (m =? 6) || (m =? 9) || (m =? 11) then 30 else 31.

Definition valid_date (y m d : Z) : bool :=
  (1 <=? m) && (m <=? 12) && (1 <=? d) && (d <=? days_in_month y m).

(* day number, day 0 is 0000-03-01 *)
Definition days_of (y m d : Z) : Z :=
  let y := if m <=? 2 then y - 1 else y in
  let yoe := y mod 400 in
  let doy := (153 * (if m <=? 2 then m + 9 else m - 3) + 2) / 5 + d - 1 in
  (y / 400) * 146097 + (yoe * 365 + yoe / 4 - yoe / 100 + doy).

(* the date of a day number *)
Definition civil_of (z : Z) : Z * Z * Z :=
  let doe := z mod 146097 in
  let yoe := (doe - doe / 1460 + doe / 36524 - doe / 146096) / 365 in
  let doy := doe - (365 * yoe + yoe / 4 - yoe / 100) in
  let mp := (5 * doy + 2) / 153 in
  let d := doy - (153 * mp + 2) / 5 + 1 in
  let m := if mp <? 10 then mp + 3 else mp - 9 in
  let y := yoe + z / 146097 * 400 in
  (if m <=? 2 then y + 1 else y, m, d).

(* seconds and microseconds: position on the time line of a local date and time *)
Definition us_per_day : Z := 86400000000.

Record fields := Fields {
  f_year : Z; f_month : Z; f_day : Z; f_hour : Z; f_minute : Z; f_second : Z; f_micro : Z }.

Definition valid_fields (f : fields) : bool :=
  valid_date (f_year f) (f_month f) (f_day f) &&
  (0 <=? f_hour f) && (f_hour f <=? 23) && (0 <=? f_minute f) && (f_minute f <=? 59) &&
  (0 <=? f_second f) && (f_second f <=? 59) && (0 <=? f_micro f) && (f_micro f <=? 999999).

Definition us_of (f : fields) : Z :=
  days_of (f_year f) (f_month f) (f_day f) * us_per_day +
  ((f_hour f * 60 + f_minute f) * 60 + f_second f) * 1000000 + f_micro f.

Definition fields_of (t : Z) : fields :=
  let r := t mod us_per_day in
  let '(y, m, d) := civil_of (t / us_per_day) in
  let s := r / 1000000 in
  Fields y m d (s / 60 / 60) (s / 60 mod 60) (s mod 60) (r mod 1000000).

(* ---- facts ---- *)
Fixpoint zrange (a : Z) (n : nat) : list Z :=
  match n with O => [] | S n' => a :: zrange (a + 1) n' end.

Lemma zrange_in a n x : In x (zrange a n) <-> a <= x < a + Z.of_nat n.
Proof. revert a; induction n as [|n IH]; intros a; cbn [zrange In]; [lia|]. rewrite IH. lia. Qed.

Lemma leap_period y k : leap (y + 400 * k) = leap y.
Proof.
  unfold leap.
  replace ((y + 400 * k) mod 4) with (y mod 4) by lia.
  replace ((y + 400 * k) mod 100) with (y mod 100) by lia.
  replace ((y + 400 * k) mod 400) with (y mod 400) by lia. reflexivity.
Qed.

Lemma valid_date_period y k m d : valid_date (y + 400 * k) m d = valid_date y m d.
Proof. unfold valid_date, days_in_month. now rewrite leap_period. Qed.

Lemma days_period y k m d : days_of (y + 400 * k) m d = days_of y m d + 146097 * k.
Proof.
  unfold days_of.
  replace (if m <=? 2 then y + 400 * k - 1 else y + 400 * k)
    with ((if m <=? 2 then y - 1 else y) + k * 400) by (destruct (m <=? 2); lia).
  cbn zeta. rewrite Z.mod_add, Z.div_add by lia. lia.
Qed.

Lemma civil_period z k : civil_of (z + 146097 * k) =
  let '(y, m, d) := civil_of z in (y + 400 * k, m, d).
Proof.
  unfold civil_of. replace (z + 146097 * k) with (z + k * 146097) by lia.
  rewrite Z.mod_add, Z.div_add by lia. cbn zeta.
  match goal with |- (if ?c then _ else _, _, _) = _ => destruct c end; f_equal; f_equal; lia.
Qed.

Definition date_eqb (a b : Z * Z * Z) : bool :=
  let '(y, m, d) := a in let '(y', m', d') := b in (y =? y') && (m =? m') && (d =? d').

(* years of a 400-year era starting on 1 March: first day, length, year of a day *)
Definition ystart (k : Z) : Z := k * 365 + k / 4 - k / 100.
Definition ylen (k : Z) : Z := if leap (k + 1) then 366 else 365.
Definition year_num (e : Z) : Z := e - e / 1460 + e / 36524 - e / 146096.

Lemma year_cycle :
  forallb (fun k => (year_num (ystart k) / 365 =? k) &&
    (year_num (ystart k + ylen k - 1) / 365 =? k) &&
    (ystart k + ylen k =? (if Z.eqb k 399 then 146097 else ystart (k + 1)))) (zrange 0 400) = true.
Proof. vm_compute. reflexivity. Qed.

Lemma year_facts k : 0 <= k < 400 ->
  year_num (ystart k) / 365 = k /\ year_num (ystart k + ylen k - 1) / 365 = k /\
  ystart k + ylen k = (if Z.eqb k 399 then 146097 else ystart (k + 1)).
Proof.
  intros H. pose proof year_cycle as C. rewrite forallb_forall in C.
  specialize (C k). rewrite zrange_in in C. specialize (C ltac:(lia)). split; [lia|]. split; lia.
Qed.

Lemma year_num_step e : 0 <= e < 146096 -> year_num e <= year_num (e + 1).
Proof. intros H. unfold year_num. lia. Qed.

Lemma year_num_mono e f : 0 <= e -> e <= f -> f <= 146096 -> year_num e <= year_num f.
Proof.
  intros He Hef. replace f with (e + Z.of_nat (Z.to_nat (f - e))) by lia.
  generalize (Z.to_nat (f - e)) as n. induction n as [|n IH]; intros Hf.
  - replace (e + Z.of_nat 0) with e by lia. lia.
  - replace (e + Z.of_nat (S n)) with (e + Z.of_nat n + 1) in * by lia.
    pose proof (year_num_step (e + Z.of_nat n) ltac:(lia)). specialize (IH ltac:(lia)). lia.
Qed.

Lemma ylen_range k : 365 <= ylen k <= 366.
Proof. unfold ylen. destruct (leap (k + 1)); lia. Qed.

Lemma year_of_day k r : 0 <= k < 400 -> 0 <= r < ylen k ->
  0 <= ystart k + r < 146097 /\ year_num (ystart k + r) / 365 = k.
Proof.
  intros Hk Hr. destruct (year_facts k Hk) as (E1 & E2 & E3). pose proof (ylen_range k).
  assert (0 <= ystart k) by (unfold ystart; lia).
  assert (ystart k + ylen k <= 146097) by (destruct (k =? 399) eqn:E; [lia|]; rewrite E3; unfold ystart; lia).
  pose proof (year_num_mono (ystart k) (ystart k + r) ltac:(lia) ltac:(lia) ltac:(lia)) as M1.
  pose proof (year_num_mono (ystart k + r) (ystart k + ylen k - 1) ltac:(lia) ltac:(lia) ltac:(lia)) as M2.
  split; [lia|]. apply (Z.div_le_mono _ _ 365) in M1; [|lia]. apply (Z.div_le_mono _ _ 365) in M2; [|lia]. lia.
Qed.

Lemma day_in_year e : 0 <= e < 146097 -> exists k, 0 <= k < 400 /\ 0 <= e - ystart k < ylen k.
Proof.
  intros He. assert (G : forall n : nat, (n < 400)%nat -> e < ystart (Z.of_nat n) + ylen (Z.of_nat n) ->
    exists k, 0 <= k < 400 /\ 0 <= e - ystart k < ylen k).
  { induction n as [|n IH]; intros Hn Hlt.
    - exists 0. split; [lia|]. change (ystart 0) with 0. change (ystart (Z.of_nat 0)) with 0 in Hlt.
      change (Z.of_nat 0) with 0 in Hlt. lia.
    - destruct (Z.lt_ge_cases e (ystart (Z.of_nat (S n)))) as [L|L].
      + apply IH; [lia|]. destruct (year_facts (Z.of_nat n) ltac:(lia)) as (_ & _ & E3).
        destruct (Z.of_nat n =? 399) eqn:E; [lia|]. rewrite E3.
        replace (Z.of_nat n + 1) with (Z.of_nat (S n)) by lia. lia.
      + exists (Z.of_nat (S n)). split; [lia|]. lia. }
  apply (G 399%nat); [lia|]. destruct (year_facts 399 ltac:(lia)) as (_ & _ & E).
  change (Z.of_nat 399) with 399. rewrite E. change (399 =? 399) with true. cbv iota. lia.
Qed.

(* days of such a year; day 365 is 29 February *)
Definition month_of (doy : Z) : Z := let mp := (5 * doy + 2) / 153 in if mp <? 10 then mp + 3 else mp - 9.
Definition mday_of (doy : Z) : Z := doy - (153 * ((5 * doy + 2) / 153) + 2) / 5 + 1.
Definition doy_of (m d : Z) : Z := (153 * (if m <=? 2 then m + 9 else m - 3) + 2) / 5 + d - 1.

Lemma doy_cycle : forallb (fun r => let m := month_of r in let d := mday_of r in
    (1 <=? m) && (m <=? 12) && (1 <=? d) && (doy_of m d =? r) &&
    (if r =? 365 then (m =? 2) && (d =? 29) else d <=? days_in_month 1 m)) (zrange 0 366) = true.
Proof. vm_compute. reflexivity. Qed.

Lemma md_cycle : forallb (fun m => forallb (fun d =>
    negb ((d <=? days_in_month 1 m) || (m =? 2) && (d =? 29)) ||
    (let r := doy_of m d in (0 <=? r) && (r <=? (if (m =? 2) && (d =? 29) then 365 else 364)) &&
      (month_of r =? m) && (mday_of r =? d)))
    (zrange 1 31)) (zrange 1 12) = true.
Proof. vm_compute. reflexivity. Qed.

Lemma valid_date_bounds y m d : valid_date y m d = true -> 1 <= m <= 12 /\ 1 <= d <= 31.
Proof.
  unfold valid_date, days_in_month. intros H. split; [lia|].
  destruct (m =? 2); [destruct (leap y); lia|].
  destruct ((m =? 4) || (m =? 6) || (m =? 9) || (m =? 11)); lia.
Qed.

Lemma days_of_eq y m d :
  let y' := if m <=? 2 then y - 1 else y in
  days_of y m d = y' / 400 * 146097 + (ystart (y' mod 400) + doy_of m d).
Proof. reflexivity. Qed.

Lemma civil_of_eq z :
  let doe := z mod 146097 in
  let yoe := year_num doe / 365 in
  let doy := doe - ystart yoe in
  civil_of z = (if month_of doy <=? 2 then yoe + z / 146097 * 400 + 1 else yoe + z / 146097 * 400, month_of doy, mday_of doy).
Proof.
  unfold civil_of, month_of, mday_of, year_num, ystart. cbn zeta.
  set (yoe := (z mod 146097 - z mod 146097 / 1460 + z mod 146097 / 36524 - z mod 146097 / 146096) / 365).
  replace (365 * yoe) with (yoe * 365) by lia. reflexivity.
Qed.

Lemma civil_at q k r : 0 <= k < 400 -> 0 <= r < ylen k ->
  civil_of (q * 146097 + (ystart k + r)) =
  (if month_of r <=? 2 then k + q * 400 + 1 else k + q * 400, month_of r, mday_of r).
Proof.
  intros Hk Hr. destruct (year_of_day k r Hk Hr) as [B Y]. rewrite civil_of_eq. cbn zeta.
  rewrite (Z.add_comm (q * 146097)), (Z.mod_add (ystart k + r)), (Z.div_add (ystart k + r)) by lia.
  rewrite (Z.mod_small (ystart k + r)), (Z.div_small (ystart k + r) 146097) by lia. rewrite Y, Z.add_0_l.
  replace (ystart k + r - ystart k) with r by lia. reflexivity.
Qed.

Lemma leap_mod y : leap (y mod 400) = leap y.
Proof. rewrite <- (leap_period (y mod 400) (y / 400)). f_equal. lia. Qed.

Lemma leap_next y : leap ((y - 1) mod 400 + 1) = leap y.
Proof. rewrite <- (leap_period ((y - 1) mod 400 + 1) ((y - 1) / 400)). f_equal. lia. Qed.

Lemma days_in_month_1 y m : days_in_month y m =
  if (m =? 2) && leap y then 29 else days_in_month 1 m.
Proof. unfold days_in_month. change (leap 1) with false. destruct (m =? 2), (leap y); reflexivity. Qed.

Lemma civil_days y m d : valid_date y m d = true -> civil_of (days_of y m d) = (y, m, d).
Proof.
  intros H. pose proof (valid_date_bounds _ _ _ H) as [Bm Bd].
  pose proof md_cycle as C. rewrite forallb_forall in C.
  specialize (C m). rewrite zrange_in in C. specialize (C ltac:(lia)).
  rewrite forallb_forall in C. specialize (C d). rewrite zrange_in in C. specialize (C ltac:(lia)).
  unfold valid_date in H. assert (D : d <= days_in_month y m) by lia. clear H.
  rewrite days_in_month_1 in D. cbn zeta in C.
  assert (G : 0 <= doy_of m d <= (if (m =? 2) && (d =? 29) then 365 else 364) /\
    month_of (doy_of m d) = m /\ mday_of (doy_of m d) = d).
  { destruct ((d <=? days_in_month 1 m) || (m =? 2) && (d =? 29)) eqn:E; cbn [negb orb] in C; [lia|].
    exfalso. destruct (m =? 2) eqn:E2; cbn [andb] in *; [|lia].
    assert (m = 2) by lia. subst m. change (days_in_month 1 2) with 28 in *. destruct (leap y); lia. }
  clear C. destruct G as (R & M & Dd). rewrite days_of_eq. cbn zeta.
  set (y' := if m <=? 2 then y - 1 else y) in *.
  rewrite civil_at; [|lia|].
  - rewrite M, Dd. f_equal. f_equal. unfold y'. destruct (m <=? 2); lia.
  - split; [lia|]. unfold ylen. destruct ((m =? 2) && (d =? 29)) eqn:E.
    + assert (m = 2 /\ d = 29) as [-> ->] by lia. unfold y'. change (2 <=? 2) with true. cbv iota.
      rewrite leap_next. change (2 =? 2) with true in D. change (days_in_month 1 2) with 28 in D.
      cbn [andb] in D. destruct (leap y); lia.
    + destruct (leap (y' mod 400 + 1)); lia.
Qed.

Lemma days_civil z : let '(y, m, d) := civil_of z in valid_date y m d = true /\ days_of y m d = z.
Proof.
  destruct (day_in_year (z mod 146097) ltac:(lia)) as (k & Hk & Hr).
  assert (E : z = z / 146097 * 146097 + (ystart k + (z mod 146097 - ystart k))) by lia.
  rewrite E. revert E Hr. generalize (z mod 146097 - ystart k) as r. generalize (z / 146097) as q.
  intros q r _ Hr. rewrite (civil_at q k r Hk Hr). pose proof (ylen_range k).
  pose proof doy_cycle as C. rewrite forallb_forall in C.
  specialize (C r). rewrite zrange_in in C. specialize (C ltac:(lia)). cbn zeta in C.
  set (m := month_of r) in *. set (d := mday_of r) in *. clearbody m d.
  set (y := if m <=? 2 then k + q * 400 + 1 else k + q * 400).
  split.
  - unfold valid_date. rewrite days_in_month_1.
    destruct (r =? 365) eqn:E5; [|destruct ((m =? 2) && leap y) eqn:EL; [|lia]].
    + assert (m = 2) by lia. assert (d = 29) by lia. assert (r = 365) by lia. clear C. subst m d r.
      unfold y. change (2 <=? 2) with true. cbv iota.
      replace (k + q * 400 + 1) with (k + 1 + 400 * q) by lia. rewrite leap_period.
      unfold ylen in Hr. destruct (leap (k + 1)); [reflexivity|lia].
    + assert (m = 2) by lia. subst m. change (days_in_month 1 2) with 28 in C. lia.
  - assert (R : doy_of m d = r) by lia. rewrite days_of_eq, R. cbn zeta.
    replace (if m <=? 2 then y - 1 else y) with (k + q * 400) by (unfold y; destruct (m <=? 2); lia).
    rewrite Z.mod_add, Z.div_add, Z.mod_small, Z.div_small by lia. lia.
Qed.

(* the day number is the one that grows by one from each day to the next *)
Lemma days_next_day y m d : days_of y m (d + 1) = days_of y m d + 1.
Proof. unfold days_of. cbn zeta. lia. Qed.

Lemma dim_period y k m : days_in_month (y + 400 * k) m = days_in_month y m.
Proof. unfold days_in_month. now rewrite leap_period. Qed.

Lemma days_next_month y m : 1 <= m <= 11 -> days_of y (m + 1) 1 = days_of y m (days_in_month y m) + 1.
Proof.
  intros H. rewrite !days_of_eq. cbn zeta. rewrite days_in_month_1.
  assert (m = 2 \/ m <> 2) as [E | E] by lia.
  - subst m. change (2 + 1 <=? 2) with false. change (2 <=? 2) with true. change (2 =? 2) with true.
    change (days_in_month 1 2) with 28. cbv iota. cbn [andb].
    destruct (year_facts ((y - 1) mod 400) ltac:(lia)) as (_ & _ & E). unfold ylen in E.
    rewrite leap_next in E. change (doy_of (2 + 1) 1) with 0.
    assert (doy_of 2 (if leap y then 29 else 28) + 1 = if leap y then 366 else 365) as F by (destruct (leap y); reflexivity).
    destruct ((y - 1) mod 400 =? 399) eqn:E4.
    + assert (y mod 400 = 0) as -> by lia. change (ystart 0) with 0. lia.
    + assert (y mod 400 = (y - 1) mod 400 + 1) as -> by lia.
      assert (y / 400 = (y - 1) / 400) as -> by lia. lia.
  - assert (m =? 2 = false) as -> by lia. cbn [andb].
    assert (m = 1 \/ m = 3 \/ m = 4 \/ m = 5 \/ m = 6 \/ m = 7 \/ m = 8 \/ m = 9 \/ m = 10 \/ m = 11) as D by lia.
    assert (F : forall a b c e : Z, c = e + 1 -> a * 146097 + (b + c) = a * 146097 + (b + e) + 1) by (intros; lia).
    destruct D as [->|[->|[->|[->|[->|[->|[->|[->|[->| ->]]]]]]]]]; apply F; reflexivity.
Qed.

Lemma days_next_year y : days_of (y + 1) 1 1 = days_of y 12 31 + 1.
Proof.
  rewrite !days_of_eq. cbn zeta. change (1 <=? 2) with true. change (12 <=? 2) with false. cbv iota.
  replace (y + 1 - 1) with y by lia. change (doy_of 1 1) with 306. change (doy_of 12 31) with 305. lia.
Qed.

Lemma fields_of_us f : valid_fields f = true -> fields_of (us_of f) = f.
Proof.
  destruct f as [y mo d h mi s us]. unfold valid_fields, us_of, fields_of, us_per_day.
  cbn [f_year f_month f_day f_hour f_minute f_second f_micro].
  intros H. assert (V : valid_date y mo d = true) by (destruct (valid_date y mo d); auto).
  rewrite V in H. cbn [andb] in H.
  set (D := days_of y mo d). set (r := ((h * 60 + mi) * 60 + s) * 1000000 + us).
  replace (D * 86400000000 + ((h * 60 + mi) * 60 + s) * 1000000 + us) with (r + D * 86400000000) by lia.
  rewrite Z.mod_add, Z.div_add by lia.
  assert (0 <= r < 86400000000) by lia.
  rewrite Z.mod_small, Z.div_small by lia. rewrite Z.add_0_l. unfold D. rewrite civil_days by auto.
  f_equal; lia.
Qed.

Lemma us_of_fields t : valid_fields (fields_of t) = true /\ us_of (fields_of t) = t.
Proof.
  unfold fields_of. pose proof (days_civil (t / us_per_day)) as H.
  destruct (civil_of (t / us_per_day)) as [[y m] d]. destruct H as [V E].
  unfold valid_fields, us_of. cbn [f_year f_month f_day f_hour f_minute f_second f_micro].
  rewrite V, E. cbn [andb]. clear V E y m d. unfold us_per_day.
  set (D := t / 86400000000). set (r := t mod 86400000000).
  assert (0 <= r < 86400000000) by lia. assert (t = D * 86400000000 + r) by lia. clearbody D r. subst t.
  set (s := r / 1000000). set (u := r mod 1000000). assert (r = s * 1000000 + u) by lia.
  assert (0 <= u < 1000000) by lia. assert (0 <= s < 86400) by lia. clearbody s u. subst r.
  split; lia.
Qed.

Lemma us_of_inj f g : valid_fields f = true -> valid_fields g = true -> us_of f = us_of g -> f = g.
Proof. intros Hf Hg E. rewrite <- (fields_of_us f), <- (fields_of_us g) by auto. now rewrite E. Qed.

Lemma us_period f k : us_of (Fields (f_year f + 400 * k) (f_month f) (f_day f) (f_hour f) (f_minute f) (f_second f) (f_micro f))
  = us_of f + 146097 * us_per_day * k.
Proof. unfold us_of. cbn [f_year f_month f_day f_hour f_minute f_second f_micro]. rewrite days_period. unfold us_per_day. lia. Qed.

Lemma valid_fields_period f k :
  valid_fields (Fields (f_year f + 400 * k) (f_month f) (f_day f) (f_hour f) (f_minute f) (f_second f) (f_micro f))
  = valid_fields f.
Proof. unfold valid_fields. cbn [f_year f_month f_day f_hour f_minute f_second f_micro]. now rewrite valid_date_period. Qed.
