Require Import Verif.Base Verif.BaseFacts Verif.Text Verif.Calendar Verif.TimeModel Verif.TimeSpec Verif.TimeProofs
  Verif.PrimSpec Verif.TimeFacts Verif.TimeText Verif.TimeTextProofs Verif.ExtModel Verif.ExtProofs Verif.DateModel Verif.DateSpec.

(* ---- isoformat ---- *)
Lemma pct02_dd n : 0 <= n < 100 -> pct02 n = dd n.
Proof. intros H. unfold pct02. replace (n <? 100) with true by lia. apply pad2. Qed.

Lemma format_zone tz : (match tz with Some off => tz_ok off = true | None => True end) -> whole_minutes tz ->
  iso_zone tz (format_offset tz).
Proof.
  destruct tz as [off|]; intros T W; [|constructor]. unfold whole_minutes in W. unfold tz_ok, us_per_day in T.
  unfold format_offset, us_per_day.
  set (mins := off / 60000000).
  assert (E : off = mins * 60000000) by (unfold mins; lia).
  replace (off / 86400000000 * 24 * 60 + off mod 86400000000 / 1000000 / 60) with mins by lia.
  assert (- 1440 < mins < 1440) by lia.
  rewrite !pct02_dd by lia. clearbody mins. subst off. destruct (Z.ltb_spec mins 0).
  - replace (Some (mins * 60000000)) with (Some (- (60 * (Z.abs mins / 60) + Z.abs mins mod 60) * 60000000))
      by (f_equal; lia).
    constructor; lia.
  - replace (Some (mins * 60000000)) with (Some ((60 * (Z.abs mins / 60) + Z.abs mins mod 60) * 60000000))
      by (f_equal; lia).
    constructor; lia.
Qed.

Lemma fraction_iso us : 0 <= us <= 999999 -> iso_fraction us (if us =? 0 then [] else 46 :: pad_dec 6 us).
Proof.
  intros H. destruct (Z.eqb_spec us 0) as [->|E]; [constructor|]. apply if_some; [auto| | |].
  - apply pad_dec_digits.
  - apply pad_dec_len.
  - apply dec_value_pad. change (10 ^ Z.of_nat 6) with 1000000. lia.
Qed.

Lemma isoformat_ok sep x : dt_ok x -> d_year x = 0 -> whole_minutes (d_tz x) -> iso_text sep x (isoformat sep x).
Proof.
  intros (_ & V & T) Y W. pose proof (valid_fields_bounds _ V) as B.
  exists (if f_micro (d_fields x) =? 0 then [] else 46 :: pad_dec 6 (f_micro (d_fields x))), (format_offset (d_tz x)).
  split; [apply fraction_iso; lia|]. split; [now apply format_zone|].
  unfold isoformat, iso_date. unfold d_year in Y. rewrite Y, !pct02_dd by lia.
  change (dd (0 / 100)) with [48; 48]. change (dd (0 mod 100)) with [48; 48].
  change (tx "0000-") with [48; 48; 48; 48; 45]. cbn [app]. rewrite <- !app_assoc. reflexivity.
Qed.

Lemma dd_inj a b r s : 0 <= a < 100 -> 0 <= b < 100 -> dd a ++ r = dd b ++ s -> a = b /\ r = s.
Proof. unfold dd. cbn [app]. intros A B H. injection H as H1 H2 H3. split; [lia|auto]. Qed.

Lemma iso_tail_inj us z us' z' fr fr' zt zt' : 0 <= us <= 999999 -> 0 <= us' <= 999999 ->
  iso_fraction us fr -> iso_fraction us' fr' -> iso_zone z zt -> iso_zone z' zt' -> fr ++ zt = fr' ++ zt' ->
  us = us' /\ z = z'.
Proof.
  intros B B' F F' Z1 Z2 E.
  assert (ZZ : forall z z' t, iso_zone z t -> iso_zone z' t -> z = z').
  { clear. intros z z' t H K. remember t as t' eqn:R in K. destruct H, K; try discriminate; auto;
      injection R as R1 R2 R3 R4; f_equal; lia. }
  assert (ST : forall z t, iso_zone z t -> match t with 46 :: _ => False | _ => True end) by (clear; intros z t H; destruct H; exact Logic.I).
  destruct F as [|us ds N D L V]; destruct F' as [|us' ds' N' D' L' V']; cbn [app] in E; subst.
  - split; auto. eapply ZZ; eauto.
  - apply ST in Z1. now cbn in Z1.
  - apply ST in Z2. now cbn in Z2.
  - injection E as E. apply app_inv_len in E; [|unfold len in *; lia]. destruct E as [-> ->]. split; auto. eapply ZZ; eauto.
Qed.

Lemma iso_unique sep x v s : dt_ok x -> dt_ok v -> iso_text sep x s -> iso_text sep v s -> x = v.
Proof.
  intros (Yx & Vx & _) (Yy & Vy & _) (fr & z & F & Z1 & E) (fr' & z' & F' & Z2 & E').
  pose proof (valid_fields_bounds _ Vx) as B. pose proof (valid_fields_bounds _ Vy) as B'.
  destruct x as [[y mo d h mi sc us] tz], v as [[y' mo' d' h' mi' sc' us'] tz'].
  unfold d_year, iso_date in *. cbn [d_fields d_tz f_year f_month f_day f_hour f_minute f_second f_micro] in *.
  rewrite E in E'. clear E. unfold dd in E'. cbn [app] in E'.
  injection E' as Q1 Q2 Q3 Q4 Q5 Q6 Q7 Q8 Q9 Q10 Q11 Q12 Q13 Q14 Q.
  destruct (iso_tail_inj us tz us' tz' fr fr' z z') as [-> ->]; auto; try lia.
  f_equal. f_equal; lia.
Qed.

(* ---- date and time ---- *)
Lemma merge_app a c : forall b d, length a = length b -> merge_y2k (a ++ c) (b ++ d) = merge_y2k a b ++ merge_y2k c d.
Proof. induction a as [|x a IH]; intros [|y b] d L; cbn in *; try lia; auto. now rewrite IH by lia. Qed.

(* ---- strftime ---- *)
Lemma day_no_shift f k : day_no (set_year f (f_year f + 400 * k)) = day_no f + 146097 * k.
Proof. unfold day_no, set_year. cbn [f_year f_month f_day]. apply days_period. Qed.
Lemma wday_shift f k : wday (set_year f (f_year f + 400 * k)) = wday f.
Proof. unfold wday. rewrite day_no_shift. lia. Qed.
Lemma yday_shift f k : yday (set_year f (f_year f + 400 * k)) = yday f.
Proof. unfold yday. rewrite day_no_shift. cbn [set_year f_year]. rewrite days_period. lia. Qed.
Lemma thursday_shift f k : thursday (set_year f (f_year f + 400 * k)) = thursday f + 146097 * k.
Proof. unfold thursday. rewrite day_no_shift, wday_shift. lia. Qed.
Lemma iso_year_shift f k : iso_year (set_year f (f_year f + 400 * k)) = iso_year f + 400 * k.
Proof. unfold iso_year. rewrite thursday_shift, civil_period. destruct (civil_of (thursday f)) as [[y m] d]. reflexivity. Qed.
Lemma iso_week_shift f k : iso_week (set_year f (f_year f + 400 * k)) = iso_week f.
Proof. unfold iso_week. rewrite iso_year_shift, thursday_shift, days_period. f_equal. f_equal. lia. Qed.

Definition early (f : fields) : bool := (f_month f =? 1) && (f_day f <=? 2).

Lemma iso_year0_table : forallb (fun m => forallb (fun d => negb (valid_date 0 m d) || ((m =? 1) && (d <=? 2)) ||
    (iso_year (Fields 0 m d 0 0 0 0) =? 0)) (zrange 1 31)) (zrange 1 12) = true.
Proof. vm_compute. reflexivity. Qed.

Lemma iso_year_0 f : valid_fields f = true -> f_year f = 0 -> early f = false -> iso_year f = 0.
Proof.
  intros V Y E. apply valid_fields_date in V. rewrite Y in V. pose proof (valid_date_bounds _ _ _ V) as B.
  pose proof iso_year0_table as T. rewrite forallb_forall in T. specialize (T (f_month f)).
  rewrite zrange_in in T. specialize (T ltac:(lia)). rewrite forallb_forall in T. specialize (T (f_day f)).
  rewrite zrange_in in T. specialize (T ltac:(lia)). unfold early in E. rewrite V, E in T. cbn [negb orb] in T.
  apply Z.eqb_eq in T. rewrite <- T. unfold iso_year, thursday, wday, day_no. cbn [f_year f_month f_day]. now rewrite Y.
Qed.
