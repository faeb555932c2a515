Require Import Verif.Base Verif.BaseFacts Verif.Text Verif.Calendar Verif.TimeModel Verif.TimeSpec Verif.TimeProofs
  Verif.PrimSpec Verif.TimeFacts Verif.TimeText Verif.TimeTextProofs Verif.ExtModel Verif.ExtProofs Verif.DateModel Verif.DateSpec
  Verif.DateProofs.

Lemma basic_same L pad d f tz k : d <> 89 -> d <> 71 -> d <> 67 ->
  basic L pad d (set_year f (f_year f + 400 * k)) tz = basic L true d f tz.
Proof.
  intros H1 H2 H3. unfold basic.
  replace (d =? 89) with false by lia. replace (d =? 71) with false by lia. replace (d =? 67) with false by lia.
  rewrite iso_year_shift, yday_shift, wday_shift, iso_week_shift.
  cbn [set_year f_year f_month f_day f_hour f_minute f_second f_micro].
  replace ((f_year f + 400 * k) mod 100) with (f_year f mod 100) by lia.
  replace ((iso_year f + 400 * k) mod 100) with (iso_year f mod 100) by lia.
  reflexivity.
Qed.

Lemma basic_ok L pad d f tz : valid_fields f = true -> f_year f = 0 -> (d = 71 -> early f = false) ->
  match basic L true d f tz with
  | Some c => exists a b, basic L pad d (set_year f 2000) tz = Some a /\ basic L pad d (set_year f 4000) tz = Some b /\
                length a = length b /\ merge_y2k a b = c
  | None => basic L pad d (set_year f 2000) tz = None /\ basic L pad d (set_year f 4000) tz = None
  end.
Proof.
  intros V Y G.
  replace (set_year f 2000) with (set_year f (f_year f + 400 * 5)) by now rewrite Y.
  replace (set_year f 4000) with (set_year f (f_year f + 400 * 10)) by now rewrite Y.
  destruct (Z.eq_dec d 89) as [->|N1].
  { unfold basic. change (89 =? 89) with true. cbv iota. cbn [set_year f_year]. rewrite Y.
    exists [50; 48; 48; 48], [52; 48; 48; 48]. destruct pad; repeat split. }
  destruct (Z.eq_dec d 71) as [->|N2].
  { unfold basic. change (71 =? 89) with false. change (71 =? 71) with true. cbv iota.
    rewrite !iso_year_shift, (iso_year_0 f) by auto.
    exists [50; 48; 48; 48], [52; 48; 48; 48]. destruct pad; repeat split. }
  destruct (Z.eq_dec d 67) as [->|N3].
  { unfold basic. change (67 =? 89) with false. change (67 =? 71) with false. change (67 =? 67) with true. cbv iota.
    cbn [set_year f_year]. rewrite Y. exists [50; 48], [52; 48]. repeat split. }
  rewrite !basic_same by auto. destruct (basic L true d f tz) as [c|]; auto.
  exists c, c. split; auto. split; auto. split; auto. apply merge_y2k_same.
Qed.

Lemma strf_ok L pad f tz : valid_fields f = true -> f_year f = 0 -> forall n fmt, (length fmt <= n)%nat ->
  (In 71 (directives fmt) -> early f = false) ->
  match strf_basic L true fmt f tz with
  | Some c => exists a b, strf_basic L pad fmt (set_year f 2000) tz = Some a /\ strf_basic L pad fmt (set_year f 4000) tz = Some b /\
                length a = length b /\ merge_y2k a b = c
  | None => strf_basic L pad fmt (set_year f 2000) tz = None /\ strf_basic L pad fmt (set_year f 4000) tz = None
  end.
Proof.
  intros V Y. induction n as [|n IH]; intros fmt Hn G.
  { destruct fmt; [|cbn in Hn; lia]. exists [], []. repeat split. }
  destruct fmt as [|c fmt]; [exists [], []; repeat split|].
  destruct (Z.eq_dec c 37) as [->|NC].
  - destruct fmt as [|d r]; [cbn; auto|].
    cbn [strf_basic directives] in *. cbn [length] in Hn.
    pose proof (basic_ok L pad d f tz V Y ltac:(intros ->; apply G; now left)) as HB.
    pose proof (IH r ltac:(lia) ltac:(intros K; apply G; now right)) as HR.
    destruct (basic L true d f tz) as [x|].
    + destruct HB as (a & b & -> & -> & L1 & M1).
      destruct (strf_basic L true r f tz) as [y|].
      * destruct HR as (a' & b' & -> & -> & L2 & M2). exists (a ++ a'), (b ++ b').
        split; auto. split; auto. split; [rewrite !app_length; lia|]. rewrite merge_app, M1, M2 by auto. reflexivity.
      * destruct HR as [-> ->]. auto.
    + destruct HB as [-> ->]. auto.
  - assert (S1 : forall p g, strf_basic L p (c :: fmt) g tz =
       match strf_basic L p fmt g tz with Some b => Some (c :: b) | None => None end).
    { intros p g. clear - NC. cbn [strf_basic]. destruct c as [|p0|p0]; auto.
      repeat (destruct p0 as [p0|p0|]; auto). now contradiction NC. }
    assert (D1 : directives (c :: fmt) = directives fmt).
    { clear - NC. cbn [directives]. destruct c as [|p0|p0]; auto. repeat (destruct p0 as [p0|p0|]; auto). now contradiction NC. }
    rewrite D1 in G. cbn [length] in Hn. specialize (IH fmt ltac:(lia) G). rewrite !S1.
    destruct (strf_basic L true fmt f tz) as [y|].
    + destruct IH as (a & b & -> & -> & L2 & M2). exists (c :: a), (c :: b). split; auto. split; auto. split; [cbn; lia|].
      cbn [merge_y2k]. rewrite M2. replace ((c =? 50) && (c =? 52)) with false by lia. reflexivity.
    + destruct IH as [-> ->]. auto.
Qed.

Lemma expand_ng d s : expand d = Some s -> d <> 71 /\ ~ In 71 (directives s).
Proof.
  unfold expand. intros H. destruct (Z.eqb_spec d 68); [|destruct (Z.eqb_spec d 70); [|destruct (Z.eqb_spec d 82); [|destruct (Z.eqb_spec d 84)]]];
    try discriminate; injection H as <-; split; try lia; vm_compute; intuition discriminate.
Qed.

Lemma directives_nc c r : c <> 37 -> directives (c :: r) = directives r.
Proof. intros NC. cbn [directives]. destruct c as [|p0|p0]; auto. repeat (destruct p0 as [p0|p0|]; auto). now contradiction NC. Qed.
Lemma expanded_nc c r : c <> 37 -> expanded (c :: r) = c :: expanded r.
Proof. intros NC. cbn [expanded]. destruct c as [|p0|p0]; auto. repeat (destruct p0 as [p0|p0|]; auto). now contradiction NC. Qed.
Lemma directives_expand d s r : expand d = Some s -> directives (s ++ r) = directives s ++ directives r.
Proof.
  unfold expand. intros H. destruct (Z.eqb_spec d 68); [|destruct (Z.eqb_spec d 70); [|destruct (Z.eqb_spec d 82); [|destruct (Z.eqb_spec d 84)]]];
    try discriminate; injection H as <-; reflexivity.
Qed.

Lemma expanded_g : forall n fmt, (length fmt <= n)%nat -> In 71 (directives (expanded fmt)) -> In 71 (directives fmt).
Proof.
  induction n as [|n IH]; intros fmt Hn G; [destruct fmt; [auto|cbn in Hn; lia]|].
  destruct fmt as [|c fmt]; auto. cbn [length] in Hn. destruct (Z.eq_dec c 37) as [->|NC].
  - destruct fmt as [|d r]; [auto|]. cbn [length] in Hn. cbn [expanded directives] in *. destruct (expand d) as [s|] eqn:E.
    + rewrite (directives_expand d) in G by auto. apply in_app_or in G as [G|G].
      * apply expand_ng in E. tauto.
      * right. apply IH; [lia|auto].
    + cbn [directives] in G. destruct G as [<-|G]; [now left|]. right. apply IH; [lia|auto].
  - rewrite expanded_nc, !directives_nc in * by auto. apply IH; [lia|auto].
Qed.

Lemma ext_strftime_ok L pad fmt x : dt_ok x -> d_year x = 0 -> (In 71 (directives fmt) -> early (d_fields x) = false) ->
  ext_strftime L pad fmt x = strf L true fmt (d_fields x) (d_tz x).
Proof.
  intros (_ & V & _) Y G. unfold ext_strftime, strf.
  pose proof (strf_ok L pad (d_fields x) (d_tz x) V Y (length (expanded fmt)) (expanded fmt) (Nat.le_refl _)
    ltac:(intros K; apply G; eapply expanded_g; eauto)) as H.
  destruct (strf_basic L true (expanded fmt) (d_fields x) (d_tz x)).
  - destruct H as (a & b & -> & -> & _ & ->). reflexivity.
  - destruct H as [-> _]. reflexivity.
Qed.

Lemma strf_iso0 L f tz : strf L true (tx "0000-%m-%d") f tz =
  Some ([48; 48; 48; 48; 45] ++ dd (f_month f) ++ 45 :: dd (f_day f) ++ []).
Proof. reflexivity. Qed.
Lemma strf_iso L f tz : strf L true (tx "%Y-%m-%d") f tz =
  Some (pad_dec 4 (f_year f) ++ 45 :: dd (f_month f) ++ 45 :: dd (f_day f) ++ []).
Proof. reflexivity. Qed.

Lemma date_iso L pad x : dt_ok x -> d_year x = 0 ->
  date_isoformat L pad (ext_date x) = Some (iso_date (d_fields x)) /\ date_str L pad (ext_date x) = Some (iso_date (d_fields x)).
Proof.
  intros (Hy & V & T) Y. pose proof (valid_fields_bounds _ V) as B.
  assert (O : dt_ok (DT (date_fields (ext_date x)) None)).
  { unfold dt_ok, d_year in *. cbn. repeat split; try lia. unfold valid_fields. cbn.
    apply valid_fields_date in V. rewrite Y in V. rewrite V. reflexivity. }
  unfold date_isoformat, date_str, date_strftime. unfold d_year in Y.
  rewrite !ext_strftime_ok; auto; try (vm_compute; tauto).
  2, 3: vm_compute; intuition discriminate.
  rewrite strf_iso0, strf_iso. unfold iso_date, ext_date. rewrite Y. cbn [date_fields f_year f_month f_day d_fields].
  rewrite app_nil_r. split; reflexivity.
Qed.

(* ---- replace ---- *)
Lemma ext_replace_ok x c : dt_ok x -> d_year x = 0 ->
  ext_replace x c = if exists_time (changed c x) then Ok (changed c x) else Err ValueError.
Proof.
  intros (_ & V & _) Y. unfold ext_replace, exists_time. unfold d_year in Y.
  assert (Z0 : forall y, y = 0 -> y = or_else (c_year c) (f_year (d_fields x)) ->
     (do v <- datetime_replace (to_y2k x) 2000 c; from_y2k v) =
     if (0 <=? d_year (changed c x)) && (d_year (changed c x) <=? 9999) && valid_fields (d_fields (changed c x)) then Ok (changed c x) else Err ValueError).
  { intros y E E'. unfold changed. unfold d_year. cbn [d_fields f_year]. rewrite <- E', E.
    unfold datetime_replace, to_y2k. cbn [d_fields d_tz set_year f_month f_day f_hour f_minute f_second f_micro].
    set (g := Fields 0 (or_else (c_month c) (f_month (d_fields x))) (or_else (c_day c) (f_day (d_fields x)))
      (or_else (c_hour c) (f_hour (d_fields x))) (or_else (c_minute c) (f_minute (d_fields x)))
      (or_else (c_second c) (f_second (d_fields x))) (or_else (c_micro c) (f_micro (d_fields x)))).
    match goal with |- context [mk_datetime ?h ?t] => change h with (set_year g (f_year g + 400 * 5)); set (tz := t) end.
    unfold mk_datetime. rewrite valid_set. change (f_year (set_year g (f_year g + 400 * 5))) with 2000.
    change ((1 <=? 2000) && (2000 <=? 9999)) with true. change ((0 <=? 0) && (0 <=? 9999)) with true. cbn [andb].
    destruct (valid_fields g) eqn:VG; [|reflexivity]. cbn [bind].
    change (f_year g + 400 * 5) with (f_year g + 2000). apply from_y2k_ok; auto. cbn; lia. }
  destruct (c_year c) as [y|] eqn:E.
  - destruct (Z.eqb_spec y 0) as [E0|N]; cbn [negb].
    + apply (Z0 y); auto.
    + unfold datetime_replace, changed, d_year. rewrite E. cbn [or_else d_fields f_year d_tz to_y2k set_year f_month f_day f_hour f_minute f_second f_micro].
      unfold mk_datetime. cbn [f_year].
      match goal with |- context [valid_fields ?g] => destruct (valid_fields g) end.
      * replace ((1 <=? y) && (y <=? 9999)) with ((0 <=? y) && (y <=? 9999)) by lia. reflexivity.
      * rewrite !andb_false_r. reflexivity.
  - apply (Z0 0); auto.
Qed.

Lemma date_replace_ok m0 d0 y m d : valid_date 0 m0 d0 = true ->
  let n := (or_else y 0, or_else m m0, or_else d d0) in
  date_replace (0, m0, d0) y m d =
    if (0 <=? or_else y 0) && (or_else y 0 <=? 9999) && valid_date (or_else y 0) (or_else m m0) (or_else d d0) then Ok n else Err ValueError.
Proof.
  intros V n. unfold date_replace. fold n. destruct (Z.ltb_spec 0 (or_else y 0)).
  - unfold mk_date, n. replace (1 <=? or_else y 0) with (0 <=? or_else y 0) by lia. reflexivity.
  - unfold mk_extended_date, n. destruct (Z.eqb_spec (or_else y 0) 0) as [->|E]; cbn [negb].
    + unfold mk_date. change (valid_date 2000) with (valid_date (0 + 400 * 5)). rewrite valid_date_period.
      change ((1 <=? 2000) && (2000 <=? 9999)) with true. change ((0 <=? 0) && (0 <=? 9999)) with true. cbn [andb].
      destruct (valid_date 0 (or_else m m0) (or_else d d0)); reflexivity.
    + replace (0 <=? or_else y 0) with false by lia. reflexivity.
Qed.

(* ---- astimezone ---- *)
Definition in_zone (x : dt) (off : Z) : dt := DT (fields_of (position x + off)) (Some off).

Lemma astimezone_spec x o off : dt_ok x -> d_year x = 0 -> d_tz x = Some o -> tz_ok off = true ->
  astimezone x off = if 0 <=? d_year (in_zone x off) then Ok (in_zone x off) else Err ValueError.
Proof.
  intros (Hy & V & Hz) Y T O. rewrite T in Hz. unfold astimezone. rewrite Y. change (0 =? 0) with true. cbv iota.
  unfold datetime_astimezone. change (d_tz (to_y2k x)) with (d_tz x). rewrite T.
  unfold to_y2k. cbn [d_fields]. unfold d_year in *. rewrite y2k_us.
  set (t := us_of (d_fields x) - o).
  replace (us_of (d_fields x) + 146097 * us_per_day * 5 - o) with (t + 146097 * us_per_day * 5) by (unfold t; lia).
  pose proof (utc_year_near _ _ V Hz) as N. fold t in N. unfold utc_year in N.
  unfold datetime_at at 1. rewrite fields_shift. cbn [set_year f_year].
  replace ((1 <=? f_year (fields_of t) + 400 * 5) && (f_year (fields_of t) + 400 * 5 <=? 9999)) with true by lia.
  cbn [bind d_fields].
  change (Fields (f_year (fields_of t) + 400 * 5) (f_month (fields_of t)) (f_day (fields_of t)) (f_hour (fields_of t))
    (f_minute (fields_of t)) (f_second (fields_of t)) (f_micro (fields_of t)))
    with (set_year (fields_of t) (f_year (fields_of t) + 400 * 5)).
  rewrite us_set. destruct (us_of_fields t) as [Vt Et]. rewrite Et.
  replace (t + 146097 * us_per_day * 5 + off) with ((t + off) + 146097 * us_per_day * 5) by lia.
  assert (P : position x + off = t + off) by (unfold position, t; rewrite T; lia).
  assert (O' : tz_ok (- off) = true) by (unfold tz_ok, us_per_day in *; lia).
  pose proof (utc_year_near _ _ Vt O') as N2. rewrite Et in N2. replace (t - - off) with (t + off) in N2 by lia.
  unfold in_zone. cbn [d_fields]. rewrite P. unfold utc_year in N2.
  destruct (Z.leb_spec 0 (f_year (fields_of (t + off)))) as [L|L].
  - apply y2k_at. unfold utc_year. lia.
  - unfold datetime_at. rewrite fields_shift. cbn [set_year f_year].
    replace ((1 <=? f_year (fields_of (t + off)) + 400 * 5) && (f_year (fields_of (t + off)) + 400 * 5 <=? 9999)) with true by lia.
    cbn [bind]. apply (from_y2k_neg (fields_of (t + off))). lia.
Qed.

Lemma in_zone_position x off : position (in_zone x off) = position x /\ valid_fields (d_fields (in_zone x off)) = true.
Proof. unfold position at 1, in_zone. cbn [d_fields d_tz]. destruct (us_of_fields (position x + off)) as [H ->]. split; [lia|auto]. Qed.

(* ---- time zones ---- *)
Lemma cached_sound make : forall offs cache, (forall k z, cached k cache = Some z -> make k = Ok z) ->
  create_timezones make offs cache = map make offs.
Proof.
  induction offs as [|off r IH]; intros cache H; [reflexivity|]. cbn [create_timezones map]. unfold create_timezone.
  destruct (cached off cache) as [z|] eqn:C.
  - rewrite (H _ _ C), IH by auto. reflexivity.
  - destruct (make off) as [z|e] eqn:M; rewrite IH; auto.
    intros k z'. cbn [cached]. destruct (Z.eqb_spec off k) as [<-|]; [intros Q; injection Q as <-; auto|auto].
Qed.

(* ---- time stamps ---- *)
Lemma round_even_near n d : 0 < d -> - d <= 2 * (round_even n d * d - n) <= d.
Proof.
  intros H. unfold round_even. pose proof (Z.div_mod n d ltac:(lia)). pose proof (Z.mod_pos_bound n d H).
  destruct (Z.ltb_spec (2 * (n mod d)) d); [nia|]. destruct (Z.ltb_spec d (2 * (n mod d))); [nia|].
  destruct (Z.even (n / d)); nia.
Qed.
Lemma round_even_mono n n' d : 0 < d -> n <= n' -> round_even n d <= round_even n' d.
Proof.
  intros H L. pose proof (round_even_near n d H). pose proof (round_even_near n' d H).
  destruct (Z.le_gt_cases (round_even n d) (round_even n' d)) as [|G]; auto.
  assert (n' <= n) by nia. replace n' with n in * by lia. lia.
Qed.
Lemma round_even_exact k d : 0 < d -> round_even (k * d) d = k.
Proof.
  intros H. unfold round_even. rewrite Z.div_mul, Z.mod_mul by lia. replace (2 * 0 <? d) with true by lia. reflexivity.
Qed.
