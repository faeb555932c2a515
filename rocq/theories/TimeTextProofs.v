(* The time parsers accept exactly the texts of TimeText. *)
Require Import Verif.Base Verif.BaseFacts Verif.Text Verif.Calendar Verif.TimeModel Verif.TimeSpec Verif.TimeProofs
  Verif.PrimSpec Verif.TimeFacts Verif.TimeText.

Lemma dd_digits n : digits (dd n).
Proof. repeat constructor; lia. Qed.

Lemma is_digit_iff c : is_digit c = true <-> 48 <= c <= 57.
Proof. unfold is_digit. lia. Qed.

Lemma take_dd n r : two n -> take_digits 2 (dd n ++ r) = Some (n, r).
Proof. intros H. rewrite <- pad2. apply take2. exact H. Qed.

Lemma take_dd4 y r : 0 <= y < 10000 -> take_digits 4 (dd (y / 100) ++ dd (y mod 100) ++ r) = Some (y, r).
Proof. intros H. rewrite app_assoc, <- pad4 by lia. now apply take4. Qed.

Lemma take2_inv s n r : take_digits 2 s = Some (n, r) -> two n /\ s = dd n ++ r.
Proof.
  cbn [take_digits]. destruct s as [|a s]; [discriminate|]. destruct (is_digit a) eqn:Ha; [|discriminate].
  destruct s as [|b s]; [discriminate|]. destruct (is_digit b) eqn:Hb; [|discriminate].
  apply is_digit_iff in Ha, Hb. intros E. injection E as <- <-. unfold two, dd. split; [lia|]. cbn [app].
  f_equal; [|f_equal]; lia.
Qed.

Lemma take4_inv s n r : take_digits 4 s = Some (n, r) -> 0 <= n < 10000 /\ s = dd (n / 100) ++ dd (n mod 100) ++ r.
Proof.
  cbn [take_digits].
  destruct s as [|a s]; [discriminate|]. destruct (is_digit a) eqn:Ha; [|discriminate].
  destruct s as [|b s]; [discriminate|]. destruct (is_digit b) eqn:Hb; [|discriminate].
  destruct s as [|c s]; [discriminate|]. destruct (is_digit c) eqn:Hc; [|discriminate].
  destruct s as [|d s]; [discriminate|]. destruct (is_digit d) eqn:Hd; [|discriminate].
  apply is_digit_iff in Ha, Hb, Hc, Hd. intros E. injection E as <- <-. unfold dd. split; [lia|]. cbn [app].
  f_equal; [lia|]. f_equal; [lia|]. f_equal; [lia|]. f_equal. lia.
Qed.

Lemma take2_none c r : ~ 48 <= c <= 57 -> take_digits 2 (c :: r) = None.
Proof. intros H. cbn [take_digits]. destruct (is_digit c) eqn:E; [apply is_digit_iff in E; lia|reflexivity]. Qed.

(* take_zone with the part of the text it uses *)
Lemma take_zone_full mo z zm r : zone_text z zm -> take_zone mo (z ++ r) = Some (Some zm, r).
Proof.
  intros [|h m Hh Hm|h m Hh Hm]; cbn [app take_zone].
  - reflexivity.
  - change ((43 =? 43) || (43 =? 45)) with true. change (43 =? 43) with true. cbn iota. rewrite <- app_assoc, take_dd, take_dd by auto.
    replace (1 * (h * 60 + m)) with (60 * h + m) by lia. reflexivity.
  - change ((45 =? 43) || (45 =? 45)) with true. change (45 =? 43) with false. cbn iota. rewrite <- app_assoc, take_dd, take_dd by auto.
    replace (-1 * (h * 60 + m)) with (- (60 * h + m)) by lia. reflexivity.
Qed.

Lemma take_zone_cases mo s : take_zone mo s =
  match s with
  | c :: r => if c =? 90 then Some (Some 0, r)
              else if (c =? 43) || (c =? 45) then
                match take_digits 2 r with
                | None => None
                | Some (h, r1) =>
                    match take_digits 2 r1 with
                    | Some (m, r2) => Some (Some ((if c =? 43 then 1 else -1) * (h * 60 + m)), r2)
                    | None => if mo then Some (Some ((if c =? 43 then 1 else -1) * (h * 60)), r1) else None
                    end
                end
              else Some (None, s)
  | [] => Some (None, [])
  end.
Proof.
  destruct s as [|c r]; [reflexivity|]. unfold take_zone. destruct (Z.eqb_spec c 90) as [->|N]; [reflexivity|].
  destruct c as [|p|p]; try reflexivity.
  do 7 (destruct p; try reflexivity). contradiction.
Qed.

Lemma take_zone_inv s zm r : take_zone false s = Some (Some zm, r) -> exists z, zone_text z zm /\ s = z ++ r.
Proof.
  rewrite take_zone_cases. destruct s as [|c s]; [discriminate|].
  destruct (Z.eqb_spec c 90) as [->|N]. { intros E. injection E as <- <-. exists [90]. split; [constructor|reflexivity]. }
  destruct ((c =? 43) || (c =? 45)) eqn:Ec; [|discriminate].
  destruct (take_digits 2 s) as [[h r1]|] eqn:E1; [|discriminate]. destruct (take_digits 2 r1) as [[m r2]|] eqn:E2; [|discriminate].
  apply take2_inv in E1 as [Hh ->]. apply take2_inv in E2 as [Hm ->]. intros E. injection E as <- <-.
  destruct (Z.eqb_spec c 43) as [->|N']; cbn [orb] in Ec.
  - exists (43 :: dd h ++ dd m). split; [|cbn [app]; now rewrite <- app_assoc].
    replace (1 * (h * 60 + m)) with (60 * h + m) by lia. now constructor.
  - apply Z.eqb_eq in Ec. subst c. exists (45 :: dd h ++ dd m). split; [|cbn [app]; now rewrite <- app_assoc].
    replace (-1 * (h * 60 + m)) with (- (60 * h + m)) by lia. now constructor.
Qed.

Lemma at_end_iff s : at_end s = true <-> s = [] \/ s = [10].
Proof.
  destruct s as [|c [|d s]]; cbn [at_end].
  - tauto.
  - rewrite Z.eqb_eq. split; [intros ->; auto|]. intros [E|E]; [discriminate|congruence].
  - split; [discriminate|]. intros [E|E]; discriminate.
Qed.

Lemma zone_ok zm : (if tz_ok (zm * 60000000) then Ok (Some (zm * 60000000)) else Err ValueError) =
  if (- day <? zm) && (zm <? day) then @Ok (option Z) (Some (zm * 60000000)) else Err ValueError.
Proof.
  replace (tz_ok (zm * 60000000)) with ((- day <? zm) && (zm <? day)); [reflexivity|].
  unfold tz_ok, day, us_per_day. lia.
Qed.

Lemma zone_start z zm : zone_text z zm -> exists c r, z = c :: r /\ ~ 48 <= c <= 57.
Proof. intros [|h m Hh Hm|h m Hh Hm]; eexists _, _; (split; [reflexivity|lia]). Qed.

(* UTCTime *)
Lemma utctime_reads s v : utctime_native s = Ok v <-> exists s0, line_end s0 s /\ utc_reads s0 v.
Proof.
  split.
  - intros H. unfold utctime_native, utc_parse, utc_match in H.
    destruct (take_digits 2 s) as [[y s1]|] eqn:E1; [|discriminate]. cbn [obind] in H.
    destruct (take_digits 2 s1) as [[mo s2]|] eqn:E2; [|discriminate]. cbn [obind] in H.
    destruct (take_digits 2 s2) as [[d s3]|] eqn:E3; [|discriminate]. cbn [obind] in H.
    destruct (take_digits 2 s3) as [[h s4]|] eqn:E4; [|discriminate]. cbn [obind] in H.
    destruct (take_digits 2 s4) as [[mi s5]|] eqn:E5; [|discriminate]. cbn [obind] in H.
    apply take2_inv in E1 as [Y1 ->], E2 as [Y2 ->], E3 as [Y3 ->], E4 as [Y4 ->], E5 as [Y5 ->].
    destruct (opt_digits2 s5) as [sec s6] eqn:E6. 
    destruct (take_zone false s6) as [[[zm|] s7]|] eqn:E7; cbn [obind] in H; try discriminate.
    destruct (at_end s7) eqn:E8; [|discriminate]. apply at_end_iff in E8. apply take_zone_inv in E7 as (z & Z1 & ->).
    cbn [zone_of] in H. rewrite zone_ok in H. destruct ((- day <? zm) && (zm <? day)) eqn:Ez; [|discriminate]. cbn [bind] in H.
    unfold mk_datetime, p_fields in H. cbn [p_year p_month p_day p_hour p_minute p_second p_tz] in H.
    destruct ((1 <=? _) && _ && valid_fields _) eqn:Ev in H; [|discriminate]. injection H as <-.
    apply andb_true_iff in Ev as [_ Ev].
    assert (Q : exists st, s5 = st ++ z ++ s7 /\ ((st = [] /\ or0 sec = 0) \/ (st = dd (or0 sec) /\ two (or0 sec)))).
    { unfold opt_digits2 in E6. destruct (take_digits 2 s5) as [[a b]|] eqn:E9; injection E6 as <- <-.
      - apply take2_inv in E9 as [A ->]. exists (dd a). auto.
      - exists []. auto. }
    destruct Q as (st & -> & Q). replace (y + 2000) with (2000 + y) in * by lia. replace (y + 1900) with (1900 + y) in * by lia.
    exists (dd y ++ dd mo ++ dd d ++ dd h ++ dd mi ++ st ++ z). split.
    + unfold line_end. destruct E8 as [->| ->]; [left; now rewrite app_nil_r|right; now rewrite <- !app_assoc].
    + exists y, mo, d, h, mi, (or0 sec), st, z, zm. do 5 (split; [assumption|]). split; [exact Q|]. split; [exact Z1|]. split; [lia|]. split; [reflexivity|]. auto.
  - intros (s0 & L & y & mo & d & h & mi & sec & st & z & zm & Y1 & Y2 & Y3 & Y4 & Y5 & Q & Z1 & Zb & -> & V & ->).
    assert (E : exists r, at_end r = true /\ s = dd y ++ dd mo ++ dd d ++ dd h ++ dd mi ++ st ++ z ++ r).
    { destruct L as [->| ->]; [exists []|exists [10]]; (split; [reflexivity|]); [now rewrite app_nil_r|now rewrite <- !app_assoc]. }
    destruct E as (r & Er & ->). unfold utctime_native, utc_parse, utc_match.
    do 5 (rewrite take_dd by auto; cbn [obind]).
    assert (O : exists so, opt_digits2 (st ++ z ++ r) = (so, z ++ r) /\ or0 so = sec).
    { unfold opt_digits2. destruct Q as [[-> ->]|[-> Q]].
      - cbn [app]. destruct (zone_start z zm Z1) as (c & z' & -> & N). cbn [app]. rewrite take2_none by auto. exists None. auto.
      - rewrite take_dd by auto. exists (Some sec). auto. }
    destruct O as (so & -> & Eso). rewrite (take_zone_full _ _ _ _ Z1). cbn [obind]. rewrite Er.
    cbn [zone_of]. rewrite zone_ok. replace ((- day <? zm) && (zm <? day)) with true by lia. cbn [bind].
    unfold mk_datetime, p_fields. cbn [p_year p_month p_day p_hour p_minute p_second p_tz]. rewrite Eso.
    replace (y + 2000) with (2000 + y) by lia. replace (y + 1900) with (1900 + y) by lia.
    cbn zeta in V. rewrite V. cbn [f_year]. unfold two in Y1.
    replace ((1 <=? _) && _ && true) with true by (destruct (y <? 50); lia). reflexivity.
Qed.

(* GeneralizedTime *)
Lemma span_digits_inv s a b : span_digits s = (a, b) -> s = a ++ b /\ digits a /\ match b with c :: _ => ~ 48 <= c <= 57 | [] => True end.
Proof.
  revert a b. induction s as [|c s IH]; intros a b H; cbn [span_digits] in H.
  - injection H as <- <-. repeat split. constructor.
  - destruct (is_digit c) eqn:E.
    + destruct (span_digits s) as [x y]. injection H as <- <-. destruct (IH x y eq_refl) as (-> & D & N).
      split; [reflexivity|]. split; [constructor; auto; now apply is_digit_iff|exact N].
    + injection H as <- <-. split; [reflexivity|]. split; [constructor|]. intros Q. apply is_digit_iff in Q. congruence.
Qed.

Lemma span_digits_stop ds r : digits ds -> match r with c :: _ => ~ 48 <= c <= 57 | [] => True end -> span_digits (ds ++ r) = (ds, r).
Proof.
  induction 1 as [|c ds Hc _ IH]; intros N; cbn [app span_digits].
  - destruct r as [|c r]; [reflexivity|]. cbn [span_digits]. destruct (is_digit c) eqn:E; [apply is_digit_iff in E; contradiction|reflexivity].
  - apply is_digit_iff in Hc. rewrite Hc, IH; auto.
Qed.

(* round_half_down is the rounding of gen_frac *)
Lemma round_iff n d us : 0 < d -> round_half_down n d = us <-> (2 * us - 1) * d < 2 * n <= (2 * us + 1) * d.
Proof.
  intros Hd. unfold round_half_down. pose proof (Z.div_mod n d ltac:(lia)) as E. pose proof (Z.mod_pos_bound n d Hd) as B.
  set (q := n / d) in *. set (r := n mod d) in *. rewrite E. clearbody q r. split.
  - destruct (Z.ltb_spec d (2 * r)); intros <-; nia.
  - intros [H1 H2]. destruct (Z.ltb_spec d (2 * r)).
    + assert (q < us) by nia. assert (us < q + 2) by nia. lia.
    + assert (q - 1 < us) by nia. assert (us < q + 1) by nia. lia.
Qed.

Lemma pow10_pos n : 0 <= n -> 0 < 10 ^ n.
Proof. intros. apply Z.pow_pos_nonneg; lia. Qed.

Lemma gen_zone_start z tz r : gen_zone z tz -> at_end r = true ->
  match z ++ r with c :: _ => ~ 48 <= c <= 57 /\ c <> 44 /\ c <> 46 | [] => True end.
Proof.
  intros H E. apply at_end_iff in E. destruct H as [|z zm [|h m Hh Hm|h m Hh Hm]|h Hh|h Hh]; cbn [app]; try lia.
  destruct E as [->| ->]; lia.
Qed.

Lemma end_not_digits r : at_end r = true -> take_digits 2 r = None.
Proof. intros E. apply at_end_iff in E as [->| ->]; reflexivity. Qed.

Lemma take_gen_zone z tz r : gen_zone z tz -> at_end r = true -> take_zone true (z ++ r) = Some (tz, r).
Proof.
  intros H E. destruct H as [|z zm Hz|h Hh|h Hh].
  - cbn [app]. apply at_end_iff in E as [->| ->]; reflexivity.
  - now apply take_zone_full.
  - rewrite take_zone_cases. cbn [app]. change (43 =? 90) with false. change ((43 =? 43) || (43 =? 45)) with true. cbn iota.
    rewrite take_dd by auto. rewrite end_not_digits by auto. change (43 =? 43) with true. cbn iota.
    replace (1 * (h * 60)) with (60 * h) by lia. reflexivity.
  - rewrite take_zone_cases. cbn [app]. change (45 =? 90) with false. change ((45 =? 43) || (45 =? 45)) with true. cbn iota.
    rewrite take_dd by auto. rewrite end_not_digits by auto. change (45 =? 43) with false. cbn iota.
    replace (-1 * (h * 60)) with (- (60 * h)) by lia. reflexivity.
Qed.

Lemma take_gen_zone_inv s tz r : take_zone true s = Some (tz, r) -> at_end r = true ->
  exists z, gen_zone z tz /\ s = z ++ r.
Proof.
  rewrite take_zone_cases. intros H E. destruct s as [|c s].
  - injection H as <- <-. exists []. split; [constructor|reflexivity].
  - destruct (Z.eqb_spec c 90) as [->|N].
    { injection H as <- <-. exists [90]. split; [repeat constructor|reflexivity]. }
    destruct ((c =? 43) || (c =? 45)) eqn:Ec.
    2:{ injection H as <- <-. exists []. split; [constructor|reflexivity]. }
    destruct (take_digits 2 s) as [[h r1]|] eqn:E1; [|discriminate]. apply take2_inv in E1 as [Hh ->].
    destruct (take_digits 2 r1) as [[m r2]|] eqn:E2.
    + apply take2_inv in E2 as [Hm ->]. injection H as <- <-.
      destruct (Z.eqb_spec c 43) as [Eq|N']; [subst c|]; cbn [orb] in Ec.
      * exists (43 :: dd h ++ dd m). split; [|cbn [app]; now rewrite <- app_assoc]. apply gz_full.
        replace (1 * (h * 60 + m)) with (60 * h + m) by lia. now constructor.
      * apply Z.eqb_eq in Ec. subst c. exists (45 :: dd h ++ dd m). split; [|cbn [app]; now rewrite <- app_assoc]. apply gz_full.
        replace (-1 * (h * 60 + m)) with (- (60 * h + m)) by lia. now constructor.
    + injection H as <- <-. destruct (Z.eqb_spec c 43) as [Eq|N']; [subst c|]; cbn [orb] in Ec.
      * exists (43 :: dd h). split; [|reflexivity]. replace (1 * (h * 60)) with (60 * h) by lia. now constructor.
      * apply Z.eqb_eq in Ec. subst c. exists (45 :: dd h). split; [|reflexivity].
        replace (-1 * (h * 60)) with (- (60 * h)) by lia. now constructor.
Qed.

(* adding microseconds to a whole-second time *)
Lemma add_us_at f tz us : valid_fields f = true -> 0 <= f_year f <= 9999 -> 0 <= us -> us <= 3600000000 ->
  add_us (DT f tz) us = if utc_year (us_of f + us) <=? 9999 then Ok (DT (fields_of (us_of f + us)) tz) else Err OverflowError.
Proof.
  intros V H U U2. pose proof (us_of_fields (us_of f + us)) as [Vg Eg]. unfold utc_year. set (g := fields_of (us_of f + us)) in *.
  assert (Lo : f_year f <= f_year g) by (apply us_year_mono; auto; lia).
  unfold add_us, d_year. cbn [d_fields]. destruct (Z.eqb_spec (f_year f) 0) as [E|E].
  - unfold datetime_add, to_y2k, d_year. cbn [d_fields d_tz].
    assert (Hi : f_year g <= 1).
    { apply Z.le_trans with (f_year (fields_of (us_of (Fields 1 12 31 0 0 0 0)))); [|vm_compute; discriminate].
      apply us_year_mono; [exact Vg|apply us_of_fields|]. destruct (us_of_fields (us_of (Fields 1 12 31 0 0 0 0))) as [_ ->].
      rewrite Eg. assert (us_of f <= us_of (Fields 0 12 31 23 59 59 999999)).
      { pose proof (valid_fields_bounds f V). unfold us_of at 1.
        pose proof (days_in_year 0 (f_month f) (f_day f)) as D. 
        assert (Vd : valid_date 0 (f_month f) (f_day f) = true) by (rewrite <- E; now apply valid_fields_date).
        specialize (D Vd). rewrite E. change (days_of (0 + 1) 1 1) with (days_of 1 1 1) in D.
        assert (us_of (Fields 0 12 31 23 59 59 999999) = (days_of 1 1 1) * us_per_day - 1) by (vm_compute; reflexivity).
        unfold us_per_day in *. lia. }
      assert (us_of (Fields 0 12 31 23 59 59 999999) + 3600000000 <= us_of (Fields 1 12 31 0 0 0 0)) by (vm_compute; discriminate). lia. }
    rewrite (y2k_us f). replace (us_of f + 146097 * us_per_day * 5 + us) with (us_of f + us + 146097 * us_per_day * 5) by lia.
    rewrite y2k_at; [|unfold utc_year; fold g; lia]. fold g. destruct (Z.leb_spec (f_year g) 9999); [reflexivity|lia].
  - unfold datetime_add, datetime_at. cbn [d_fields d_tz]. fold g.
    destruct (Z.leb_spec (f_year g) 9999); [replace ((1 <=? f_year g) && true) with true by lia; reflexivity|].
    rewrite andb_false_r. reflexivity.
Qed.

Lemma frac_bound unit ft us : 1 <= unit <= 3600 -> gen_frac unit ft us -> 0 <= us <= 3600000000.
Proof.
  intros Hu [|c ds us' Hc Hn Hd [H1 H2]]; [lia|].
  assert (B : 0 <= dec_value ds < 10 ^ len ds).
  { clear - Hd. induction ds as [|x ds IH] using rev_ind.
    - vm_compute. split; [discriminate|reflexivity].
    - apply Forall_app in Hd as [Hd Hx]. inversion Hx; subst. rewrite dec_value_app, len_app.
      change (dec_value [x]) with (0 * 10 + (x - 48)). change (len [x]) with 1.
      rewrite Z.pow_add_r by (apply len_nonneg || lia). specialize (IH Hd). lia. }
  pose proof (pow10_pos (len ds) (len_nonneg ds)). set (p := 10 ^ len ds) in *. clearbody p. split; [|].
  - assert (0 <= dec_value ds * 1000000 * unit) by nia. nia.
  - assert (dec_value ds * 1000000 * unit <= (p - 1) * 3600000000) by nia. nia.
Qed.

Lemma unit_bound mt mi sec unit : gen_minutes mt mi sec unit -> 1 <= unit <= 3600.
Proof. intros []; lia. Qed.

(* the optional minutes and seconds *)
Definition tail_stop (r : text) : Prop := match r with c :: _ => ~ 48 <= c <= 57 | [] => True end.

Lemma take2_stop r : tail_stop r -> take_digits 2 r = None.
Proof. destruct r as [|c r]; [reflexivity|]. apply take2_none. Qed.

Lemma opt_minutes mt mi sec unit r : gen_minutes mt mi sec unit -> tail_stop r ->
  exists m s, (let (m, s1) := opt_digits2 (mt ++ r) in
     let (s, s2) := match m with None => (None, s1) | Some _ => opt_digits2 s1 end in (m, s, s2)) = (m, s, r) /\
    or0 m = mi /\ or0 s = sec /\ match m, s with None, _ => 3600 | _, None => 60 | _, _ => 1 end = unit.
Proof.
  intros [|m Hm|m s Hm Hs] T; unfold opt_digits2.
  - cbn [app]. rewrite take2_stop by auto. exists None, None. auto.
  - rewrite take_dd by auto. rewrite take2_stop by auto. exists (Some m), None. auto.
  - rewrite <- app_assoc, take_dd, take_dd by auto. exists (Some m), (Some s). auto.
Qed.

Lemma opt_minutes_inv t m s r : (let (m, s1) := opt_digits2 t in
     let (s, s2) := match m with None => (None, s1) | Some _ => opt_digits2 s1 end in (m, s, s2)) = (m, s, r) ->
  exists mt, t = mt ++ r /\ gen_minutes mt (or0 m) (or0 s) (match m, s with None, _ => 3600 | _, None => 60 | _, _ => 1 end).
Proof.
  unfold opt_digits2. destruct (take_digits 2 t) as [[a t1]|] eqn:E1.
  - apply take2_inv in E1 as [Ha ->]. destruct (take_digits 2 t1) as [[b t2]|] eqn:E2.
    + apply take2_inv in E2 as [Hb ->]. intros E. injection E as <- <- <-. exists (dd a ++ dd b).
      split; [now rewrite <- app_assoc|]. now constructor.
    + intros E. injection E as <- <- <-. exists (dd a). split; [reflexivity|]. now constructor.
  - intros E. injection E as <- <- <-. exists []. split; [reflexivity|]. constructor.
Qed.

Lemma opt_frac unit ft us r : gen_frac unit ft us ->
  match r with c :: _ => ~ 48 <= c <= 57 /\ c <> 44 /\ c <> 46 | [] => True end ->
  exists ds, opt_fraction (ft ++ r) = (ds, r) /\
    (match ds with [] => 0 | _ => round_half_down (dec_value ds * 1000000 * unit) (10 ^ len ds) end) = us.
Proof.
  intros [|c ds us' Hc Hn Hd Hr] N.
  - exists []. split; [|reflexivity]. cbn [app]. destruct r as [|c r]; [reflexivity|]. cbn [opt_fraction].
    destruct N as (_ & N1 & N2). destruct (Z.eqb_spec c 44); [contradiction|]. destruct (Z.eqb_spec c 46); [contradiction|]. reflexivity.
  - exists ds. split.
    + cbn [app opt_fraction]. replace ((c =? 44) || (c =? 46)) with true by lia.
      rewrite span_digits_stop; auto; [destruct ds; [contradiction|reflexivity]|]. destruct r; tauto.
    + destruct ds as [|x ds]; [contradiction|]. apply round_iff; [apply pow10_pos, len_nonneg|exact Hr].
Qed.

Lemma opt_frac_inv unit t ds r : opt_fraction t = (ds, r) -> exists ft, t = ft ++ r /\
  gen_frac unit ft (match ds with [] => 0 | _ => round_half_down (dec_value ds * 1000000 * unit) (10 ^ len ds) end).
Proof.
  unfold opt_fraction. destruct t as [|c t]. { intros E. injection E as <- <-. exists []. split; [reflexivity|constructor]. }
  destruct ((c =? 44) || (c =? 46)) eqn:Ec.
  - destruct (span_digits t) as [a b] eqn:Es. apply span_digits_inv in Es as (-> & D & _). destruct a as [|x a].
    + intros E. injection E as <- <-. exists []. split; [reflexivity|constructor].
    + intros E. injection E as <- <-. exists (c :: x :: a). split; [reflexivity|]. constructor.
      * lia.
      * discriminate.
      * exact D.
      * apply round_iff; [apply pow10_pos, len_nonneg|reflexivity].
  - intros E. injection E as <- <-. exists []. split; [reflexivity|constructor].
Qed.

Lemma frac_start unit ft us r : gen_frac unit ft us -> tail_stop r -> tail_stop (ft ++ r).
Proof. intros [|c ds us' [->| ->] ? ? ?] T; cbn [app tail_stop]; auto; lia. Qed.

Lemma gen_build y mo d h mi sec tz us : 0 <= y < 10000 -> 0 <= us <= 3600000000 ->
  let f := Fields y mo d h mi sec 0 in
  (do v <- (if y =? 0 then mk_extended (Fields 0 mo d h mi sec 0) tz else mk_datetime f tz);
   if us =? 0 then Ok v else add_us v us) =
  if valid_fields f then
    if utc_year (us_of f + us) <=? 9999 then Ok (DT (fields_of (us_of f + us)) tz) else Err OverflowError
  else Err ValueError.
Proof.
  intros Hy Hu f.
  assert (B : (if y =? 0 then mk_extended (Fields 0 mo d h mi sec 0) tz else mk_datetime f tz) =
              if valid_fields f then Ok (DT f tz) else Err ValueError).
  { destruct (valid_fields f) eqn:V.
    - pose proof (mk_ok f tz V) as M. cbn [f f_year] in M. specialize (M ltac:(lia)).
      change (whole f) with f in M. destruct (Z.eqb_spec y 0) as [E|E]; [|exact M]. subst y. exact M.
    - destruct (Z.eqb_spec y 0) as [E|E].
      + subst y. unfold mk_extended, mk_datetime. change (negb (f_year (Fields 0 mo d h mi sec 0) =? 0)) with false. cbn iota.
        assert (A : valid_fields (set_year (Fields 0 mo d h mi sec 0) 2000) = false) by (rewrite <- V; exact (valid_set f 5)).
        rewrite A, andb_false_r. reflexivity.
      + unfold mk_datetime. rewrite V, andb_false_r. reflexivity. }
  rewrite B. destruct (valid_fields f) eqn:V; [|reflexivity]. cbn [bind].
  destruct (Z.eqb_spec us 0) as [->|N].
  - rewrite Z.add_0_r. unfold utc_year. rewrite (fields_of_us f V). cbn [f f_year].
    destruct (Z.leb_spec y 9999); [reflexivity|lia].
  - apply add_us_at; cbn [f f_year]; auto; lia.
Qed.

Lemma gentime_reads s v : gentime_native s = Ok v <-> exists s0, line_end s0 s /\ gen_reads s0 v.
Proof.
  split.
  - intros H. unfold gentime_native, gen_parse, gen_match in H.
    destruct (take_digits 4 s) as [[y s1]|] eqn:E1; [|discriminate]. cbn [obind] in H.
    destruct (take_digits 2 s1) as [[mo s2]|] eqn:E2; [|discriminate]. cbn [obind] in H.
    destruct (take_digits 2 s2) as [[d s3]|] eqn:E3; [|discriminate]. cbn [obind] in H.
    destruct (take_digits 2 s3) as [[h s4]|] eqn:E4; [|discriminate]. cbn [obind] in H.
    apply take4_inv in E1 as [Y1 ->]. apply take2_inv in E2 as [Y2 ->], E3 as [Y3 ->], E4 as [Y4 ->].
    pose proof (opt_minutes_inv s4) as M.
    destruct (opt_digits2 s4) as [m s5]. destruct (match m with None => (None, s5) | Some _ => opt_digits2 s5 end) as [sec s6].
    destruct (M m sec s6 eq_refl) as (mt & -> & Gm). clear M.
    destruct (opt_fraction s6) as [fr s7] eqn:E6.
    destruct (opt_frac_inv (match m, sec with None, _ => 3600 | _, None => 60 | _, _ => 1 end) _ _ _ E6) as (ft & -> & Gf).
    destruct (take_zone true s7) as [[tz s8]|] eqn:E7; cbn [obind] in H; try discriminate.
    destruct (at_end s8) eqn:E8; [|discriminate]. apply take_gen_zone_inv in E7 as (z & Z1 & ->); auto. apply at_end_iff in E8.
    set (unit := match m, sec with None, _ => 3600 | _, None => 60 | _, _ => 1 end) in *.
    set (us := match fr with [] => 0 | _ => round_half_down (dec_value fr * 1000000 * unit) (10 ^ len fr) end) in *.
    assert (Ht : exists tz', zone_of tz = Ok tz' /\ tz' = match tz with Some zm => Some (zm * 60000000) | None => None end /\
              match tz with Some zm => - day < zm < day | None => True end).
    { destruct tz as [zm|]; cbn [zone_of] in *; [|eauto]. rewrite zone_ok in *.
      destruct ((- day <? zm) && (zm <? day)) eqn:Ez; [|discriminate]. exists (Some (zm * 60000000)). repeat split; lia. }
    destruct Ht as (tz' & Et & Etz & Hz). rewrite Et in H. cbn [bind] in H.
    unfold p_fields in H. cbn [p_year p_month p_day p_hour p_minute p_second p_tz p_fraction] in H.
    pose proof (frac_bound _ _ _ (unit_bound _ _ _ _ Gm) Gf) as Ub.
    rewrite (gen_build y mo d h (or0 m) (or0 sec) tz' us Y1 Ub) in H.
    destruct (valid_fields (Fields y mo d h (or0 m) (or0 sec) 0)) eqn:V; [|discriminate].
    destruct (Z.leb_spec (utc_year (us_of (Fields y mo d h (or0 m) (or0 sec) 0) + us)) 9999) as [Uy|]; [|discriminate].
    injection H as <-.
    exists (dd (y / 100) ++ dd (y mod 100) ++ dd mo ++ dd d ++ dd h ++ mt ++ ft ++ z). split.
    + unfold line_end. destruct E8 as [->| ->]; [left; now rewrite app_nil_r|right; now rewrite <- !app_assoc].
    + exists y, mo, d, h, mt, (or0 m), (or0 sec), unit, ft, us, z, tz.
      do 4 (split; [assumption|]). split; [exact Gm|]. split; [exact Gf|]. split; [exact Z1|]. split; [exact Hz|].
      split; [reflexivity|]. split; [exact V|]. split; [exact Uy|]. now rewrite Etz.
  - intros (s0 & L & y & mo & d & h & mt & mi & sec & unit & ft & us & z & tz & Y1 & Y2 & Y3 & Y4 & Gm & Gf & Z1 & Hz & -> & V & Uy & ->).
    assert (E : exists r, at_end r = true /\ s = dd (y / 100) ++ dd (y mod 100) ++ dd mo ++ dd d ++ dd h ++ mt ++ ft ++ z ++ r).
    { destruct L as [->| ->]; [exists []|exists [10]]; (split; [reflexivity|]); [now rewrite app_nil_r|now rewrite <- !app_assoc]. }
    destruct E as (r & Er & ->). unfold gentime_native, gen_parse, gen_match.
    rewrite take_dd4 by auto. cbn [obind]. do 3 (rewrite take_dd by auto; cbn [obind]).
    pose proof (gen_zone_start z tz r Z1 Er) as Sz.
    assert (Tz : tail_stop (z ++ r)) by (destruct (z ++ r); cbn [tail_stop]; tauto).
    destruct (opt_minutes mt mi sec unit (ft ++ z ++ r) Gm (frac_start _ _ _ _ Gf Tz)) as (m & sc & O & Em & Es & Eu).
    destruct (opt_digits2 (mt ++ ft ++ z ++ r)) as [m' s1]. destruct (match m' with None => (None, s1) | Some _ => opt_digits2 s1 end) as [sc' s2].
    injection O as -> -> ->.
    destruct (opt_frac unit ft us (z ++ r) Gf Sz) as (ds & -> & Eus).
    rewrite (take_gen_zone z tz r Z1 Er). cbn [obind]. rewrite Er.
    assert (Ht : zone_of tz = Ok (match tz with Some zm => Some (zm * 60000000) | None => None end)).
    { destruct tz as [zm|]; [|reflexivity]. cbn [zone_of]. rewrite zone_ok. replace ((- day <? zm) && (zm <? day)) with true by lia. reflexivity. }
    rewrite Ht. cbn [bind]. rewrite Eu, Eus, Em, Es.
    unfold p_fields. cbn [p_year p_month p_day p_hour p_minute p_second p_tz p_fraction].
    rewrite gen_build; [|exact Y1|exact (frac_bound _ _ _ (unit_bound _ _ _ _ Gm) Gf)].
    rewrite V. destruct (Z.leb_spec (utc_year (us_of (Fields y mo d h mi sec 0) + us)) 9999); [reflexivity|lia].
Qed.
