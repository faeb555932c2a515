(* The exact texts written for times. *)
Require Import Verif.Base Verif.BaseFacts Verif.Text Verif.Calendar Verif.TimeModel Verif.TimeSpec Verif.TimeProofs
  Verif.CodecModel Verif.PrimSpec.

Lemma pad2 n : pad_dec 2 n = dd n.
Proof. reflexivity. Qed.

Lemma pad4 n : 0 <= n <= 9999 -> pad_dec 4 n = dd (n / 100) ++ dd (n mod 100).
Proof.
  intros H. change (pad_dec 4 n) with [48 + n / 10 / 10 / 10 mod 10; 48 + n / 10 / 10 mod 10; 48 + n / 10 mod 10; 48 + n mod 10].
  unfold dd. cbn [app]. repeat (apply f_equal2; [lia|]). reflexivity.
Qed.

Lemma mdhms_time f : mdhms f = time_text f.
Proof. reflexivity. Qed.

Lemma strftime_utc_text f : utc_text f (strftime_utc f).
Proof. reflexivity. Qed.

Lemma utc_text_whole f : strftime_utc (whole f) = strftime_utc f.
Proof. reflexivity. Qed.

Lemma len_rstrip (s : text) : len (rstrip_by (fun c => c =? 48) s) <= len s.
Proof.
  destruct (rstrip_zeros s) as (k & E & _). rewrite E at 2. rewrite len_app. pose proof (len_nonneg (repeat 48 k)). lia.
Qed.

Lemma gen_fraction_text us : 0 <= us <= 999999 -> fraction_text us (gen_fraction us).
Proof.
  intros H. unfold gen_fraction, fraction_text. destruct (Z.eqb_spec us 0) as [E|E]; [auto|]. right. split; auto.
  exists (rstrip_by (fun c => c =? 48) (pad_dec 6 us)). split; auto.
  destruct (rstrip_zeros (pad_dec 6 us)) as (k & Ek & L).
  set (fs := rstrip_by (fun c => c =? 48) (pad_dec 6 us)) in *.
  assert (V : dec_value fs * 10 ^ Z.of_nat k = us).
  { rewrite <- dec_value_zeros, <- Ek. apply dec_value_pad. change (10 ^ Z.of_nat 6) with 1000000. lia. }
  assert (N : len fs + Z.of_nat k = 6).
  { pose proof (pad_dec_len 6 us) as P. rewrite Ek, len_app in P. unfold len at 2 in P. rewrite repeat_length in P. lia. }
  assert (fs <> []). { intros F. rewrite F in V. change (dec_value []) with 0 in V. lia. }
  split; [|split; [|split]].
  - pose proof (pad_dec_digits 6 us) as D. rewrite Ek in D. apply Forall_app in D. tauto.
  - assert (len fs <> 0) by (intros Q; apply len_zero_nil in Q; auto). pose proof (len_nonneg fs). lia.
  - destruct L; [contradiction|auto].
  - replace (6 - len fs) with (Z.of_nat k) by lia. exact V.
Qed.

(* decimal texts of one length determine each other *)
Lemma dec_value_app a b : dec_value (a ++ b) = dec_value a * 10 ^ len b + dec_value b.
Proof.
  revert a; induction b as [|c b IH] using rev_ind; intros a.
  - rewrite app_nil_r. change (dec_value []) with 0. change (len []) with 0. lia.
  - rewrite app_assoc, !dec_value_snoc, IH, len_app. change (len [c]) with 1.
    rewrite Z.pow_add_r by (pose proof (len_nonneg b); lia). lia.
Qed.

Lemma dec_value_inj_len a : forall b, length a = length b -> digits a -> digits b ->
  dec_value a = dec_value b -> a = b.
Proof.
  induction a as [|x a IH] using rev_ind; intros b L Da Db E.
  - destruct b; [auto|discriminate].
  - destruct b as [|y b _] using rev_ind.
    + rewrite app_length in L. cbn in L. lia.
    + rewrite !app_length in L. cbn in L. apply Forall_app in Da as [Da Dx]. apply Forall_app in Db as [Db Dy].
      apply Forall_inv in Dx. apply Forall_inv in Dy. rewrite !dec_value_snoc in E.
      rewrite (IH b); auto; [|lia|lia]. do 2 f_equal. lia.
Qed.

Lemma fraction_text_unique us a b : fraction_text us a -> fraction_text us b -> a = b.
Proof.
  intros [[H ->]|[H (fa & -> & Da & La & Na & Va)]] [[K ->]|[K (fb & -> & Db & Lb & Nb & Vb)]]; auto; try contradiction.
  f_equal.
  assert (G : forall fa fb, digits fa -> digits fb -> 1 <= len fa <= 6 -> 1 <= len fb <= 6 ->
     last fa 0 <> 48 -> dec_value fa * 10 ^ (6 - len fa) = us -> dec_value fb * 10 ^ (6 - len fb) = us -> len fa <= len fb).
  { clear. intros fa fb Da Db La Lb Na Va Vb. destruct (Z.le_gt_cases (len fa) (len fb)); auto. exfalso.
    destruct fa as [|x fa _] using rev_ind; [change (len (@nil Z)) with 0 in La; lia|]. rewrite last_last in Na.
    apply Forall_app in Da as [Da Dx]. apply Forall_inv in Dx. rewrite dec_value_snoc in Va.
    rewrite len_app in *. change (len [x]) with 1 in *.
    pose proof (len_nonneg fa).
    set (p := len fa) in *. set (q := len fb) in *.
    assert (E : 10 ^ (6 - q) = 10 * (10 ^ (p - q) * 10 ^ (6 - (p + 1)))).
    { rewrite <- Z.pow_add_r by lia. rewrite <- Z.pow_succ_r by lia. f_equal. lia. }
    rewrite E, <- Va in Vb. set (u := 10 ^ (6 - (p + 1))) in *. set (r := 10 ^ (p - q)) in *.
    assert (0 < u) by (apply Z.pow_pos_nonneg; lia).
    assert (M : (dec_value fb * r * 10) * u = (dec_value fa * 10 + (x - 48)) * u).
    { transitivity (dec_value fb * (10 * (r * u))); [ring|exact Vb]. }
    apply Z.mul_reg_r in M; [|lia]. set (W := dec_value fb * r) in *. lia. }
  pose proof (G fa fb Da Db La Lb Na Va Vb). pose proof (G fb fa Db Da Lb La Nb Vb Va).
  assert (L : len fa = len fb) by lia.
  apply dec_value_inj_len; auto; [unfold len in L; lia|].
  rewrite L in Va. rewrite <- Vb in Va. apply Z.mul_reg_r in Va; auto.
  apply Z.pow_nonzero; lia.
Qed.

Lemma utctime_exact x t : dt_ok x -> 1 <= d_year x -> instant x = Some t -> 1950 <= utc_year t <= 2049 ->
  utctime_format x = Ok (strftime_utc (fields_of t)) /\
  utctime_native (strftime_utc (fields_of t)) = Ok (DT (whole (fields_of t)) (Some 0)).
Proof.
  intros (Hy & V & _) Hy1 Hi H. unfold instant in Hi. destruct (d_tz x) as [off|] eqn:Htz; [|discriminate].
  injection Hi as Hi. unfold utctime_format, datetime_utc, datetime_at. rewrite Htz, Hi.
  unfold utc_year in H. destruct (us_of_fields t) as [Vt Et]. set (f := fields_of t) in *.
  replace ((1 <=? f_year f) && (f_year f <=? 9999)) with true by lia. cbn [bind].
  unfold d_year. cbn [d_fields]. replace ((1950 <=? f_year f) && (f_year f <=? 2049)) with true by lia.
  split; auto. apply utc_roundtrip; auto.
Qed.

(* the time read back from a written UTCTime *)
Lemma utc_read_back t : 1950 <= utc_year t <= 2049 ->
  let x := DT (whole (fields_of t)) (Some 0) in
  dt_ok x /\ 1 <= d_year x /\ instant x = Some (t - t mod 1000000) /\
  fields_of (t - t mod 1000000) = whole (fields_of t).
Proof.
  intros H x. unfold utc_year in H. destruct (us_of_fields t) as [Vt Et].
  assert (I : us_of (whole (fields_of t)) = t - t mod 1000000).
  { rewrite (us_whole (fields_of t)) in Et. pose proof (valid_fields_bounds _ Vt).
    assert (us_of (whole (fields_of t)) mod 1000000 = 0) by (unfold us_of, whole, us_per_day; cbn; lia). lia. }
  unfold x. split; [|split; [|split]].
  - split; [change (0 <= f_year (fields_of t) <= 9999); lia|]. split; [now apply valid_whole|]. reflexivity.
  - change (1 <= f_year (fields_of t)). lia.
  - unfold instant. cbn [d_tz d_fields]. f_equal. lia.
  - rewrite <- I. apply fields_of_us. now apply valid_whole.
Qed.

Definition gen_string (f : fields) : text := (pad_dec 4 (f_year f) ++ mdhms f) ++ gen_fraction (f_micro f) ++ [90].

Lemma gen_string_text f : valid_fields f = true -> 0 <= f_year f <= 9999 -> gen_text f (gen_string f).
Proof.
  intros V H. exists (gen_fraction (f_micro f)). split.
  - apply gen_fraction_text. pose proof (valid_fields_bounds f V). tauto.
  - unfold gen_string. rewrite pad4 by lia. rewrite mdhms_time, <- !app_assoc. reflexivity.
Qed.

Lemma gen_text_unique f a b : gen_text f a -> gen_text f b -> a = b.
Proof.
  intros (fr & H & ->) (fr' & H' & ->). now rewrite (fraction_text_unique _ _ _ H H').
Qed.

Lemma gentime_exact pad x t : dt_ok x -> instant x = Some t ->
  (d_year x = 0 -> 0 <= utc_year t) -> (1 <= d_year x -> 1 <= utc_year t <= 9999) ->
  (pad = true \/ utc_year t = 0 \/ 1000 <= utc_year t) ->
  gentime_format pad x = Ok (gen_string (fields_of t)) /\
  gentime_native (gen_string (fields_of t)) = Ok (DT (fields_of t) (Some 0)) /\ 0 <= utc_year t <= 9999.
Proof.
  intros H Hi H0 H1 HP. unfold instant in Hi. destruct (d_tz x) as [off|] eqn:Htz; [|discriminate].
  injection Hi as Hi. pose proof (astimezone_ok x off H Htz) as A. cbn zeta in A. rewrite Hi in A.
  destruct H as (Hy & V & Hz). rewrite Htz in Hz. pose proof (utc_year_near _ _ V Hz) as N. rewrite Hi in N.
  fold (d_year x) in N. unfold gentime_format. rewrite Htz, A. clear A.
  destruct (us_of_fields t) as [Vt Et]. set (Y := utc_year t) in *.
  assert (R : 0 <= Y <= 9999) by (destruct (Z.eq_dec (d_year x) 0); lia).
  set (g := fields_of t) in *. change Y with (f_year g) in *.
  replace (if d_year x =? 0 then _ else _) with (@Ok dt (DT g (Some 0))).
  2: { destruct (Z.eqb_spec (d_year x) 0); [destruct (Z.ltb_spec (f_year g) 0); [lia|reflexivity]|].
       replace ((1 <=? f_year g) && (f_year g <=? 9999)) with true by lia. reflexivity. }
  cbn [bind]. unfold d_year. cbn [d_fields]. cbn zeta. fold (gen_fraction (f_micro g)).
  assert (F : (if f_year g =? 0 then strftime_ext pad g else strftime_gen pad g) = pad_dec 4 (f_year g) ++ mdhms g).
  { destruct (Z.eqb_spec (f_year g) 0) as [E|E].
    - now rewrite strftime_ext_ok, E.
    - apply strftime_gen_ok. destruct HP as [?|[?|?]]; [auto|lia|right; lia]. }
  split; [|split; auto].
  - unfold gen_string. f_equal. f_equal. exact F.
  - apply gen_native_ok; auto.
Qed.

Lemma gen_read_back t : 0 <= utc_year t <= 9999 ->
  let x := DT (fields_of t) (Some 0) in
  dt_ok x /\ instant x = Some t /\ d_year x = utc_year t.
Proof.
  intros H x. destruct (us_of_fields t) as [Vt Et]. unfold x. split; [|split].
  - split; [exact H|]. split; auto. reflexivity.
  - unfold instant. cbn [d_tz d_fields]. f_equal. lia.
  - reflexivity.
Qed.

(* latin1 of a text of ASCII characters *)
Lemma dd_ascii n : Forall (fun c => 0 <= c < 128) (dd n).
Proof. repeat constructor; lia. Qed.
Lemma time_ascii f : Forall (fun c => 0 <= c < 128) (time_text f).
Proof. unfold time_text. repeat (apply Forall_app; split); apply dd_ascii. Qed.
