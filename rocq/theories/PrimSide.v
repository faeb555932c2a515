(* Failed assignments, equality, copies, set_encoded_width and the exceptions of reading. *)
Require Import Verif.Base Verif.BaseFacts Verif.IntModel Verif.IntSpec Verif.IntProofs
  Verif.ParserModel Verif.ParserSpec Verif.ParserProofs Verif.ParserFacts Verif.Text Verif.OidModel Verif.OidSpec
  Verif.OidProofs Verif.BitModel Verif.BitSpec Verif.BitProofs Verif.CodecModel Verif.CodecSpec Verif.CodecProofs
  Verif.Calendar Verif.TimeModel Verif.TimeSpec Verif.TimeProofs Verif.TimeFacts Verif.TagSpec Verif.TagProofs
  Verif.PrimModel Verif.PrimSpec Verif.PrimProofs Verif.PrimSet Verif.PrimDump Verif.PrimLoad Verif.HistSpec Verif.PrimHist
  Verif.ChunkSpec Verif.ChunkProofs Verif.PrimRead Verif.PrimMore.


(* ---- failed assignments ---- *)
Definition ascii (c : Z) : Prop := 0 <= c < 128.

Lemma pad_ascii k : forall n, Forall ascii (pad_dec k n).
Proof.
  induction k as [|k IH]; intros n; [constructor|]. cbn [pad_dec]. apply Forall_app. split; auto.
  constructor; [|constructor]. unfold ascii. lia.
Qed.
Lemma dec_loop_ascii f : forall n acc, Forall ascii acc -> Forall ascii (dec_loop f n acc).
Proof.
  induction f as [|f IH]; intros n acc H; [exact H|]. cbn [dec_loop].
  assert (Forall ascii ((48 + n mod 10) :: acc)) by (constructor; auto; unfold ascii; lia).
  destruct (n / 10 =? 0); auto.
Qed.
Lemma dec_ascii n : Forall ascii (dec n).
Proof.
  unfold dec, dec_nonneg. destruct (n <? 0); [constructor; [unfold ascii; lia|]|]; apply dec_loop_ascii; constructor.
Qed.
Lemma mdhms_ascii f : Forall ascii (mdhms f).
Proof. unfold mdhms. do 4 (apply Forall_app; split; [apply pad_ascii|]). apply pad_ascii. Qed.
Lemma strftime_gen_ascii pad f : Forall ascii (strftime_gen pad f).
Proof. unfold strftime_gen. apply Forall_app. split; [destruct pad; [apply pad_ascii|apply dec_ascii]|apply mdhms_ascii]. Qed.
Lemma merge_ascii a : forall b, Forall ascii a -> Forall ascii (merge_y2k a b).
Proof.
  induction a as [|x a IH]; intros [|y b] H; cbn [merge_y2k]; try constructor; inversion H; subst; auto.
  destruct ((x =? 50) && (y =? 52)); auto. unfold ascii. lia.
Qed.
Lemma rstrip_ascii s : Forall ascii s -> Forall ascii (rstrip_by (fun c => c =? 48) s).
Proof. intros H. destruct (rstrip_zeros s) as (k & E & _). rewrite E in H. now apply Forall_app in H. Qed.

Lemma utc_format_ascii x s : utctime_format x = Ok s -> Forall ascii s.
Proof.
  unfold utctime_format. destruct (d_tz x); [|discriminate]. intros H. apply bind_ok in H as (v & _ & H).
  destruct ((1950 <=? d_year v) && (d_year v <=? 2049)); [|discriminate]. injection H as <-.
  unfold strftime_utc. apply Forall_app. split; [apply pad_ascii|]. apply Forall_app. split; [apply mdhms_ascii|].
  constructor; [unfold ascii; lia|constructor].
Qed.
Lemma gen_format_ascii pad x s : gentime_format pad x = Ok s -> Forall ascii s.
Proof.
  unfold gentime_format. destruct (d_tz x); [|discriminate]. intros H. apply bind_ok in H as (v & _ & H).
  injection H as <-. apply Forall_app. split.
  - destruct (d_year v =? 0); [apply merge_ascii|]; apply strftime_gen_ascii.
  - apply Forall_app. split; [|constructor; [unfold ascii; lia|constructor]].
    destruct (f_micro (d_fields v) =? 0); constructor; [unfold ascii; lia|]. apply rstrip_ascii. exact (pad_ascii 6 _).
Qed.

Lemma set_time_total k o s : Forall ascii s -> snd (set_time k o s) = Ok tt.
Proof. intros H. destruct (encode_latin1 s H) as (E & _). unfold set_time, set_text. rewrite E. reflexivity. Qed.

Lemma set_int_total k m o z : snd (set_int k m o z) = Ok tt.
Proof. unfold set_int. destruct (int_to_bytes_signed_ok z) as (l & E & _). rewrite E. reflexivity. Qed.

(* the assignments that leave the object alone when they fail *)
Definition atomic_set (k : kind) (w : option Z) (v : native) : Prop :=
  match k, v with
  | KBits (Some m), NBits l => len l <= map_size m
  | KIntOctets, _ => w = None
  | (KOid _ | KStr _ | KUtcTime | KGenTime _), NText _ => False
  | _, _ => True
  end.

Lemma failed_set k o v o' e : kind_ok k \/ k = KRaw -> atomic_set k (o_width o) v -> set_value k o v = (o', Err e) -> o' = o.
Proof.
  intros Hk Ha H.
  assert (SI : forall k m z, set_int k m o z = (o', Err e) -> o' = o).
  { intros k' m z E. pose proof (set_int_total k' m o z) as T. rewrite E in T. discriminate. }
  assert (ST : forall k s, Forall ascii s -> set_time k o s = (o', Err e) -> o' = o).
  { intros k' s A E. pose proof (set_time_total k' o s A) as T. rewrite E in T. discriminate. }
  destruct k as [|m|m|m| | | | | |m|en| |pad|]; cbn [set_value] in H; unfold fail, done in H.
  - discriminate.
  - destruct v; cbn [as_int] in H; try (injection H as <- _; reflexivity); eauto.
    destruct m; [injection H as <- _; reflexivity|]. destruct (rev_get _ s); [eauto|injection H as <- _; reflexivity].
  - destruct m as [m|]; [|injection H as <- _; reflexivity].
    destruct v; cbn [as_int] in H; try (injection H as <- _; reflexivity).
    + destruct (map_get m _); [eauto|injection H as <- _; reflexivity].
    + destruct (map_get m _); [eauto|injection H as <- _; reflexivity].
    + destruct (rev_get m s); [eauto|injection H as <- _; reflexivity].
  - destruct v; try (injection H as <- _; reflexivity).
    + unfold set_bits in H. destruct m as [m|]; cbn [size_of] in H.
      * cbn [atomic_set] in Ha. rewrite (bitstring_encode_some _ _ Ha) in H.
        destruct (bitstring_encode_bits (rstrip0 l)) as (c & E & _). rewrite E in H. discriminate.
      * destruct (bitstring_encode_bits l) as (c & E & _). rewrite E in H. discriminate.
    + destruct m as [m|]; [|injection H as <- _; reflexivity].
      unfold set_bits in H. cbn [size_of] in H. destruct Hk as [Hk|]; [|discriminate]. destruct Hk as [_ Hk].
      rewrite bitstring_encode_some in H.
      * destruct (bitstring_encode_bits (rstrip0 (bits_of_set m s))) as (c & E & _). rewrite E in H. discriminate.
      * rewrite bits_of_set_len. pose proof (map_size_pos m Hk). lia.
  - destruct v; try (injection H as <- _; reflexivity). discriminate.
  - destruct (as_int v) as [z|]; [|injection H as <- _; reflexivity].
    destruct (Z.ltb_spec z 0); [injection H as <- _; reflexivity|].
    destruct (intbits_roundtrip z) as (c & E & _); [lia|]. rewrite E in H. discriminate.
  - destruct v; try (injection H as <- _; reflexivity). discriminate.
  - destruct (as_int v) as [z|]; [|injection H as <- _; reflexivity].
    destruct (Z.ltb_spec z 0); [injection H as <- _; reflexivity|]. cbn [atomic_set] in Ha.
    change (o_width (set_native o (Some (NInt z)))) with (o_width o) in H. rewrite Ha in H.
    pose proof (intoctets_roundtrip None z ltac:(lia)) as (c & E & _). rewrite E in H. discriminate.
  - discriminate.
  - destruct v; try (injection H as <- _; reflexivity). destruct Ha.
  - destruct v; try (injection H as <- _; reflexivity). destruct Ha.
  - destruct v; try (injection H as <- _; reflexivity); [destruct Ha|].
    destruct (d_year x =? 0); [injection H as <- _; reflexivity|].
    destruct (utctime_format x) as [s|] eqn:E; [|injection H as <- _; reflexivity]. eapply ST; [|exact H]. eapply utc_format_ascii; eauto.
  - destruct v; try (injection H as <- _; reflexivity); [destruct Ha|].
    destruct (gentime_format pad x) as [s|] eqn:E; [|injection H as <- _; reflexivity]. eapply ST; [|exact H]. eapply gen_format_ascii; eauto.
  - destruct v; try (injection H as <- _; reflexivity). discriminate.
Qed.

(* a failed assignment never touches the encoding, except of an ObjectIdentifier *)
Lemma failed_set_enc k o v o' e : (forall m, k <> KOid m) -> set_value k o v = (o', Err e) ->
  o_enc o' = o_enc o /\ o_tagging o' = o_tagging o.
Proof.
  intros Nk H.
  assert (SI : forall k m z, set_int k m o z = (o', Err e) -> o_enc o' = o_enc o /\ o_tagging o' = o_tagging o).
  { intros k' m z E. pose proof (set_int_total k' m o z) as T. rewrite E in T. discriminate. }
  assert (ST : forall k e1 s, set_text k e1 o s = (o', Err e) -> o_enc o' = o_enc o /\ o_tagging o' = o_tagging o).
  { intros k' e1 s E. unfold set_text in E. destruct (encode e1 s); [discriminate|]. injection E as <- _. auto. }
  assert (SM : forall k s, set_time k o s = (o', Err e) -> o_enc o' = o_enc o /\ o_tagging o' = o_tagging o).
  { intros k' s E. unfold set_time in E. destruct (set_text k' Latin1 o s) as [o1 [[]|x]] eqn:E1; [discriminate|].
    injection E as -> ->. eauto. }
  assert (SB : forall k m o1 l, o_enc o1 = o_enc o -> o_tagging o1 = o_tagging o -> set_bits k m o1 l = (o', Err e) ->
            o_enc o' = o_enc o /\ o_tagging o' = o_tagging o).
  { intros k' m o1 l E1 E2 E. unfold set_bits in E. destruct (bitstring_encode (size_of m) l); [discriminate|].
    injection E as <- _. auto. }
  destruct k as [|m|m|m| | | | | |m|en| |pad|]; cbn [set_value] in H; unfold fail, done in H.
  - discriminate.
  - destruct v; cbn [as_int] in H; try (injection H as <- _; auto; fail); eauto.
    destruct m; [injection H as <- _; auto|]. destruct (rev_get _ s); [eauto|injection H as <- _; auto].
  - destruct m as [m|]; [|injection H as <- _; auto].
    destruct v; cbn [as_int] in H; try (injection H as <- _; auto; fail).
    + destruct (map_get m _); [eauto|injection H as <- _; auto].
    + destruct (map_get m _); [eauto|injection H as <- _; auto].
    + destruct (rev_get m s); [eauto|injection H as <- _; auto].
  - destruct v; try (injection H as <- _; auto; fail).
    + eapply SB; [| |exact H]; reflexivity.
    + destruct m as [m|]; [|injection H as <- _; auto]. eapply SB; [| |exact H]; reflexivity.
  - destruct v; try (injection H as <- _; auto; fail). discriminate.
  - destruct (as_int v) as [z|]; [|injection H as <- _; auto].
    destruct (Z.ltb_spec z 0); [injection H as <- _; auto|].
    destruct (intbits_encode z); [discriminate|]. injection H as <- _. auto.
  - destruct v; try (injection H as <- _; auto; fail). discriminate.
  - destruct (as_int v) as [z|]; [|injection H as <- _; auto].
    destruct (Z.ltb_spec z 0); [injection H as <- _; auto|].
    destruct (intoctets_encode _ z); [discriminate|]. injection H as <- _. auto.
  - discriminate.
  - exfalso. eapply Nk. reflexivity.
  - destruct v; try (injection H as <- _; auto; fail). eauto.
  - destruct v; try (injection H as <- _; auto; fail); eauto.
    destruct (d_year x =? 0); [injection H as <- _; auto|].
    destruct (utctime_format x) as [s|]; [|injection H as <- _; auto]. eauto.
  - destruct v; try (injection H as <- _; auto; fail); eauto.
    destruct (gentime_format pad x) as [s|]; [|injection H as <- _; auto]. eauto.
  - destruct v; try (injection H as <- _; auto; fail). discriminate.
Qed.

Lemma failed_set_dump k cls o v o' e : (forall m, k <> KOid m) -> set_value k o v = (o', Err e) ->
  ends_80 (e_header (o_enc o)) = false -> snd (dump k cls o' false) = snd (dump k cls o false).
Proof.
  intros Nk H E8. destruct (failed_set_enc k o v o' e Nk H) as [Ee Et].
  unfold dump. rewrite Ee, E8. cbn [orb]. unfold base_dump. rewrite Ee, Et.
  destruct (e_contents (o_enc o)); [|reflexivity]. rewrite E8. destruct (e_header (o_enc o)); reflexivity.
Qed.

(* ---- equality ---- *)
Lemma eqb_bytes_true a b : eqb_bytes a b = true <-> a = b.
Proof. apply eqb_bytes_spec. Qed.

Lemma prim_eq_iff c a d b : prim_eq c a d b = true <-> k_tag c = k_tag d /\ contents a = contents b.
Proof.
  unfold prim_eq. destruct (contents a) as [x|], (contents b) as [y|].
  - rewrite andb_true_iff, eqb_bytes_true, Z.eqb_eq. intuition congruence.
  - intuition discriminate.
  - intuition discriminate.
  - rewrite Z.eqb_eq. intuition.
Qed.
Lemma prim_eq_equiv : (forall c a, prim_eq c a c a = true) /\
  (forall c a d b, prim_eq c a d b = prim_eq d b c a) /\
  (forall c1 a1 c2 a2 c3 a3, prim_eq c1 a1 c2 a2 = true -> prim_eq c2 a2 c3 a3 = true -> prim_eq c1 a1 c3 a3 = true).
Proof.
  split; [|split].
  - intros. now apply prim_eq_iff.
  - intros. apply eq_true_iff_eq. rewrite !prim_eq_iff. intuition.
  - intros. rewrite prim_eq_iff in *. intuition congruence.
Qed.

(* objects holding values: equal exactly when the values are the same *)
Lemma prim_eq_carries k cls t t' w v v' o o' : kind_ok k -> carries k cls t w v o -> carries k cls t' w v' o' ->
  (prim_eq cls o cls o' = true <-> exists c, der_value k w v c /\ der_value k w v' c).
Proof.
  intros Hk (_ & _ & _ & c & Ec & D & _) (_ & _ & _ & c' & Ec' & D' & _). rewrite prim_eq_iff, Ec, Ec'. split.
  - intros [_ E]. injection E as ->. eauto.
  - intros (x & A & B). split; auto. now rewrite (der_value_unique k w v c x Hk D A), (der_value_unique k w v' c' x Hk D' B).
Qed.

(* ---- the exceptions of reading ---- *)
(* UnicodeError is a subclass of ValueError *)
Definition value_error (e : exn) : Prop := e = ValueError \/ e = UnicodeError.

Lemma build_err k cls p i e : bytes_ok (i_contents i) -> build k cls p i = Err e -> e = ValueError.
Proof.
  intros B H.
  assert (IT : forall q x, init_tagging cls q = Err x -> x = ValueError).
  { intros q x E. unfold init_tagging in E. destruct (p_explicit q).
    - destruct (p_implicit q) as [[cl tg]|]; [|discriminate]. destruct (class_ok cl); [discriminate|]. cbn in E. congruence.
    - destruct (forallb _ _); [discriminate|]. cbn in E. congruence. }
  assert (BP : forall q j x, build_plain k cls q j = Err x -> x = ValueError).
  { intros q j x E. unfold build_plain in E. destruct (init_tagging cls q) as [t|y] eqn:Ei; cbn [bind] in E.
    - destruct (negb _) in E; [congruence|]. destruct (negb _ && _) in E; [congruence|]. destruct (negb _ && _) in E; congruence.
    - injection E as ->. eauto. }
  assert (PE : forall ex j P T x, bytes_ok (i_contents j) -> peel ex j P T = Err x -> x = ValueError).
  { induction ex as [|[c t] ex IH]; intros j P T x Bj E; cbn [peel] in E; [discriminate|].
    destruct (negb _) in E; [congruence|]. destruct (negb _) in E; [congruence|]. destruct (negb _) in E; [congruence|].
    destruct (parse_ (i_contents j) (len (i_contents j)) 0) as [[j' e']|y] eqn:Ep; cbn [bind] in E.
    - apply parse_method in Ep as [_ Bj']; auto. eauto.
    - injection E as ->. apply parse__err in Ep; auto; lia. }
  unfold build in H. destruct (has_explicit cls p); [|eauto].
  destruct (init_tagging cls p) as [t|y] eqn:Ei; cbn [bind] in H; [|injection H as ->; eauto].
  destruct (peel _ i _ _) as [[[j P] T]|y] eqn:Ep; cbn [bind] in H; [|injection H as ->; eauto].
  destruct (build_plain k cls (Params [] None true) j) as [o|y] eqn:Eb; cbn [bind] in H; [discriminate|injection H as ->; eauto].
Qed.

Section MergeErr.
  Variable X : Type.
  Variable P : exn -> Prop.
  Variable as_chunk : bool -> bytes -> res (list X).
  Variable k : kind.
  Variable cls : pcls.
  Hypothesis Pv : P ValueError.
  Hypothesis Hx : k_explicit cls = [].
  Hypothesis Ha : forall b c e, bytes_ok c -> as_chunk b c = Err e -> P e.

  Lemma merge_err f : forall ind cont e, (length cont < f)%nat -> bytes_ok cont ->
    merge X as_chunk k cls f ind cont = Err e -> P e.
  Proof.
    induction f as [|f IH]; intros ind cont e L B H; [lia|]. cbn [merge] in H.
    destruct ind; [|eapply Ha; eauto].
    enough (G : forall m pre rest acc e, (length rest < m)%nat -> (length (pre ++ rest) <= f)%nat -> bytes_ok (pre ++ rest) ->
      merge_loop X as_chunk k cls m (merge X as_chunk k cls f) (pre ++ rest) (len pre) acc = Err e -> P e).
    { eapply (G _ [] cont None e); [| |exact B|exact H]; cbn [app]; lia. }
    clear cont e L B H. induction m as [|m IHm]; intros pre rest acc e Lm Lf B H; [lia|]. cbn [merge_loop] in H.
    destruct (Z.ltb_spec (len pre) (len (pre ++ rest))) as [Hl|Hl].
    - unfold parse_build in H.
      destruct (parse_ (pre ++ rest) (len (pre ++ rest)) (len pre)) as [[i p]|y] eqn:Ep; cbn [bind] in H.
      2:{ injection H as ->. apply parse__err in Ep; auto; [now subst|apply len_nonneg]. }
      apply parse_sound in Ep as (Bi & (rest' & Er) & Ee); auto. subst rest p.
      assert (Bc : bytes_ok (i_contents i)).
      { apply bytes_ok_app in B as [_ B]. eapply contents_bytes; [exact B|reflexivity]. }
      assert (Li : (length (i_contents i) + 2 <= length (encoding_of i))%nat).
      { unfold encoding_of. rewrite !app_length. destruct (ber_hdr _ _ _ _ _ _ _ Bi) as (_ & L2 & _). unfold len in L2. lia. }
      rewrite !app_length in *.
      destruct (build k cls no_params i) as [o|y] eqn:Eb; cbn [bind] in H.
      2:{ injection H as ->. apply build_err in Eb; auto. now subst. }
      assert (Ec : contents o = Some (i_contents i)).
      { unfold build in Eb. assert (He : has_explicit cls no_params = false) by (unfold has_explicit; rewrite Hx; reflexivity).
        rewrite He in Eb. now apply build_plain_contents in Eb. }
      rewrite Ec in H.
      destruct (merge X as_chunk k cls f (e_indef (o_enc o)) (i_contents i)) as [x|y] eqn:Em; cbn [bind] in H.
      + rewrite <- len_app, app_assoc in H. eapply IHm in H; [exact H| | |].
        * lia.
        * rewrite !app_length. lia.
        * now rewrite <- app_assoc.
      + injection H as ->. eapply IH; [| |exact Em]; [lia|exact Bc].
    - destruct acc as [a|]; [discriminate|]. eapply Ha; eauto.
  Qed.
End MergeErr.

Lemma merged_bytes_err k cls ind cont e : k_explicit cls = [] -> bytes_ok cont -> merged_bytes k cls ind cont = Err e -> e = ValueError.
Proof.
  intros Hx B H. unfold merged_bytes in H. apply (merge_err Z (fun e => e = ValueError)) in H; auto.
  intros b c x _ E. discriminate.
Qed.

Lemma utctime_native_err s e : utctime_native s = Err e -> e = ValueError.
Proof.
  unfold utctime_native. intros H. destruct (utc_parse s) as [p|y] eqn:E; cbn [bind] in H.
  - unfold mk_datetime in H. destruct (_ && _) in H; congruence.
  - injection H as ->. unfold utc_parse in E. destruct (utc_match s) as [[[[[[[y mo] d] h] mi] sec] z]|]; [|congruence].
    unfold zone_of in E. destruct (tz_ok _); cbn [bind] in E; congruence.
Qed.

(* which kinds of contents are read without an unexpected exception *)
Definition readable (k : kind) (ind : bool) (c : bytes) : Prop :=
  match k with
  | KBool | KInt _ | KOctets | KIntOctets | KNull | KOid _ | KStr _ | KUtcTime => True
  | KBits _ | KIntBits | KOctetBits => ind = false /\ c <> []
  | KEnum (Some m) => In (int_from_bytes c true) (map fst m)
  | _ => False
  end.

Lemma int_to_bits_err v n e : int_to_bits v n = Err e -> e = ValueError.
Proof. unfold int_to_bits. destruct (_ && _); [discriminate|]. destruct (len _ =? n); congruence. Qed.

Lemma bit_chunk_err c e : c <> [] -> bit_chunk c = Err e -> e = ValueError.
Proof.
  intros N H. unfold bit_chunk in H. destruct c as [|u b]; [contradiction|].
  destruct (u =? 0); [discriminate|]. destruct (len _ =? 1); [congruence|]. destruct (7 <? u); [congruence|].
  destruct (int_to_bits _ u) eqn:E; cbn [bind] in H; [discriminate|]. injection H as ->. eapply int_to_bits_err; eauto.
Qed.

Lemma map_get_some (m : list (Z * text)) z : In z (map fst m) -> exists s, map_get m z = Some s.
Proof.
  induction m as [|[i s] m IH]; cbn [map fst In map_get]; [tauto|]. intros [->|H]; [rewrite Z.eqb_refl; eauto|].
  destruct (i =? z); eauto.
Qed.

Lemma read_error k cls o c e : k_explicit cls = [] -> bytes_ok c -> contents o = Some c ->
  readable k (e_indef (o_enc o)) c -> snd (get_native k cls o) = Err e -> value_error e.
Proof.
  intros Hx B Ec R H. unfold get_native in H. rewrite Ec in H.
  assert (GU : forall k en o' x, get_unicode k en cls o c = (o', Err x) -> value_error x).
  { intros k' en o' x E. unfold get_unicode in E. destruct (c_unicode (o_cache o)); [discriminate|].
    destruct (merged_bytes k' cls (e_indef (o_enc o)) c) as [b|y] eqn:Em; cbn [bind] in E.
    - destruct (codec_decode_canonical en b) as [D|(s & D & _)]; [eapply merged_bytes_ok; eauto| |]; rewrite D in E; [|discriminate].
      injection E as _ <-. now right.
    - injection E as _ <-. left. eapply merged_bytes_err; eauto. }
  destruct k as [|m|m|m| | | | | |m|en| |pad|]; cbn [readable] in R; try contradiction.
  - unfold cached in H. destruct (c_native (o_cache o)); discriminate.
  - unfold cached in H. destruct (c_native (o_cache o)); discriminate.
  - destruct m as [m|]; [|contradiction]. unfold cached in H. destruct (c_native (o_cache o)); [discriminate|].
    destruct (map_get_some m _ R) as (s & E). rewrite E in H. discriminate.
  - destruct R as [Ei N]. unfold bits_native in H. destruct (c_native (o_cache o)); [discriminate|].
    unfold merged_int in H. rewrite Ei in H. destruct (bit_chunk c) as [[[v n] ub]|y] eqn:E.
    + destruct (int_to_bits v n) eqn:Eb; [destruct m; discriminate|]. cbn in H. injection H as ->. left. eapply int_to_bits_err; eauto.
    + cbn in H. injection H as ->. left. eapply bit_chunk_err; eauto.
  - destruct R as [Ei N]. destruct (c_bytes (o_cache o)); [discriminate|]. unfold merged_octets in H. rewrite Ei in H.
    unfold octetbits_chunk in H. destruct c as [|u b]; [contradiction|].
    destruct (u =? 0); [discriminate|]. destruct (len _ =? 1); [left; cbn in H; congruence|]. destruct (7 <? u); [left; cbn in H; congruence|].
    destruct (int_to_bits _ u) eqn:E; cbn [bind] in H; [discriminate|]. cbn in H. injection H as ->. left. eapply int_to_bits_err; eauto.
  - destruct R as [Ei N]. destruct (c_native (o_cache o)); [discriminate|].
    unfold merged_int in H. rewrite Ei in H. destruct (bit_chunk c) as [[[v n] ub]|y] eqn:E; [discriminate|].
    cbn in H. injection H as ->. left. eapply bit_chunk_err; eauto.
  - destruct (c_bytes (o_cache o)); [discriminate|]. destruct (merged_bytes KOctets cls _ c) eqn:E; [discriminate|].
    cbn in H. injection H as ->. left. eapply merged_bytes_err; eauto.
  - unfold cached in H. destruct (c_native (o_cache o)); [discriminate|].
    destruct (merged_bytes KIntOctets cls _ c) eqn:E; cbn [bind] in H; [discriminate|].
    cbn in H. injection H as ->. left. eapply merged_bytes_err; eauto.
  - discriminate.
  - destruct (c_native (o_cache o)) as [[]|].
    all: try discriminate.
    + destruct (tmap_get m s); discriminate.
    + unfold get_dotted in H. destruct (c_dotted (o_cache o)); cbn in H; destruct (tmap_get m _); discriminate.
  - destruct (get_unicode (KStr en) en cls o c) as [o' [s|x]] eqn:E; [discriminate|]. cbn in H. injection H as ->. eauto.
  - unfold time_native in H. destruct (c_native (o_cache o)); [discriminate|].
    destruct (get_unicode KUtcTime Latin1 cls o c) as [o' [s|x]] eqn:E.
    + destruct (utctime_native s) eqn:Eu; [discriminate|]. cbn in H. injection H as ->. left. eapply utctime_native_err; eauto.
    + cbn in H. injection H as ->. eauto.
Qed.

(* load returns an object or raises ValueError *)
Lemma load_err k cls p d s e : bytes_ok d -> load k cls p d s = Err e -> e = ValueError.
Proof.
  intros B H. unfold load in H. destruct (parse_ d (len d) 0) as [[i n]|y] eqn:E; cbn [bind] in H.
  - apply parse_method in E as [_ Bi]; auto. destruct (s && negb (n =? len d)); [congruence|]. eapply build_err; eauto.
  - injection H as ->. apply parse__err in E; auto; lia.
Qed.

(* ---- set_encoded_width ---- *)
Lemma width_carries cls t w n z o : tagging_ok t -> carries KIntOctets cls t w (NInt z) o -> 0 <= n ->
  (z < 256 ^ n -> exists o', set_width cls o n = (o', Ok tt) /\ carries KIntOctets cls t (Some n) (NInt z) o') /\
  (256 ^ n <= z -> snd (set_width cls o n) = Err OverflowError).
Proof.
  intros Ht (Et & Ew & M & c & Ec & D & Hh & o1 & v1 & Eg & Sv & Hv & Dv) Hn.
  cbn [same_value] in Sv. subst v1.
  set (ow := Obj (o_tagging o) (o_enc o) (o_cache o) (Some n)).
  assert (Eg' : get_native KIntOctets cls ow = (Obj (o_tagging o1) (o_enc o1) (o_cache o1) (Some n), Ok (NInt z))).
  { unfold get_native, contents, ow in *. cbn [o_enc o_cache] in *. rewrite Ec in *. unfold cached in *.
    cbn [o_cache]. destruct (c_native (o_cache o)).
    - injection Eg as <- <-. reflexivity.
    - destruct (do b <- merged_bytes KIntOctets cls (e_indef (o_enc o)) c; Ok (NInt (intoctets_decode b))); [|discriminate].
      injection Eg as <- ->. reflexivity. }
  assert (Hz : 0 <= z) by (cbn [holds] in Hv; tauto).
  assert (Bv : bytes_ok c /\ be_value c = z).
  { cbn [der_value] in D. destruct w; [tauto|]. unfold der_nat in D. tauto. }
  unfold set_width. fold ow. change (contents ow) with (contents o). rewrite Ec.
  split; intros Hf.
  - destruct (Z.eqb_spec (len c) n) as [E|E].
    + exists ow. split; [reflexivity|]. split; [exact Et|]. split; [reflexivity|]. split; [exact M|].
      exists c. split; [exact Ec|]. split; [cbn [der_value]; tauto|]. split; [exact Hh|].
      exists (Obj (o_tagging o1) (o_enc o1) (o_cache o1) (Some n)), (NInt z). split; [exact Eg'|]. split; [reflexivity|].
      split; [cbn [holds]; auto|cbn [der_value]; tauto].
    + rewrite Eg'. pose proof (get_frame KIntOctets cls ow c Ec) as F. rewrite Eg' in F. destruct F as (Ft & Fe & Fw).
      cbn [fst ow o_tagging o_enc o_width] in *.
      apply carries_set; auto; try (cbn [o_tagging o_enc]; try rewrite Fe; try rewrite Ft; auto; fail); try discriminate; try reflexivity;
      cbn [o_tagging o_enc holds]; auto; try (now rewrite Fe); congruence.
  - destruct (Z.eqb_spec (len c) n) as [E|E].
    + exfalso. subst n. destruct Bv as [B <-]. pose proof (be_value_bound c B). lia.
    + rewrite Eg'. cbn [set_value as_int]. destruct (Z.ltb_spec z 0); [lia|].
      cbn [set_native with_cache o_width]. pose proof (intoctets_roundtrip (Some n) z Hz) as R. cbn beta iota in R.
      destruct (R Hn) as [_ R2]. rewrite (R2 Hf). reflexivity.
Qed.

(* ---- copies ---- *)
Definition settled (k : kind) (cls : pcls) (t : tagging) (w : option Z) (v : native) (o : obj) : Prop :=
  carries k cls t w v o /\ e_indef (o_enc o) = false.

Lemma get_native_copy k cls o t c : kind_ok k -> contents o = Some c -> e_indef (o_enc o) = false ->
  (forall m, k <> KOid m) -> exists r, copy_onto k cls t o = Ok r /\ o_tagging r = t /\ o_enc r = Enc 0 None (Some c) [] false /\
    o_width r = None /\ snd (get_native k cls r) = snd (get_native k cls o).
Proof.
  intros Hk Ec Ei No. unfold copy_onto. rewrite Ei, andb_false_r. cbn [bind].
  eexists. split; [reflexivity|].
  set (base := Obj t (Enc 0 None (contents o) [] false) (Cache (c_native (o_cache o)) None None [] None) None).
  assert (Eb : o_tagging base = t /\ o_enc base = Enc 0 None (Some c) [] false /\ o_width base = None).
  { unfold base. rewrite Ec. auto. }
  destruct Eb as (E1 & E2 & E3).
  split; [destruct k; exact E1|]. split; [destruct k; exact E2|]. split; [destruct k; exact E3|].
  unfold get_native. rewrite Ec.
  assert (Ecb : contents base = Some c) by (unfold contents; now rewrite E2).
  assert (CC : forall x, snd (cached base x) = snd (cached o x)).
  { intros x. unfold cached, base. cbn [o_cache c_native]. destruct (c_native (o_cache o)); [reflexivity|]. destruct x; reflexivity. }
  destruct k as [|m|m|m| | | | | |m|en| |pad|].
  - rewrite Ecb. apply CC.
  - rewrite Ecb. apply CC.
  - rewrite Ecb. apply CC.
  - change (contents (set_unused base (c_unused (o_cache o)))) with (contents base). rewrite Ecb.
    unfold bits_native. change (c_native (o_cache (set_unused base (c_unused (o_cache o))))) with (c_native (o_cache o)).
    change (e_indef (o_enc (set_unused base (c_unused (o_cache o))))) with false. rewrite Ei.
    destruct (c_native (o_cache o)); [reflexivity|]. destruct (merged_int (KBits m) cls false c) as [[[v n] ub]|]; [|reflexivity].
    destruct (int_to_bits v n); reflexivity.
  - match goal with |- context[contents ?x] => change (contents x) with (contents base) end. rewrite Ecb, Ei.
    cbn. destruct (c_bytes (o_cache o)); [reflexivity|]. destruct (octetbits_chunk c) as [[b u]|]; reflexivity.
  - match goal with |- context[contents ?x] => change (contents x) with (contents base) end. rewrite Ecb, Ei.
    cbn. destruct (c_native (o_cache o)); [reflexivity|]. destruct (bit_chunk c) as [[[v n] ub]|]; reflexivity.
  - match goal with |- context[contents ?x] => change (contents x) with (contents base) end. rewrite Ecb, Ei.
    cbn. destruct (c_bytes (o_cache o)); reflexivity.
  - rewrite Ecb. rewrite E2, Ei. apply CC.
  - rewrite Ecb. reflexivity.
  - exfalso. eapply No. reflexivity.
  - match goal with |- context[contents ?x] => change (contents x) with (contents base) end. rewrite Ecb. unfold get_unicode.
    cbn [set_unicode with_cache o_cache c_unicode o_enc]. rewrite E2, Ei. cbn [e_indef].
    destruct (c_unicode (o_cache o)); [reflexivity|].
    destruct (do b <- merged_bytes (KStr en) cls false c; decode en b); reflexivity.
  - match goal with |- context[contents ?x] => change (contents x) with (contents base) end. rewrite Ecb. unfold time_native, get_unicode.
    cbn [set_unicode with_cache o_cache c_unicode c_native o_enc]. rewrite E2, Ei. cbn [e_indef base o_cache c_native].
    destruct (c_native (o_cache o)); [reflexivity|]. destruct (c_unicode (o_cache o)); [destruct (utctime_native _); reflexivity|].
    destruct (do b <- merged_bytes KUtcTime cls false c; decode Latin1 b); [|reflexivity]. destruct (utctime_native _); reflexivity.
  - match goal with |- context[contents ?x] => change (contents x) with (contents base) end. rewrite Ecb. unfold time_native, get_unicode.
    cbn [set_unicode with_cache o_cache c_unicode c_native o_enc]. rewrite E2, Ei. cbn [e_indef base o_cache c_native].
    destruct (c_native (o_cache o)); [reflexivity|]. destruct (c_unicode (o_cache o)); [destruct (gentime_native _); reflexivity|].
    destruct (do b <- merged_bytes (KGenTime pad) cls false c; decode Latin1 b); [|reflexivity]. destruct (gentime_native _); reflexivity.
  - destruct Hk.
Qed.

Lemma oid_octets_bytes s c : oid_octets s c -> bytes_ok c.
Proof.
  induction 1 as [|s l r c (hi & lo & -> & Hall & _) _ IH]; [constructor|]. apply bytes_ok_app. split; auto.
  apply Forall_app in Hall as [H1 H2]. apply bytes_ok_app. split.
  - apply Forall_forall. intros x Hx. apply in_map_iff in Hx as (y & <- & Hy). rewrite Forall_forall in H1.
    specialize (H1 y Hy). unfold byte_ok. lia.
  - eapply Forall_impl; [|exact H2]. intros. unfold byte_ok. cbn beta in *. lia.
Qed.

Lemma copy_settled k cls t t' v o : kind_ok k -> settled k cls t None v o ->
  exists r, copy_onto k cls t' o = Ok r /\ settled k cls t' None v r.
Proof.
  intros Hk ((Et & Ew & M & c & Ec & D & Hh & o1 & v1 & Eg & Sv & Hv & Dv) & Ei).
  assert (Fin : forall r, o_tagging r = t' -> o_enc r = Enc 0 None (Some c) [] false -> o_width r = None ->
    (exists v2, snd (get_native k cls r) = Ok v2 /\ same_value k v v2 /\ holds k None v2 /\ der_value k None v2 c) ->
    settled k cls t' None v r).
  { intros r R1 R2 R3 (v2 & G & S2 & H2 & D2). split; [|now rewrite R2]. split; [exact R1|]. split; [exact R3|].
    split; [rewrite R2; left; reflexivity|]. exists c. unfold contents. rewrite R2. split; [reflexivity|]. split; [exact D|].
    split; [left; reflexivity|]. destruct (get_native k cls r) as [o' x]. cbn in G. subst x. eauto 8. }
  destruct (match k with KOid m => true | _ => false end) eqn:Ko.
  - destruct k; try discriminate. unfold copy_onto. rewrite Ei, andb_false_r. cbn [bind]. eexists. split; [reflexivity|].
    apply Fin; [reflexivity| |reflexivity|].
    { cbn [o_enc]. now rewrite Ec. }
    destruct (c_native (o_cache o)) as [x|] eqn:Ex.
    + exists v1. split; [|auto]. unfold get_native in *. rewrite Ec in Eg. unfold contents at 1. cbn [o_enc e_contents]. rewrite Ec.
      cbn [o_cache c_native]. rewrite Ex in Eg. destruct x; try (injection Eg as _ <-; reflexivity).
      destruct (tmap_get m s); injection Eg as _ <-; reflexivity.
    + destruct (get_loaded (KOid m) cls t' (Enc 0 None (contents o) [] false) None v1 c Hk Hv Dv) as (o3 & v' & Eg' & Sv' & Hv' & Dv').
      * cbn [der_value] in Dv. destruct v1; try contradiction. destruct Dv as (arcs & La & Oa & _).
        eapply oid_octets_bytes; eauto.
      * exact Ec.
      * reflexivity.
      * exists v'. fold no_cache. rewrite Eg'. split; [reflexivity|]. split; [eapply same_value_trans; eauto|auto].
  - destruct (get_native_copy k cls o t' c Hk Ec Ei) as (r & Er & R1 & R2 & R3 & R4).
    { intros m ->. discriminate. }
    exists r. split; [exact Er|]. apply Fin; auto. rewrite R4, Eg. exists v1. auto.
Qed.

Lemma settled_run k cls t v o ops : kind_ok k -> tagging_ok t -> Forall (legal_op k None) ops -> settled k cls t None v o ->
  settled k cls t None (last_value v ops) (run k cls o ops).
Proof.
  intros Hk Ht. revert v o. induction ops as [|x ops IH]; intros v o L S0; [exact S0|].
  inversion L as [|? ? Lx Lr]; subst. destruct S0 as [C Ei]. cbn [run last_value].
  assert (E' : e_indef (o_enc (fst (step k cls o x))) = false) by (apply (step_moved k cls o x); exact Ei).
  destruct x as [|f|u]; cbn [step] in *.
  - destruct (carries_read k cls t None v o Hk C) as (o' & v' & Eg & Sv & C'). rewrite Eg in *. apply IH; auto. split; auto.
  - destruct (carries_dump k cls t None v o f Hk Ht C) as (o' & c & Ed & D & C'). rewrite Ed in *. apply IH; auto. split; auto.
  - cbn [legal_op] in Lx. destruct (kind_eq_null k) as [->|Nk].
    + destruct (carries_set_null cls t None u v o C Lx) as (o' & Es & C'). rewrite Es in *. apply IH; auto. split; auto.
    + pose proof C as (Et & Ew & M & _).
      destruct (carries_set k cls t None u o Hk Ht Et Ew M Nk Lx) as (o' & Es & C'). rewrite Es in *. apply IH; auto. split; auto.
Qed.

Lemma make_settled k cls p t v : kind_ok k -> init_tagging cls p = Ok t -> tagging_ok t -> holds k None v ->
  exists o, make k cls p v = Ok o /\ settled k cls t None v o.
Proof.
  intros Hk Hi Ht Hv.
  destruct (make_good k cls p t v Hk Hi Ht Hv) as (o & c & Em & Eo & Ew & Ec & So & Eh & D & B & o' & v' & Eg & Sv & Hv' & Dv').
  exists o. split; [exact Em|]. split.
  - split; [exact Eo|]. split; [exact Ew|]. split; [apply So|]. exists c. split; [exact Ec|]. split; [exact D|].
    split; [left; exact Eh|]. exists o', v'. auto.
  - unfold make, new_obj in Em. rewrite Hi in Em. cbn [bind] in Em.
    set (o0 := Obj t (Enc 0 None (initial_contents k) [] false) no_cache None) in *.
    destruct (set_moved k o0 v) as (_ & _ & _ & M).
    destruct v; try (injection Em as <-; reflexivity);
      (destruct (set_value k o0 _) as [o1 [[]|]]; [|discriminate]; injection Em as <-; now apply M).
Qed.

(* copy, retag and untag of an object with any history: the copy holds the same value
   under its own tagging, whatever is done with it afterwards *)
Lemma retag_history k cls p t v ops p2 t2 ops2 : kind_ok k -> init_tagging cls p = Ok t -> tagging_ok t -> holds k None v ->
  Forall (legal_op k None) ops -> init_tagging cls p2 = Ok t2 -> tagging_ok t2 -> Forall (legal_op k None) ops2 ->
  exists o, make k cls p v = Ok o /\
    (exists r, copy k cls (run k cls o ops) = Ok r /\ agrees k None t (last_value v ops) (trace k cls r ops2)) /\
    (exists r, retag k cls p2 (run k cls o ops) = Ok r /\ agrees k None t2 (last_value v ops) (trace k cls r ops2)).
Proof.
  intros Hk Hi Ht Hv L Hi2 Ht2 L2. destruct (make_settled k cls p t v Hk Hi Ht Hv) as (o & Em & S0). exists o. split; [exact Em|].
  pose proof (settled_run k cls t v o ops Hk Ht L S0) as S1. pose proof S1 as ((Et & _) & _). split.
  - unfold copy. rewrite Et. destruct (copy_settled k cls t t _ _ Hk S1) as (r & Er & Sr & _). exists r. split; [exact Er|]. now apply history_agrees.
  - unfold retag. rewrite Hi2. cbn [bind]. destruct (copy_settled k cls t t2 _ _ Hk S1) as (r & Er & Sr & _). exists r. split; [exact Er|]. now apply history_agrees.
Qed.

(* set_encoded_width in any history of an integer octet string *)
Lemma width_history cls p t z n ops : init_tagging cls p = Ok t -> tagging_ok t -> 0 <= z < 256 ^ n -> 0 <= n ->
  Forall (legal_op KIntOctets (Some n)) ops ->
  exists o o', make KIntOctets cls p (NInt z) = Ok o /\ set_width cls o n = (o', Ok tt) /\
    agrees KIntOctets (Some n) t (NInt z) (trace KIntOctets cls o' ops).
Proof.
  intros Hi Ht Hz Hn L.
  destruct (make_settled KIntOctets cls p t (NInt z) I Hi Ht) as (o & Em & C & _); [cbn; lia|].
  destruct (width_carries cls t None n z o Ht C Hn) as [W _]. destruct W as (o' & Ew & C'); [lia|].
  exists o, o'. split; [exact Em|]. split; [exact Ew|]. now apply history_agrees.
Qed.
