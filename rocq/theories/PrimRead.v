(* Reading contents in any accepted form, and what a forced dump makes of them. *)
Require Import Verif.Base Verif.BaseFacts Verif.IntModel Verif.IntSpec Verif.IntProofs
  Verif.ParserModel Verif.ParserSpec Verif.ParserProofs Verif.ParserFacts Verif.Text Verif.OidModel Verif.OidSpec
  Verif.OidProofs Verif.BitModel Verif.BitSpec Verif.BitProofs Verif.CodecModel Verif.CodecSpec Verif.CodecProofs
  Verif.Calendar Verif.TimeModel Verif.TimeSpec Verif.TimeProofs Verif.TimeFacts Verif.TagSpec Verif.TagProofs
  Verif.PrimModel Verif.PrimSpec Verif.PrimProofs Verif.PrimSet Verif.PrimDump Verif.PrimLoad Verif.HistSpec Verif.PrimHist
  Verif.ChunkSpec Verif.ChunkProofs.

(* ---- the octets an object is built from ---- *)
Lemma peel_contents ex : forall i P T j P' T', bytes_ok (i_contents i) ->
  peel ex i P T = Ok (j, P', T') -> bytes_ok (i_contents j).
Proof.
  induction ex as [|[c t] ex IH]; intros i P T j P' T' Bi H; cbn [peel] in H.
  - injection H as <- <- <-. exact Bi.
  - destruct (negb (i_class i =? c)); [discriminate|]. destruct (negb (i_method i =? 1)); [discriminate|].
    destruct (negb (i_tag i =? t)); [discriminate|].
    destruct (parse_ (i_contents i) (len (i_contents i)) 0) as [[j' e]|] eqn:E; [|discriminate]. cbn [bind] in H.
    apply parse_method in E as [M B]; auto. apply (IH j' _ _ _ _ _ B) in H; auto.
Qed.

Lemma build_plain_contents k cls p i o : build_plain k cls p i = Ok o ->
  contents o = Some (i_contents i) /\ o_cache o = no_cache /\ o_width o = None.
Proof.
  intros H. unfold build_plain in H. destruct (init_tagging cls p) as [t|]; [|discriminate]. cbn [bind] in H.
  destruct (negb (i_class i =? t_class t)); [discriminate|]. destruct (negb (i_method i =? 0) && _); [discriminate|].
  destruct (negb (i_tag i =? t_tag t) && _); [discriminate|]. injection H as <-. auto.
Qed.

Lemma build_contents k cls p i o : bytes_ok (i_contents i) -> build k cls p i = Ok o ->
  exists b, contents o = Some b /\ bytes_ok b /\ o_cache o = no_cache /\ o_width o = None.
Proof.
  intros B H. unfold build in H. destruct (has_explicit cls p).
  - destruct (init_tagging cls p) as [t|]; [|discriminate]. cbn [bind] in H.
    destruct (peel (rev (t_explicit t)) i (i_header i) (i_trailer i)) as [[[j P'] T']|] eqn:Ep; [|discriminate]. cbn [bind] in H.
    apply peel_contents in Ep; auto.
    destruct (build_plain k cls (Params [] None true) j) as [o'|] eqn:Eb; [|discriminate]. cbn [bind] in H.
    apply build_plain_contents in Eb as (E1 & E2 & E3). injection H as <-. exists (i_contents j). auto.
  - apply build_plain_contents in H as (E1 & E2 & E3). exists (i_contents i). auto.
Qed.

Lemma load_fresh k cls p d s o : bytes_ok d -> load k cls p d s = Ok o ->
  exists b, contents o = Some b /\ bytes_ok b /\ o_cache o = no_cache /\ o_width o = None.
Proof.
  intros B H. unfold load in H. destruct (parse_ d (len d) 0) as [[i e]|] eqn:E; [|discriminate]. cbn [bind] in H.
  destruct (s && negb (e =? len d)); [discriminate|]. apply parse_method in E as [M Bi]; auto.
  eapply build_contents; eauto.
Qed.

(* ---- merged values are in range ---- *)
Section MergeAll.
  Variable X : Type.
  Variable P : X -> Prop.
  Variable as_chunk : bool -> bytes -> res (list X).
  Variable k : kind.
  Variable cls : pcls.
  Hypothesis Ha : forall b c r, bytes_ok c -> as_chunk b c = Ok r -> Forall P r.

  Lemma merge_all f : forall ind cont r, bytes_ok cont -> merge X as_chunk k cls f ind cont = Ok r -> Forall P r.
  Proof.
    induction f as [|f IH]; intros ind cont r B H; [discriminate|]. cbn [merge] in H.
    destruct ind; [|eapply Ha; eauto].
    enough (G : forall m pre rest acc r, bytes_ok (pre ++ rest) -> (match acc with Some a => Forall P a | None => True end) ->
      merge_loop X as_chunk k cls m (merge X as_chunk k cls f) (pre ++ rest) (len pre) acc = Ok r -> Forall P r).
    { eapply (G _ [] cont None r B I). exact H. }
    clear cont r B H. induction m as [|m IHm]; intros pre rest acc r B Hacc H; [discriminate|]. cbn [merge_loop] in H.
    destruct (Z.ltb_spec (len pre) (len (pre ++ rest))) as [Hl|Hl].
    - apply bind_ok in H as ([o p'] & Hp & H). apply bind_ok in H as (x & Hr & H).
      unfold parse_build in Hp. apply bind_ok in Hp as ([i e] & Hi & Hp). apply bind_ok in Hp as (o' & Hb & Hp).
      injection Hp as -> ->. apply parse_sound in Hi as (Bi & (rest' & Er) & ->); auto. subst rest.
      assert (Bc : bytes_ok (i_contents i)).
      { apply bytes_ok_app in B as [_ B]. eapply contents_bytes; [exact B|reflexivity]. }
      apply build_contents in Hb as (b & Eb & Bb & _); auto. rewrite Eb in Hr. apply IH in Hr; auto.
      rewrite <- len_app, app_assoc in H.
      apply IHm in H; [exact H| now rewrite <- app_assoc |]. destruct acc; auto. apply Forall_app; auto.
    - destruct acc as [a|]; [injection H as <-; exact Hacc|]. eapply Ha; eauto.
  Qed.
End MergeAll.

Lemma merged_bytes_ok k cls ind cont b : bytes_ok cont -> merged_bytes k cls ind cont = Ok b -> bytes_ok b.
Proof.
  intros B H. eapply (merge_all Z byte_ok bytes_chunk k cls); [|exact B|exact H].
  intros ? c r Bc Q. unfold bytes_chunk in Q. now injection Q as <-.
Qed.

Lemma bit_chunk_nonneg c v n ub : bytes_ok c -> bit_chunk c = Ok (v, n, ub) -> 0 <= v.
Proof.
  intros B H. unfold bit_chunk in H. destruct c as [|u body]; [discriminate|]. apply bytes_ok_cons in B as [_ B].
  rewrite int_from_bytes_unsigned in H. pose proof (be_value_bound body B).
  destruct (u =? 0); [injection H as <- _ _; lia|]. destruct (len (u :: body) =? 1); [discriminate|]. destruct (7 <? u); [discriminate|].
  destruct (int_to_bits _ u); [|discriminate]. cbn [bind] in H. injection H as <- _ _. apply Z.shiftr_nonneg. lia.
Qed.

Lemma chunks_int_nonneg l : forall v n u v' n' u', Forall (fun z : Z * Z * list bool => 0 <= fst (fst z)) l -> 0 <= v ->
  chunks_int l v n u = Ok (v', n', u') -> 0 <= v'.
Proof.
  induction l as [|[[c b] ub] l IH]; intros v n u v' n' u' F Hv H; cbn [chunks_int] in H.
  - injection H as <- _ _. exact Hv.
  - inversion F as [|? ? F1 F2]; subst. destruct (negb (Z.land n 7 =? 0)); [discriminate|].
    eapply IH; [exact F2| |exact H]. cbn in F1. apply Z.lor_nonneg. split; [|lia]. now apply Z.shiftl_nonneg.
Qed.

Lemma merged_int_nonneg k cls ind cont v n ub : bytes_ok cont -> merged_int k cls ind cont = Ok (v, n, ub) -> 0 <= v.
Proof.
  intros B H. unfold merged_int in H. destruct ind; [|eapply bit_chunk_nonneg; eauto].
  apply bind_ok in H as (l & Hl & H). eapply chunks_int_nonneg; [|reflexivity|exact H].
  eapply (merge_all _ (fun z : Z * Z * list bool => 0 <= fst (fst z)) int_chunk k cls); [|exact B|exact Hl].
  intros b c r Bc Q. unfold int_chunk in Q. destruct b; [injection Q as <-; constructor|].
  apply bind_ok in Q as ([[v' n'] u'] & Q1 & Q2). injection Q2 as <-. constructor; [|constructor].
  cbn. eapply bit_chunk_nonneg; eauto.
Qed.

Lemma octetbits_chunk_bytes c b ub : bytes_ok c -> octetbits_chunk c = Ok (b, ub) -> bytes_ok b.
Proof.
  intros B H. destruct c as [|u body]; [discriminate|]. pose proof B as B'. apply bytes_ok_cons in B' as [Hu Hb]. unfold byte_ok in Hu.
  destruct (Z.eq_dec u 0) as [->|N]; [unfold octetbits_chunk in H; change (0 =? 0) with true in H; congruence|].
  destruct (Z.lt_ge_cases 7 u).
  - unfold octetbits_chunk in H. destruct (Z.eqb_spec u 0); [lia|]. destruct (len (u :: body) =? 1); [discriminate|].
    destruct (Z.ltb_spec 7 u); [discriminate|lia].
  - destruct body as [|y r].
    + unfold octetbits_chunk in H. destruct (Z.eqb_spec u 0); [lia|]. discriminate.
    + destruct (octetbits_chunk_ok u (y :: r) Hb ltac:(lia) ltac:(discriminate)) as (b' & a & ub' & E & Bb & _).
      rewrite E in H. injection H as <- _. exact Bb.
Qed.

Lemma merged_octets_ok k cls ind cont b u : bytes_ok cont -> merged_octets k cls ind cont = Ok (b, u) -> bytes_ok b.
Proof.
  intros B H. unfold merged_octets in H. destruct ind; [|eapply octetbits_chunk_bytes; eauto].
  apply bind_ok in H as (l & Hl & H). apply bind_ok in H as (u' & _ & H). injection H as <- <-.
  assert (F : Forall (fun z : bytes * list bool => bytes_ok (fst z)) l).
  { eapply (merge_all _ _ octet_chunk k cls); [|exact B|exact Hl].
    intros ? c r Bc Q. unfold octet_chunk in Q. apply bind_ok in Q as ([b' ub'] & Q1 & Q2). injection Q2 as <-.
    constructor; [|constructor]. cbn. eapply octetbits_chunk_bytes; eauto. }
  clear Hl. induction F; cbn; [constructor|]. apply bytes_ok_app. auto.
Qed.

Lemma decode_holds e b s : bytes_ok b -> decode e b = Ok s -> text_ok s /\ Forall (representable e) s /\ encode e s = Ok b.
Proof.
  intros B H. destruct (codec_decode_canonical e b B) as [Q|(s' & Q & T & E)]; [congruence|].
  rewrite H in Q. injection Q as <-. split; auto. split; auto.
  assert (Dec : Forall (representable e) s \/ ~ Forall (representable e) s).
  { clear. induction s as [|c s IH]; [left; constructor|]. destruct (representable_dec e c) as [R|R], IH as [F|F];
      try (right; intros Q; inversion Q; contradiction). left. constructor; auto. }
  destruct Dec as [F|F]; auto. apply (codec_roundtrip e s T) in F. congruence.
Qed.

(* kinds whose every readable value is a value of the class *)
Definition complete_kind (k : kind) : bool :=
  match k with
  | KBool | KInt _ | KEnum (Some _) | KBits None | KOctetBits | KIntBits | KOctets | KIntOctets | KNull | KStr _ => true
  | _ => false
  end.

Lemma read_holds k cls t e c o v : kind_ok k -> complete_kind k = true -> bytes_ok c -> e_contents e = Some c ->
  get_native k cls (Obj t e no_cache None) = (o, Ok v) -> holds k None v.
Proof.
  intros Hk Hc B He H. unfold get_native, contents in H. cbn [o_enc] in H. rewrite He in H.
  assert (IN : forall m z, NoDup (map fst m) -> NoDup (map snd m) -> holds (KInt m) None (int_native m z)).
  { intros m z N1 N2. unfold int_native. destruct (map_get m z) as [s|] eqn:E; cbn [holds].
    - apply map_get_in in E; auto. apply in_map_iff. exists (z, s). auto.
    - now apply map_get_none_iff. }
  destruct k as [|m|m|m| | | | | |m|en| |pad|]; try discriminate Hc; unfold cached in H; cbn [o_cache no_cache c_native c_bytes] in H.
  - injection H as _ <-. exact I.
  - injection H as _ <-. destruct Hk. apply IN; auto.
  - destruct m as [m|]; [|discriminate]. destruct (map_get m (int_from_bytes c true)) as [s|] eqn:E; [|discriminate].
    injection H as _ <-. destruct Hk. apply map_get_in in E; auto. cbn [holds]. apply in_map_iff. eexists. split; [|exact E]. reflexivity.
  - destruct m; [discriminate|]. unfold bits_native in H. cbn [o_cache no_cache c_native o_enc] in H.
    destruct (merged_int (KBits None) cls (e_indef e) c) as [[[bv n] ub]|]; [|discriminate].
    destruct (int_to_bits bv n); [|discriminate]. injection H as _ <-. exact I.
  - destruct (merged_octets KOctetBits cls (e_indef e) c) as [[b u]|] eqn:E; [|discriminate]. injection H as _ <-.
    cbn [holds]. eapply merged_octets_ok; eauto.
  - destruct (merged_int KIntBits cls (e_indef e) c) as [[[bv n] ub]|] eqn:E; [|discriminate]. injection H as _ <-.
    cbn [holds]. eapply merged_int_nonneg; eauto.
  - destruct (merged_bytes KOctets cls (e_indef e) c) as [b|] eqn:E; [|discriminate]. injection H as _ <-.
    cbn [holds]. eapply merged_bytes_ok; eauto.
  - destruct (merged_bytes KIntOctets cls (e_indef e) c) as [b|] eqn:E; [|discriminate]. cbn [bind] in H. injection H as _ <-.
    cbn [holds]. split; auto. unfold intoctets_decode. rewrite int_from_bytes_unsigned.
    apply be_value_bound. eapply merged_bytes_ok; eauto.
  - injection H as _ <-. exact I.
  - unfold get_unicode in H. cbn [o_cache no_cache c_unicode o_enc] in H.
    destruct (merged_bytes (KStr en) cls (e_indef e) c) as [b|] eqn:E; [|discriminate]. cbn [bind] in H.
    destruct (decode en b) as [s|] eqn:Ed; [|discriminate]. injection H as _ <-. cbn [holds].
    apply merged_bytes_ok in E; auto. destruct (decode_holds en b s E Ed) as (T & R & _). auto.
Qed.

(* equal values have equal encodings *)
Lemma der_value_same k w v v' c : same_value k v v' -> der_value k w v c -> der_value k w v' c.
Proof.
  intros S D. destruct v, v'; cbn [same_value] in S; try discriminate S; try exact D; try (injection S as <-; exact D).
  - destruct k as [|m|m|m| | | | | |m|e| |pad|]; try match type of m with option _ => destruct m as [m|] end;
      cbn [der_value] in *; try contradiction.
    destruct D as (bs & D & N & E). exists bs. split; auto. split; auto. intros i. rewrite E.
    split; intros (n & A & B); exists n; split; auto; now apply S.
  - destruct S as (t & t' & I & I' & E). destruct k as [|m|m|m| | | | | |m|e| |pad|];
      try match type of m with option _ => destruct m as [m|] end; cbn [der_value] in *; try contradiction.
    + destruct D as (u & Iu & D). rewrite I in Iu. injection Iu as <-. exists t'. split; auto.
      unfold utc_text in *. rewrite D.
      assert (W : forall a, dd (f_year (fields_of a) mod 100) ++ time_text (fields_of a) ++ [90] =
                            dd (f_year (fields_of (a - a mod 1000000)) mod 100) ++ time_text (fields_of (a - a mod 1000000)) ++ [90]).
      { intros a. destruct (us_of_fields a) as [V Ea].
        assert (Ew : us_of (whole (fields_of a)) = a - a mod 1000000).
        { rewrite (us_whole (fields_of a)) in Ea. pose proof (valid_fields_bounds _ V).
          assert (us_of (whole (fields_of a)) mod 1000000 = 0) by (unfold us_of, whole, us_per_day; cbn; lia). lia. }
        rewrite <- Ew, fields_of_us by (now apply valid_whole). reflexivity. }
      rewrite (W t), (W t'), E. reflexivity.
    + destruct D as (u & Iu & D). rewrite I in Iu. injection Iu as <-. exists t'. split; auto. now rewrite <- E.
Qed.

(* C23 *)
Lemma forced_canonical k cls p t d s o o1 v : kind_ok k -> k <> KNull -> bytes_ok d ->
  init_tagging cls p = Ok t -> tagging_ok t -> load k cls p d s = Ok o -> o_tagging o = t ->
  get_native k cls o = (o1, Ok v) -> holds k None v ->
  exists c d', snd (dump k cls o true) = Ok d' /\ der_value k None v c /\
    (len d' < 2 ^ 1008 -> der_object t c d' /\
      (tags_compatible cls p -> exists o2 v2, load k cls p d' true = Ok o2 /\ snd (get_native k cls o2) = Ok v2 /\ same_value k v v2 /\
        snd (dump k cls o2 true) = Ok d')).
Proof.
  intros Hk Nk B Hi Ht Hl Eo Hg Hh. destruct (load_fresh k cls p d s o B Hl) as (b & Ec & Bb & En & Ew).
  pose proof (load_meth k cls p d s o B Hl) as M.
  assert (So : state_ok k o) by (split; [now rewrite Eo|]; split; [exact M|contradiction]).
  rewrite <- Ew in Hh.
  destruct (forced_dump k cls o b o1 v true Hk So Ec eq_refl Hg Hh) as (c & o2 & Ed & D & Bc & _). rewrite Ew, Eo in *.
  exists c, (object_bytes t c). rewrite Ed. split; [reflexivity|]. split; [exact D|]. intros L.
  pose proof (object_bytes_der t c Ht L) as Dd. split; [exact Dd|]. intros Tc.
  destruct (load_own k cls p t c _ true Hi Tc Dd) as (h & El & Eh).
  destruct (get_loaded k cls t (Enc 0 (Some h) (Some c) [] false) None v c Hk Hh D Bc eq_refl eq_refl) as (o3 & v' & Eg & Sv & Hv & Dv).
  exists (loaded t h c [] 0 false), v'. split; [exact El|]. fold (loaded t h c [] 0 false) in Eg. rewrite Eg. cbn [snd].
  split; [reflexivity|]. split; [exact Sv|].
  assert (Sl : state_ok k (loaded t h c [] 0 false)) by (split; [exact Ht|]; split; [left; reflexivity|contradiction]).
  destruct (forced_dump k cls (loaded t h c [] 0 false) c o3 v' true Hk Sl eq_refl eq_refl Eg Hv) as (c' & o4 & Ed4 & Dc & _).
  rewrite Ed4. cbn [snd]. now rewrite (der_value_unique k None v' c c' Hk Dv Dc).
Qed.
