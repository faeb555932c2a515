(* Assigning a value to an object in any state, and reading it back. *)
Require Import Verif.Base Verif.BaseFacts Verif.IntModel Verif.IntSpec Verif.IntProofs
  Verif.ParserModel Verif.ParserSpec Verif.ParserProofs Verif.ParserFacts Verif.Text Verif.OidModel Verif.OidSpec
  Verif.OidProofs Verif.BitModel Verif.BitSpec Verif.BitProofs Verif.CodecModel Verif.CodecSpec Verif.CodecProofs
  Verif.Calendar Verif.TimeModel Verif.TimeSpec Verif.TimeProofs Verif.TimeFacts Verif.TagSpec Verif.TagProofs
  Verif.PrimModel Verif.PrimSpec Verif.PrimProofs.

(* only cached forms differ *)
Definition frame (a b : obj) : Prop :=
  o_tagging a = o_tagging b /\ o_enc a = o_enc b /\ o_width a = o_width b.

Lemma frame_refl a : frame a a.
Proof. repeat split. Qed.
Lemma frame_trans a b c : frame a b -> frame b c -> frame a c.
Proof. intros (? & ? & ?) (? & ? & ?). repeat split; congruence. Qed.
Lemma frame_native o v : frame (set_native o v) o. Proof. repeat split. Qed.
Lemma frame_bytes o v : frame (set_bytes o v) o. Proof. repeat split. Qed.
Lemma frame_unicode o v : frame (set_unicode o v) o. Proof. repeat split. Qed.
Lemma frame_unused o v : frame (set_unused o v) o. Proof. repeat split. Qed.
Lemma frame_dotted o v : frame (set_dotted o v) o. Proof. repeat split. Qed.

(* the state after a successful set of contents c *)
Definition stored (k : kind) (o : obj) (c : bytes) (o' : obj) : Prop :=
  o_tagging o' = o_tagging o /\ o_width o' = o_width o /\
  o_enc o' = match k with KNull => o_enc (set_contents o (Some c)) | _ => o_enc (store k o c) end.

Lemma store_tagging k o c : o_tagging (store k o c) = o_tagging o.
Proof. unfold store. now destruct (constructable k && e_indef (o_enc o)). Qed.
Lemma store_width k o c : o_width (store k o c) = o_width o.
Proof. unfold store. now destruct (constructable k && e_indef (o_enc o)). Qed.
Lemma store_cache k o c : o_cache (store k o c) = o_cache o.
Proof. unfold store. now destruct (constructable k && e_indef (o_enc o)). Qed.
Lemma store_contents k o c : contents (store k o c) = Some c.
Proof. unfold store, contents. now destruct (constructable k && e_indef (o_enc o)). Qed.
Lemma store_enc k a b c : o_enc a = o_enc b -> o_enc (store k a c) = o_enc (store k b c).
Proof. intros E. unfold store. rewrite E. now destruct (constructable k && e_indef (o_enc b)). Qed.

Lemma stored_store k o o1 c : k <> KNull -> frame o1 o -> stored k o c (store k o1 c).
Proof.
  intros Hk (Ht & He & Hw). split; [|split].
  - now rewrite store_tagging.
  - now rewrite store_width.
  - transitivity (o_enc (store k o c)); [now apply store_enc|]. destruct k; auto. contradiction.
Qed.

Lemma stored_frame k o c o1 o2 : stored k o c o1 -> frame o2 o1 -> stored k o c o2.
Proof. intros (A & B & C) (D & E & F). split; [congruence|split; congruence]. Qed.

Lemma stored_contents k o c o' : stored k o c o' -> contents o' = Some c.
Proof.
  intros (_ & _ & E). unfold contents. rewrite E.
  destruct k; try apply store_contents; reflexivity.
Qed.

(* what can be said of one assignment *)
Definition set_good (k : kind) (cls : pcls) (o : obj) (v : native) : Prop :=
  exists c o', set_value k o v = (o', Ok tt) /\ der_value k (o_width o) v c /\ bytes_ok c /\ stored k o c o' /\
    exists o'' v', get_native k cls o' = (o'', Ok v') /\ frame o'' o' /\
      same_value k v v' /\ holds k (o_width o) v' /\ der_value k (o_width o) v' c.

Lemma set_int_good k m cls o z v :
  k = KInt m \/ k = KEnum (Some m) ->
  set_value k o v = set_int k m o z ->
  int_native m z = v -> holds k (o_width o) v ->
  (forall c, der_int z c -> der_value k (o_width o) v c) -> set_good k cls o v.
Proof.
  intros Hk Hs Hn Hh Hd. destruct (der_int_encode z) as (c & E & D).
  unfold set_int in Hs. rewrite E, Hn in Hs.
  exists c, (store k (set_native o (Some v)) c). split; [exact Hs|]. split; [now apply Hd|].
  split; [apply D|]. split; [apply stored_store; [now destruct Hk; subst|apply frame_native]|].
  assert (G : get_native k cls (store k (set_native o (Some v)) c) = (store k (set_native o (Some v)) c, Ok v)).
  { unfold get_native. rewrite store_contents. destruct Hk as [-> | ->]; unfold cached; rewrite store_cache; reflexivity. }
  exists (store k (set_native o (Some v)) c), v. split; [exact G|]. split; [apply frame_refl|].
  split; [|auto]. rewrite <- Hn. unfold int_native. now destruct (map_get m z).
Qed.

(* kinds whose set caches the value given and whose native returns it *)
Lemma set_good_cached k cls o v c o' :
  set_value k o v = (o', Ok tt) -> der_value k (o_width o) v c -> bytes_ok c -> stored k o c o' ->
  holds k (o_width o) v -> get_native k cls o' = (o', Ok v) -> same_value k v v -> set_good k cls o v.
Proof.
  intros. exists c, o'. split; auto. split; auto. split; auto. split; auto.
  exists o', v. split; auto. split; [apply frame_refl|]. auto.
Qed.

Lemma set_bits_ok k m o o1 bits c : k = KBits m -> frame o1 o -> bitstring_encode (size_of m) bits = Ok c ->
  exists o', set_bits k m o1 bits = (o', Ok tt) /\ stored k o c o' /\ c_native (o_cache o') = c_native (o_cache o1).
Proof.
  intros -> F E. unfold set_bits. rewrite E. eexists. split; [reflexivity|]. split.
  - apply stored_store; [discriminate|]. eapply frame_trans; [apply frame_unused|]. auto.
  - rewrite store_cache. reflexivity.
Qed.

Lemma set_text_good k e cls o s : k = KStr e -> text_ok s -> Forall (representable e) s -> set_good k cls o (NText s).
Proof.
  intros -> T R. destruct (codec_roundtrip e s T) as [H _]. destruct (H R) as (c & E & B & D).
  eapply set_good_cached with (c := c).
  - cbn [set_value]. unfold set_text. rewrite E. reflexivity.
  - exact E.
  - exact B.
  - apply stored_store; [discriminate|]. apply frame_unicode.
  - cbn. auto.
  - unfold get_native. rewrite store_contents. unfold get_unicode. rewrite store_cache. reflexivity.
  - reflexivity.
Qed.

Lemma set_time_good k cls o x s v' f :
  (k = KUtcTime /\ f = utctime_native) \/ (exists pad, k = KGenTime pad /\ f = gentime_native) ->
  set_value k o (NTime x) = set_time k o s ->
  Forall (fun c => 0 <= c < 128) s -> f s = Ok v' ->
  der_value k (o_width o) (NTime x) s ->
  same_value k (NTime x) (NTime v') -> holds k (o_width o) (NTime v') -> der_value k (o_width o) (NTime v') s ->
  set_good k cls o (NTime x).
Proof.
  intros Hk Hs Ha Hf Hd Hsame Hh Hd'. destruct (encode_latin1 s Ha) as (E & B & _).
  unfold set_time, set_text in Hs. rewrite E in Hs. cbn in Hs.
  set (o' := set_native (store k (set_unicode o (Some s)) s) None) in *.
  exists s, o'. split; [exact Hs|]. split; [exact Hd|]. split; [exact B|].
  assert (St : stored k o s o').
  { eapply stored_frame; [|apply frame_native]. apply stored_store; [|apply frame_unicode].
    destruct Hk as [[-> _]|(p & -> & _)]; discriminate. }
  split; [exact St|].
  exists (set_native o' (Some (NTime v'))), (NTime v').
  split; [|split; [apply frame_native|auto]].
  unfold get_native. rewrite (stored_contents _ _ _ _ St).
  assert (U : time_native k cls o' s f = (set_native o' (Some (NTime v')), Ok (NTime v'))).
  { unfold time_native, get_unicode.
    assert (Cn : c_native (o_cache o') = None) by reflexivity. rewrite Cn.
    assert (Cu : c_unicode (o_cache o') = Some s).
    { unfold o', set_native. cbn [o_cache with_cache c_unicode]. rewrite store_cache. reflexivity. }
    rewrite Cu, Hf. reflexivity. }
  destruct Hk as [[-> ->]|(p & -> & ->)]; exact U.
Qed.

Lemma set_ok k cls o v : kind_ok k -> holds k (o_width o) v -> set_good k cls o v.
Proof.
  intros Hk Hv. destruct k as [|m|m|m| | | | | |m|e| |pad|].
  - (* Boolean *) destruct v; cbn [holds] in Hv; try contradiction. eapply set_good_cached.
    + reflexivity.
    + reflexivity.
    + destruct b; repeat constructor; unfold byte_ok; lia.
    + apply stored_store; [discriminate|apply frame_native].
    + exact Hv.
    + unfold get_native. rewrite store_contents. unfold cached. rewrite store_cache. reflexivity.
    + reflexivity.
  - (* Integer *) destruct Hk as [N1 N2]. destruct v as [| |z|s| | | |]; cbn [holds] in Hv; try contradiction.
    + apply (set_int_good _ m cls o z); auto.
      * unfold int_native. now rewrite (map_get_none m z Hv).
    + destruct (rev_get_some m s Hv) as (z & E). apply (set_int_good _ m cls o z); auto.
      * destruct m as [|p m']; [destruct Hv|]. cbn [set_value]. rewrite E. reflexivity.
      * unfold int_native. apply rev_get_sound in E. apply map_get_in in E; auto. now rewrite E.
      * intros c D. exists z. split; auto. now apply rev_get_sound.
  - (* Enumerated *) destruct m as [m|]; [|destruct v; contradiction]. destruct Hk as [N1 N2].
    destruct v as [| | |s| | | |]; cbn [holds] in Hv; try contradiction.
    destruct (rev_get_some m s Hv) as (z & E). apply (set_int_good _ m cls o z); auto.
    + cbn [set_value]. now rewrite E.
    + unfold int_native. apply rev_get_sound in E. apply map_get_in in E; auto. now rewrite E.
    + intros c D. exists z. split; auto. now apply rev_get_sound.
  - (* BitString *) destruct m as [m|].
    + destruct Hk as [N P]. destruct v as [| | | | | |s|]; cbn [holds] in Hv; try contradiction.
      destruct (named_set_encode m s N P) as (c & E & B & D).
      destruct (set_bits_ok (KBits (Some m)) (Some m) o (set_native o (Some (NSet s))) (bits_of_set m s) c) as (o' & Es & St & Cn);
        auto; [apply frame_native|].
      eapply set_good_cached; eauto.
      * unfold get_native. rewrite (stored_contents _ _ _ _ St). unfold bits_native. rewrite Cn. reflexivity.
      * intros x. tauto.
    + destruct v as [| | | | |l| |]; cbn [holds] in Hv; try contradiction.
      destruct (bitstring_roundtrip l) as (c & E & B & D & _).
      destruct (set_bits_ok (KBits None) None o (set_native o (Some (NBits l))) l c) as (o' & Es & St & Cn);
        auto; [apply frame_native|].
      eapply set_good_cached; eauto.
      * unfold get_native. rewrite (stored_contents _ _ _ _ St). unfold bits_native. rewrite Cn. reflexivity.
      * reflexivity.
  - (* OctetBitString *) destruct v as [| | | |b| | |]; cbn [holds] in Hv; try contradiction. eapply set_good_cached.
    + reflexivity.
    + apply der_bits_octets. exact Hv.
    + apply bytes_ok_cons. split; [unfold byte_ok; lia|exact Hv].
    + apply stored_store; [discriminate|]. eapply frame_trans; [apply frame_unused|apply frame_bytes].
    + exact Hv.
    + unfold get_native. rewrite store_contents, store_cache. reflexivity.
    + reflexivity.
  - (* IntegerBitString *) destruct v as [| |z| | | | |]; cbn [holds] in Hv; try contradiction.
    destruct (der_int_encode z) as (b & E & D). eapply set_good_cached with (c := 0 :: b).
    + cbn [set_value as_int]. unfold intbits_encode. rewrite E.
      replace (z <? 0) with false by lia. cbn [bind]. reflexivity.
    + exists b. auto.
    + apply bytes_ok_cons. split; [unfold byte_ok; lia|apply D].
    + apply stored_store; [discriminate|]. eapply frame_trans; [apply frame_unused|apply frame_native].
    + exact Hv.
    + unfold get_native. rewrite store_contents, store_cache. reflexivity.
    + reflexivity.
  - (* OctetString *) destruct v as [| | | |b| | |]; cbn [holds] in Hv; try contradiction. eapply set_good_cached.
    + reflexivity.
    + reflexivity.
    + exact Hv.
    + apply stored_store; [discriminate|]. apply frame_bytes.
    + exact Hv.
    + unfold get_native. rewrite store_contents, store_cache. reflexivity.
    + reflexivity.
  - (* IntegerOctetString *) destruct v as [| |z| | | | |]; cbn [holds] in Hv; try contradiction. destruct Hv as [Hz Hw].
    assert (G : exists c, intoctets_encode (o_width o) z = Ok c /\ der_value KIntOctets (o_width o) (NInt z) c /\ bytes_ok c).
    { unfold intoctets_encode. replace (z <? 0) with false by lia. destruct (o_width o) as [n|]; cbn [der_value].
      - destruct (int_to_bytes_width z n Hz) as [H _]; [lia|]. destruct (H (proj2 Hw)) as (c & E & B & L & V).
        exists c. repeat split; auto.
      - destruct (der_nat_encode z Hz) as (c & E & D). exists c. split; auto. split; auto. apply D. }
    destruct G as (c & E & D & B). eapply set_good_cached with (c := c).
    + cbn [set_value as_int]. replace (z <? 0) with false by lia. cbn zeta.
      change (o_width (set_native o (Some (NInt z)))) with (o_width o). rewrite E. reflexivity.
    + exact D.
    + exact B.
    + apply stored_store; [discriminate|]. apply frame_native.
    + cbn. auto.
    + unfold get_native. rewrite store_contents. unfold cached. rewrite store_cache. reflexivity.
    + reflexivity.
  - (* Null *) destruct v; cbn [holds] in Hv; try contradiction. eapply set_good_cached with (c := []).
    + reflexivity.
    + reflexivity.
    + constructor.
    + repeat split.
    + exact Hv.
    + reflexivity.
    + reflexivity.
  - (* ObjectIdentifier *) destruct Hk as (N1 & N2 & N3). destruct v as [| | |s| | | |]; cbn [holds] in Hv; try contradiction.
    assert (G : exists arcs c, legal_oid arcs /\ (In (dotted_text arcs, s) m \/ (s = dotted_text arcs /\ ~ In s (map snd m))) /\
      ~ In s (map fst m) /\
      (match tmap_rev m s with Some d => d | None => s end) = dotted_text arcs /\
      oid_encode (dotted_text arcs) = Ok c /\ oid_octets (subidentifiers arcs) c).
    { destruct Hv as [(arcs & L & I)|(arcs & L & E & F1 & F2)].
      - destruct (oid_roundtrip arcs L) as (c & Ec & Oc & _). exists arcs, c.
        assert (I2 : In s (map snd m)) by (apply in_map_iff; exists (dotted_text arcs, s); auto).
        split; auto. split; auto. split; [now apply N3|]. split; auto.
        destruct (tmap_rev_some m s I2) as (d & E). rewrite E. apply tmap_rev_sound in E.
        exact (nodup_snd m _ _ _ N2 E I).
      - destruct (oid_roundtrip arcs L) as (c & Ec & Oc & _). exists arcs, c.
        split; auto. split; auto. split; auto. split; auto. now rewrite (tmap_rev_none m s F2). }
    destruct G as (arcs & c & L & I & F & Er & Ec & Oc).
    assert (Bc : bytes_ok c).
    { clear - Oc. revert Oc. generalize (subidentifiers arcs). induction 1 as [|a l r c H Oc IH]; [constructor|].
      apply bytes_ok_app. split; auto. destruct H as (hi & lo & -> & H1 & _).
      apply Forall_app in H1 as [H1 H2]. apply bytes_ok_app. split.
      - apply Forall_map. eapply Forall_impl; [|exact H1]. intros a0 Ha. unfold byte_ok. cbn in *. lia.
      - apply Forall_inv in H2. apply bytes_ok_cons. split; [unfold byte_ok; lia|constructor]. }
    unfold oid_encode in Ec. destruct (oid_set_parts (dotted_text arcs)) as [c' [e|]] eqn:Ep; [discriminate|].
    injection Ec as ->.
    eapply set_good_cached with (c := c).
    + cbn [set_value]. rewrite Er, Ep. reflexivity.
    + exists arcs. auto.
    + exact Bc.
    + apply stored_store; [discriminate|]. apply frame_native.
    + exact Hv.
    + unfold get_native. rewrite store_contents, store_cache. cbn [o_cache set_native with_cache c_native].
      now rewrite (tmap_get_none m s F).
    + reflexivity.
  - (* strings *) destruct v as [| | |s| | | |]; cbn [holds] in Hv; try contradiction. destruct Hv.
    eapply set_text_good; eauto.
  - (* UTCTime *) destruct v as [| | | | | | |x]; cbn [holds] in Hv; try contradiction. destruct Hv as (D & Y & t & I & R).
    destruct (utctime_exact x t D Y I R) as [E F]. destruct (utc_read_back t R) as (B1 & B2 & B3 & B4).
    eapply set_time_good with (v' := DT (whole (fields_of t)) (Some 0)) (f := utctime_native); [left; auto| | |exact F| | | |].
    + cbn [set_value]. destruct (Z.eqb_spec (d_year x) 0); [lia|]. rewrite E. reflexivity.
    + apply utc_ascii.
    + exists t. split; auto. apply strftime_utc_text.
    + cbn [same_value]. exists t, (t - t mod 1000000). split; auto. split; auto. lia.
    + cbn [holds]. split; auto. split; auto. exists (t - t mod 1000000). split; auto.
      unfold utc_year in *. rewrite B4. exact R.
    + exists (t - t mod 1000000). split; auto. rewrite B4, <- utc_text_whole. apply strftime_utc_text.
  - (* GeneralizedTime *) destruct v as [| | | | | | |x]; cbn [holds] in Hv; try contradiction.
    destruct Hv as (D & t & I & R0 & R1 & RP).
    destruct (gentime_exact pad x t D I R0 R1 RP) as (E & F & R). destruct (gen_read_back t R) as (B1 & B2 & B3).
    assert (T : gen_text (fields_of t) (gen_string (fields_of t))).
    { apply gen_string_text; [apply us_of_fields|exact R]. }
    eapply set_time_good with (v' := DT (fields_of t) (Some 0)) (f := gentime_native); [right; eauto| | |exact F| | | |].
    + cbn [set_value]. rewrite E. reflexivity.
    + eapply gen_ascii; eauto.
    + exists t. auto.
    + cbn [same_value]. exists t, t. auto.
    + cbn [holds]. split; auto. exists t. split; auto. rewrite B3. split; [lia|]. split; [lia|auto].
    + exists t. auto.
  - destruct Hk.
Qed.
