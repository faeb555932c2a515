(* Reading, dumping, force-dumping and loading objects. *)
Require Import Verif.Base Verif.BaseFacts Verif.IntModel Verif.IntSpec Verif.IntProofs
  Verif.ParserModel Verif.ParserSpec Verif.ParserProofs Verif.ParserFacts Verif.Text Verif.OidModel Verif.OidSpec
  Verif.OidProofs Verif.BitModel Verif.BitSpec Verif.BitProofs Verif.CodecModel Verif.CodecSpec Verif.CodecProofs
  Verif.Calendar Verif.TimeModel Verif.TimeSpec Verif.TimeProofs Verif.TimeFacts Verif.TagSpec Verif.TagProofs
  Verif.PrimModel Verif.PrimSpec Verif.PrimProofs Verif.PrimSet.

(* ---- one value, one encoding ---- *)
Lemma der_enum_unique (m : list (Z * text)) s a b : NoDup (map snd m) ->
  (exists z, In (z, s) m /\ der_int z a) -> (exists z, In (z, s) m /\ der_int z b) -> a = b.
Proof.
  intros N (z & I & H) (z' & I' & K). rewrite (nodup_snd m _ _ _ N I' I) in K. eapply der_int_unique; eauto.
Qed.

Lemma der_value_unique k w v a b : kind_ok k -> der_value k w v a -> der_value k w v b -> a = b.
Proof.
  intros Hk H K. destruct k as [|m|m|m| | | | | |m|e| |pad|].
  - destruct v; cbn [der_value] in *; try contradiction. congruence.
  - destruct v; cbn [der_value] in *; try contradiction.
    + eapply der_int_unique; eauto.
    + destruct Hk. eapply der_enum_unique; eauto.
  - destruct m as [m|]; destruct v; cbn [der_value] in *; try contradiction.
    destruct Hk. eapply der_enum_unique; eauto.
  - destruct m as [m|]; destruct v; cbn [der_value] in *; try contradiction.
    + destruct H as (bs & D & N & E), K as (bs' & D' & N' & E').
      rewrite (named_bits_unique bs bs') in D; auto; [eapply der_bits_unique; eauto|].
      intros i. rewrite E, E'. tauto.
    + eapply der_bits_unique; eauto.
  - destruct v; cbn [der_value] in *; try contradiction. eapply der_bits_unique; eauto.
  - destruct v; cbn [der_value] in *; try contradiction. destruct H as (x & -> & H), K as (y & -> & K).
    f_equal. eapply der_int_unique; eauto.
  - destruct v; cbn [der_value] in *; try contradiction. congruence.
  - destruct v; cbn [der_value] in *; try contradiction. destruct w as [n|].
    + destruct H as (B & L & V), K as (B' & L' & V'). apply be_value_inj; auto; [unfold len in *; lia|congruence].
    + eapply der_nat_unique; eauto.
  - destruct v; cbn [der_value] in *; try contradiction. congruence.
  - destruct v as [| | |s| | | |]; cbn [der_value] in *; try contradiction.
    destruct Hk as (N1 & N2 & N3). destruct H as (x & Lx & Ox & Ix), K as (y & Ly & Oy & Iy).
    assert (E : dotted_text x = dotted_text y).
    { destruct Ix as [Ix|[Ix Jx]], Iy as [Iy|[Iy Jy]]; try congruence.
      - exact (nodup_snd m _ _ _ N2 Ix Iy).
      - exfalso. apply Jy. apply in_map_iff. exists (dotted_text x, s). auto.
      - exfalso. apply Jx. apply in_map_iff. exists (dotted_text y, s). auto. }
    apply dotted_text_inj in E; try (apply legal_nonnil; auto); try (apply legal_nonneg; auto).
    subst y. eapply oid_octets_unique; eauto.
  - destruct v; cbn [der_value] in *; try contradiction. congruence.
  - destruct v; cbn [der_value] in *; try contradiction. destruct H as (t & I & H), K as (t' & I' & K).
    rewrite I in I'. injection I' as ->. unfold utc_text in *. congruence.
  - destruct v; cbn [der_value] in *; try contradiction. destruct H as (t & I & H), K as (t' & I' & K).
    rewrite I in I'. injection I' as ->. eapply gen_text_unique; eauto.
  - destruct Hk.
Qed.

(* ---- states ---- *)
(* objects reached by construction and loading: a constructed (method 1) encoding is
   an indefinite-length one of a class that allows it *)
Definition state_ok (k : kind) (o : obj) : Prop :=
  tagging_ok (o_tagging o) /\ (e_method (o_enc o) = 0 \/ (constructable k = true /\ e_indef (o_enc o) = true)) /\
  (k = KNull -> e_header (o_enc o) = None).

Lemma kind_eq_null k : k = KNull \/ k <> KNull.
Proof. destruct k; auto; right; discriminate. Qed.

Lemma store_state k o c o' : state_ok k o -> stored k o c o' ->
  (exists tr ind, o_enc o' = Enc 0 None (Some c) tr ind) /\ state_ok k o'.
Proof.
  intros (T & M & N) (Et & Ew & Ee).
  assert (G : exists tr ind, o_enc o' = Enc 0 None (Some c) tr ind).
  { rewrite Ee. destruct (kind_eq_null k) as [->|Hk].
    - cbn. rewrite (N eq_refl). destruct M as [->|[? _]]; [eauto|discriminate].
    - replace (match k with KNull => _ | _ => o_enc (store k o c) end) with (o_enc (store k o c)) by (destruct k; congruence).
      unfold store. destruct (constructable k && e_indef (o_enc o)) eqn:E; [cbn; eauto|].
      cbn. destruct M as [->|[A B]]; [eauto|]. rewrite A, B in E. discriminate. }
  split; auto. destruct G as (tr & ind & G). split; [now rewrite Et|]. rewrite G. cbn. auto.
Qed.

(* the DER encoding of contents c under the tagging t, as computed *)
Definition object_bytes (t : tagging) (c : bytes) : bytes := full_header t 0 c ++ c.

Lemma object_bytes_der t c : tagging_ok t -> len (object_bytes t c) < 2 ^ 1008 -> der_object t c (object_bytes t c).
Proof.
  intros (Hc & Ht & He) L. unfold der_object, der_tagged, object_bytes, full_header in *.
  exists (dump_header (t_class t) 0 (t_tag t) c ++ c). split.
  - apply dump_header_tlv; auto; [lia|]. rewrite len_app in L.
    pose proof (len_nonneg (wrap (t_explicit t) (dump_header (t_class t) 0 (t_tag t) c) c)). lia.
  - now apply wrap_wrapped.
Qed.

Lemma base_dump_none k o c : e_contents (o_enc o) = Some c -> e_header (o_enc o) = None ->
  (e_method (o_enc o) = 0 \/ (constructable k = true /\ e_indef (o_enc o) = true)) ->
  base_dump k o = (with_enc o (Enc 0 (Some (full_header (o_tagging o) 0 c)) (Some c) [] (e_indef (o_enc o))),
                   Ok (object_bytes (o_tagging o) c)).
Proof.
  intros Ec Eh M. unfold base_dump. rewrite Ec, Eh. cbn [ends_80].
  assert (E : (if constructable k && e_indef (o_enc o) then 0 else e_method (o_enc o)) = 0).
  { destruct M as [->|[-> ->]]; [now destruct (constructable k && e_indef (o_enc o))|reflexivity]. }
  rewrite E. reflexivity.
Qed.

(* ---- reading keeps everything but the caches, and is repeatable ---- *)
Ltac fr := repeat (first [apply frame_refl | apply frame_native | apply frame_bytes | apply frame_unicode
  | apply frame_unused | apply frame_dotted | (eapply frame_trans; [apply frame_native|])
  | (eapply frame_trans; [apply frame_bytes|]) | (eapply frame_trans; [apply frame_unused|])
  | (eapply frame_trans; [apply frame_unicode|]) ]).

Lemma unicode_frame k e cls o c : frame (fst (get_unicode k e cls o c)) o.
Proof.
  unfold get_unicode. destruct (c_unicode (o_cache o)); [cbn; fr|].
  destruct (do b <- merged_bytes k cls (e_indef (o_enc o)) c; decode e b); cbn; fr.
Qed.

Lemma get_frame k cls o c : contents o = Some c -> frame (fst (get_native k cls o)) o.
Proof.
  intros Hc. unfold get_native. rewrite Hc.
  assert (Cf : forall x, frame (fst (cached o x)) o).
  { intros x. unfold cached. destruct (c_native (o_cache o)); [cbn; fr|]. destruct x; cbn; fr. }
  destruct k as [|m|m|m| | | | | |m|e| |pad|]; try apply Cf.
  - unfold bits_native. destruct (c_native (o_cache o)); [cbn; fr|].
    destruct (merged_int (KBits m) cls (e_indef (o_enc o)) c) as [[[v n] ub]|]; [|cbn; fr].
    destruct (int_to_bits v n); cbn; fr.
  - destruct (c_bytes (o_cache o)); [cbn; fr|]. destruct (merged_octets KOctetBits cls (e_indef (o_enc o)) c) as [[? ?]|]; cbn; fr.
  - destruct (c_native (o_cache o)); [cbn; fr|]. destruct (merged_int KIntBits cls (e_indef (o_enc o)) c) as [[[v n] ub]|]; cbn; fr.
  - destruct (c_bytes (o_cache o)); [cbn; fr|]. destruct (merged_bytes KOctets cls (e_indef (o_enc o)) c); cbn; fr.
  - cbn. fr.
  - destruct (c_native (o_cache o)) as [v|].
    + destruct v; try (cbn; fr). destruct (tmap_get m s); cbn; fr.
    + unfold get_dotted. destruct (c_dotted (o_cache o)); cbn; [destruct (tmap_get m t)|destruct (tmap_get m (oid_dotted c))]; cbn; fr.
  - pose proof (unicode_frame (KStr e) e cls o c) as F. destruct (get_unicode (KStr e) e cls o c) as [o' [s|x]]; exact F.
  - unfold time_native. destruct (c_native (o_cache o)); [cbn; fr|].
    pose proof (unicode_frame KUtcTime Latin1 cls o c) as F. destruct (get_unicode KUtcTime Latin1 cls o c) as [o' [s|x]]; [|exact F].
    destruct (utctime_native s); [|exact F]. cbn. eapply frame_trans; [apply frame_native|exact F].
  - unfold time_native. destruct (c_native (o_cache o)); [cbn; fr|].
    pose proof (unicode_frame (KGenTime pad) Latin1 cls o c) as F. destruct (get_unicode (KGenTime pad) Latin1 cls o c) as [o' [s|x]]; [|exact F].
    destruct (gentime_native s); [|exact F]. cbn. eapply frame_trans; [apply frame_native|exact F].
  - cbn. fr.
Qed.

Lemma unicode_idem k e cls o c : get_unicode k e cls (fst (get_unicode k e cls o c)) c = get_unicode k e cls o c.
Proof.
  unfold get_unicode at 2 3. destruct (c_unicode (o_cache o)) as [s|] eqn:E; cbn [fst].
  - unfold get_unicode. now rewrite E.
  - destruct (do b <- merged_bytes k cls (e_indef (o_enc o)) c; decode e b) as [s|x] eqn:M; cbn [fst].
    + reflexivity.
    + unfold get_unicode. now rewrite E, M.
Qed.

Lemma unicode_native k e cls o c : c_native (o_cache (fst (get_unicode k e cls o c))) = c_native (o_cache o).
Proof.
  unfold get_unicode. destruct (c_unicode (o_cache o)); [reflexivity|].
  destruct (do b <- merged_bytes k cls (e_indef (o_enc o)) c; decode e b); reflexivity.
Qed.

Lemma time_idem k cls o c f : time_native k cls (fst (time_native k cls o c f)) c f = time_native k cls o c f.
Proof.
  unfold time_native at 2 3. destruct (c_native (o_cache o)) as [v|] eqn:E; cbn [fst ret raise].
  - unfold time_native. now rewrite E.
  - pose proof (unicode_idem k Latin1 cls o c) as U. pose proof (unicode_native k Latin1 cls o c) as N. rewrite E in N.
    destruct (get_unicode k Latin1 cls o c) as [o' [s|x]]; cbn [fst ret raise] in *.
    + destruct (f s) as [v|x] eqn:F; cbn [fst ret raise].
      * reflexivity.
      * unfold time_native. rewrite N, U, F. reflexivity.
    + unfold time_native. rewrite N, U. reflexivity.
Qed.

Lemma get_idem k cls o c : kind_ok k -> contents o = Some c ->
  get_native k cls (fst (get_native k cls o)) = get_native k cls o.
Proof.
  intros Hk Hc. pose proof (get_frame k cls o c Hc) as (Ft & Fe & Fw).
  unfold get_native at 1. unfold contents at 1. rewrite Fe. fold (contents o). rewrite Hc. cbn zeta.
  clear Ft Fw. revert Fe. unfold get_native. rewrite Hc. cbn zeta. intros Fe.
  assert (Cd : forall x, cached (fst (cached o x)) x = cached o x).
  { intros x. unfold cached at 2 3. destruct (c_native (o_cache o)) eqn:E; cbn [fst ret raise].
    - unfold cached. now rewrite E.
    - destruct x; cbn [fst ret raise]; [reflexivity|]. unfold cached. now rewrite E. }
  destruct k as [|m|m|m| | | | | |m|e| |pad|]; cbn zeta in *; try apply Cd.
  - unfold bits_native in *. destruct (c_native (o_cache o)) as [v|] eqn:E; cbn [fst ret raise] in *.
    + now rewrite E.
    + destruct (merged_int (KBits m) cls (e_indef (o_enc o)) c) as [[[v n] ub]|] eqn:M; cbn [fst ret raise] in *.
      * destruct (int_to_bits v n) as [bits|] eqn:B; cbn [fst ret raise] in *; [reflexivity|].
        change (c_native (o_cache (set_unused o ub))) with (c_native (o_cache o)).
        change (e_indef (o_enc (set_unused o ub))) with (e_indef (o_enc o)). rewrite E, M, B. reflexivity.
      * rewrite E; try rewrite M; reflexivity.
  - destruct (c_bytes (o_cache o)) eqn:E; cbn [fst ret raise] in *.
    + now rewrite E.
    + destruct (merged_octets KOctetBits cls (e_indef (o_enc o)) c) as [[b u]|] eqn:M; cbn [fst ret raise] in *; [reflexivity|].
      rewrite E; try rewrite M; reflexivity.
  - destruct (c_native (o_cache o)) eqn:E; cbn [fst ret raise] in *.
    + now rewrite E.
    + destruct (merged_int KIntBits cls (e_indef (o_enc o)) c) as [[[v n] ub]|] eqn:M; cbn [fst ret raise] in *; [reflexivity|].
      rewrite E; try rewrite M; reflexivity.
  - destruct (c_bytes (o_cache o)) eqn:E; cbn [fst ret raise] in *.
    + now rewrite E.
    + destruct (merged_bytes KOctets cls (e_indef (o_enc o)) c) eqn:M; cbn [fst ret raise] in *; [reflexivity|].
      rewrite E; try rewrite M; reflexivity.
  - reflexivity.
  - destruct Hk as (N1 & N2 & N3).
    assert (G : forall s n, tmap_get m s = Some n -> tmap_get m n = None).
    { intros s n H. apply tmap_get_in in H; auto. apply tmap_get_none. apply N3. apply in_map_iff. exists (s, n). auto. }
    destruct (c_native (o_cache o)) as [v|] eqn:E.
    + destruct v; cbn [fst ret raise]; try (rewrite E; reflexivity).
      destruct (tmap_get m s) eqn:T; cbn [fst ret raise set_native with_cache o_cache c_native].
      * now rewrite (G _ _ T).
      * now rewrite E, T.
    + unfold get_dotted. destruct (c_dotted (o_cache o)) as [s|] eqn:D; cbn [fst ret raise].
      * destruct (tmap_get m s) eqn:T; cbn [fst ret raise set_native with_cache o_cache c_native].
        -- now rewrite (G _ _ T).
        -- now rewrite T.
      * destruct (tmap_get m (oid_dotted c)) eqn:T; cbn [fst ret raise set_native set_dotted with_cache o_cache c_native].
        -- now rewrite (G _ _ T).
        -- now rewrite T.
  - pose proof (unicode_idem (KStr e) e cls o c) as U.
    destruct (get_unicode (KStr e) e cls o c) as [o' [s|x]]; cbn [fst ret raise] in *; now rewrite U.
  - apply time_idem.
  - apply time_idem.
  - reflexivity.
Qed.

(* reading looks at contents, indefinite flag and caches only *)
Lemma get_with_enc k cls o c e : contents o = Some c -> e_contents e = Some c -> e_indef e = e_indef (o_enc o) ->
  get_native k cls (with_enc o e) = (with_enc (fst (get_native k cls o)) e, snd (get_native k cls o)).
Proof.
  intros Hc He Hi. destruct o as [t [em eh ec et ei] [cn cb cu cx cd] w]. destruct e as [em' eh' ec' et' ei'].
  unfold contents in Hc. cbn in Hc, He, Hi. subst. unfold with_enc, get_native, contents. cbn [o_enc e_contents e_indef o_cache o_tagging o_width].
  assert (U : forall k e, get_unicode k e cls (Obj t (Enc em' eh' (Some c) et' ei) (Cache cn cb cu cx cd) w) c =
     (with_enc (fst (get_unicode k e cls (Obj t (Enc em eh (Some c) et ei) (Cache cn cb cu cx cd) w) c)) (Enc em' eh' (Some c) et' ei),
      snd (get_unicode k e cls (Obj t (Enc em eh (Some c) et ei) (Cache cn cb cu cx cd) w) c))).
  { intros k0 e0. unfold get_unicode. cbn [o_cache c_unicode o_enc e_indef]. destruct cu; [reflexivity|].
    destruct (do b <- merged_bytes k0 cls ei c; decode e0 b); reflexivity. }
  assert (T : forall k f, time_native k cls (Obj t (Enc em' eh' (Some c) et' ei) (Cache cn cb cu cx cd) w) c f =
     (with_enc (fst (time_native k cls (Obj t (Enc em eh (Some c) et ei) (Cache cn cb cu cx cd) w) c f)) (Enc em' eh' (Some c) et' ei),
      snd (time_native k cls (Obj t (Enc em eh (Some c) et ei) (Cache cn cb cu cx cd) w) c f))).
  { intros k0 f0. unfold time_native. cbn [o_cache c_native]. destruct cn; [reflexivity|]. rewrite U.
    destruct (get_unicode k0 Latin1 cls (Obj t (Enc em eh (Some c) et ei) (Cache None cb cu cx cd) w) c) as [o' [s|x]];
      cbn [fst snd]; [destruct (f0 s)|]; reflexivity. }
  destruct k as [|m|m|m| | | | | |m|e| |pad|]; unfold cached, bits_native, get_dotted;
    cbn [o_cache c_native c_bytes c_dotted o_enc e_indef].
  - destruct cn; reflexivity.
  - destruct cn; reflexivity.
  - destruct cn; [reflexivity|]. destruct m as [m|]; [destruct (map_get m (int_from_bytes c true))|]; reflexivity.
  - destruct cn; [reflexivity|]. destruct (merged_int (KBits m) cls ei c) as [[[v n] ub]|]; [|reflexivity].
    destruct (int_to_bits v n); reflexivity.
  - destruct cb; [reflexivity|]. destruct (merged_octets KOctetBits cls ei c) as [[b u]|]; reflexivity.
  - destruct cn; [reflexivity|]. destruct (merged_int KIntBits cls ei c) as [[[v n] ub]|]; reflexivity.
  - destruct cb; [reflexivity|]. destruct (merged_bytes KOctets cls ei c); reflexivity.
  - destruct cn; [reflexivity|]. destruct (merged_bytes KIntOctets cls ei c); reflexivity.
  - reflexivity.
  - destruct cn as [v|].
    + destruct v; try reflexivity. destruct (tmap_get m s); reflexivity.
    + destruct cd as [s|]; cbn; [destruct (tmap_get m s)|destruct (tmap_get m (oid_dotted c))]; reflexivity.
  - rewrite U. destruct (get_unicode (KStr e) e cls (Obj t (Enc em eh (Some c) et ei) (Cache cn cb cu cx cd) w) c) as [o' [s|x]]; reflexivity.
  - apply T.
  - apply T.
  - reflexivity.
Qed.

(* ---- forced dump ---- *)
Lemma state_frame k a b : frame a b -> state_ok k b -> state_ok k a.
Proof. intros (Et & Ee & _). unfold state_ok. rewrite Et, Ee. auto. Qed.

Lemma forced_dump k cls o x o1 v force : kind_ok k -> state_ok k o -> contents o = Some x ->
  force || ends_80 (e_header (o_enc o)) = true ->
  get_native k cls o = (o1, Ok v) -> holds k (o_width o) v ->
  exists c o2, dump k cls o force = (o2, Ok (object_bytes (o_tagging o) c)) /\ der_value k (o_width o) v c /\
    bytes_ok c /\ contents o2 = Some c /\ o_tagging o2 = o_tagging o /\ o_width o2 = o_width o /\
    state_ok (match k with KNull => KBool | _ => k end) o2 /\
    e_header (o_enc o2) = Some (full_header (o_tagging o) 0 c) /\ e_trailer (o_enc o2) = [] /\
    exists o3 v', get_native k cls o2 = (o3, Ok v') /\ same_value k v v' /\ holds k (o_width o) v' /\ der_value k (o_width o) v' c.
Proof.
  intros Hk Hs Hc Hf Hg Hh. pose proof (get_frame k cls o x Hc) as F. rewrite Hg in F. cbn [fst] in F.
  unfold dump. rewrite Hf, Hg. pose proof F as (Ft & Fe & Fw).
  assert (Hs1 : state_ok k (set_contents o1 None)).
  { apply (state_frame k o1 o F) in Hs. destruct Hs as (A & B & C). split; [exact A|]. split; [exact B|exact C]. }
  assert (Hw : o_width (set_contents o1 None) = o_width o) by exact Fw.
  assert (Ht : o_tagging (set_contents o1 None) = o_tagging o) by exact Ft.
  destruct (set_ok k cls (set_contents o1 None) v Hk) as (c & o2 & Es & D & B & St & o3 & v' & Eg & Fg & Sv & Hv & Dv);
    [now rewrite Hw|].
  rewrite Es. rewrite Hw in *. exists c.
  destruct (store_state k _ c o2 Hs1 St) as ((tr & ind & Ee) & Hs2).
  pose proof St as (St1 & St2 & _). rewrite Ht in St1. rewrite Hw in St2.
  rewrite (base_dump_none k o2 c); [|now rewrite Ee|now rewrite Ee|apply Hs2].
  rewrite St1. eexists. split; [reflexivity|]. split; [exact D|]. split; [exact B|].
  split; [reflexivity|]. split; [exact St1|]. split; [exact St2|]. split.
  - destruct Hs2 as (A2 & _ & _). split; [exact A2|]. split; [left; reflexivity|]. destruct k; discriminate.
  - split; [reflexivity|]. split; [reflexivity|].
    rewrite (get_with_enc k cls o2 c); [|unfold contents; now rewrite Ee|reflexivity|reflexivity].
    rewrite Eg. cbn [fst snd]. eexists _, v'. split; [reflexivity|auto].
Qed.
