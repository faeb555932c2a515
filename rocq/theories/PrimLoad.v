(* Construction, loading, histories of operations. *)
Require Import Verif.Base Verif.BaseFacts Verif.IntModel Verif.IntSpec Verif.IntProofs
  Verif.ParserModel Verif.ParserSpec Verif.ParserProofs Verif.ParserFacts Verif.Text Verif.OidModel Verif.OidSpec
  Verif.OidProofs Verif.BitModel Verif.BitSpec Verif.BitProofs Verif.CodecModel Verif.CodecSpec Verif.CodecProofs
  Verif.Calendar Verif.TimeModel Verif.TimeSpec Verif.TimeProofs Verif.TimeFacts Verif.TagSpec Verif.TagProofs
  Verif.PrimModel Verif.PrimSpec Verif.PrimProofs Verif.PrimSet Verif.PrimDump.

(* ---- reading DER contents ---- *)
Lemma get_loaded k cls t e w v c : kind_ok k -> holds k w v -> der_value k w v c -> bytes_ok c ->
  e_contents e = Some c -> e_indef e = false ->
  exists o' v', get_native k cls (Obj t e no_cache w) = (o', Ok v') /\ same_value k v v' /\ holds k w v' /\ der_value k w v' c.
Proof.
  intros Hk Hh D B Hc Hi. unfold get_native, contents. cbn [o_enc o_cache c_native c_bytes no_cache]. rewrite Hc, Hi. cbn zeta.
  unfold cached, no_cache. cbn [o_cache c_native].
  assert (S : forall o1, (forall s, v <> NSet s) -> (forall x, v <> NTime x) -> exists o' v', (o1 : obj, Ok v) = (o', Ok v') /\ same_value k v v' /\ holds k w v' /\ der_value k w v' c).
  { intros o1 N1 N2. exists o1, v. split; auto. split; [|auto]. destruct v; try reflexivity; [now destruct (N1 s)|now destruct (N2 x)]. }
  destruct k as [|m|m|m| | | | | |m|en| |pad|].
  - destruct v; cbn [der_value] in *; try contradiction. subst c.
    replace (negb (eqb_bytes [if b then 255 else 0] [0])) with b by now destruct b.
    apply S; discriminate.
  - destruct Hk as [N1 N2]. assert (G : int_native m (int_from_bytes c true) = v).
    { rewrite int_from_bytes_signed by auto. unfold int_native.
      destruct v; cbn [der_value holds] in *; try contradiction.
      - destruct D as (_ & _ & -> & _). now rewrite map_get_none.
      - destruct D as (z & I & _ & _ & -> & _). apply map_get_in in I; auto. now rewrite I. }
    rewrite G. destruct v; cbn [der_value] in *; try contradiction; apply S; discriminate.
  - destruct m as [m|]; [|destruct v; contradiction]. destruct Hk as [N1 N2].
    destruct v; cbn [der_value holds] in *; try contradiction.
    rewrite int_from_bytes_signed by auto. destruct D as (z & I & _ & _ & -> & _).
    pose proof I as I'. apply map_get_in in I; auto. rewrite I. apply S; discriminate.
  - unfold bits_native. cbn [o_cache c_native o_enc]. rewrite Hi. unfold merged_int.
    destruct m as [m|].
    + destruct Hk as [N1 N2]. destruct v; cbn [der_value holds] in *; try contradiction.
      destruct D as (bits & Db & Nz & Hb).
      destruct (der_bits_decode _ _ Db) as (ub & Ed & _). unfold bitstring_decode in Ed.
      destruct (bit_chunk c) as [[[bv n] u]|] eqn:Ebc; cbn [bind] in Ed; [|discriminate].
      destruct (int_to_bits bv n) as [bs|] eqn:Eib; cbn [bind] in Ed; [|discriminate]. injection Ed as -> ->.
      assert (Sv : forall x, In x s <-> In x (set_of_bits m bits)).
      { intros x. unfold set_of_bits. rewrite labels_in. split.
        - intros I. destruct (Hh x I) as (i & nm & Im & ->).
          assert (Pi : 0 <= i) by (rewrite Forall_forall in N2; exact (N2 _ Im)).
          exists (Z.to_nat i).
          assert (Nt : nth (Z.to_nat i) bits false = true) by (apply Hb; exists nm; rewrite Z2Nat.id by lia; auto).
          split; [|split; auto].
          + destruct (Nat.lt_ge_cases (Z.to_nat i) (length bits)); auto. rewrite nth_overflow in Nt by auto. discriminate.
          + unfold label_of. replace (0 + Z.of_nat (Z.to_nat i)) with i by lia.
            apply map_get_in in Im; auto. now rewrite Im.
        - intros (j & _ & Nt & ->). apply Hb in Nt as (nm & Im & Is). unfold label_of. rewrite Z.add_0_l.
          apply map_get_in in Im; auto. now rewrite Im. }
      eexists _, (NSet (set_of_bits m bits)). split; [reflexivity|]. split; [exact Sv|]. split.
      * intros x Hx. apply Sv in Hx. auto.
      * exists bits. split; auto. split; auto. intros i. rewrite Hb. split; intros (nm & A1 & A2); exists nm; split; auto; now apply Sv.
    + destruct v; cbn [der_value holds] in *; try contradiction.
      destruct (der_bits_decode _ _ D) as (ub & Ed & _). unfold bitstring_decode in Ed.
      destruct (bit_chunk c) as [[[bv n] u]|] eqn:Ebc; cbn [bind] in Ed; [|discriminate].
      destruct (int_to_bits bv n) as [bs|] eqn:Eib; cbn [bind] in Ed; [|discriminate]. injection Ed as -> ->.
      apply S; discriminate.
  - destruct v; cbn [der_value holds] in *; try contradiction. cbn [o_cache c_bytes].
    assert (c = octetbits_encode b) as -> by exact (der_bits_unique _ _ _ D (der_bits_octets b Hh)).
    unfold merged_octets. rewrite octetbits_roundtrip. apply S; discriminate.
  - destruct v; cbn [der_value holds] in *; try contradiction. destruct D as (body & -> & D).
    unfold merged_int. cbn [o_cache c_native].
    assert (G : bit_chunk (0 :: body) = Ok (z, (len (0 :: body) - 1) * 8, [])).
    { unfold bit_chunk. rewrite int_from_bytes_unsigned. change (0 =? 0) with true. cbn iota.
      assert (be_value body = z) as ->; [|reflexivity].
      destruct D as (Ob & Nb & V & _). rewrite twos_value_alt in V by auto.
      pose proof (be_value_bound body Ob). destruct (128 <=? hd 0 body); lia. }
    rewrite G. eexists _, (NInt z). split; [reflexivity|]. split; [reflexivity|]. split; [exact Hh|]. exists body. auto.
  - destruct v; cbn [der_value holds] in *; try contradiction. subst c. cbn [o_cache c_bytes].
    unfold merged_bytes. cbn [merge bytes_chunk]. apply S; discriminate.
  - destruct v; cbn [der_value holds] in *; try contradiction.
    unfold merged_bytes. cbn [merge bytes_chunk bind]. unfold intoctets_decode. rewrite int_from_bytes_unsigned.
    assert (V : be_value c = z) by (destruct w; apply D).
    replace (NInt (be_value c)) with (NInt z) by congruence. apply S; discriminate.
  - destruct v; cbn [der_value holds] in *; try contradiction. apply S; discriminate.
  - destruct Hk as (N1 & N2 & N3). destruct v; cbn [der_value holds] in *; try contradiction.
    unfold get_dotted. cbn [o_cache c_native c_dotted]. destruct D as (arcs & L & Oc & I).
    assert (Ed : oid_dotted c = dotted_text arcs).
    { destruct (oid_roundtrip arcs L) as (c' & _ & Oc' & Ed). now rewrite (oid_octets_unique _ _ _ Oc Oc'). }
    rewrite Ed.
    assert (G : match tmap_get m (dotted_text arcs) with Some n => n | None => dotted_text arcs end = s).
    { destruct I as [I|[I J]].
      - apply tmap_get_in in I; auto. now rewrite I.
      - rewrite <- I. destruct Hh as [(a2 & L2 & I2)|(a2 & L2 & I2 & F1 & F2)].
        + exfalso. apply J. apply in_map_iff. exists (dotted_text a2, s). auto.
        + now rewrite (tmap_get_none m s F1). }
    destruct (tmap_get m (dotted_text arcs)); subst s; eexists _, _; (split; [reflexivity|]); (split; [reflexivity|]); (split; [exact Hh|]); exists arcs; auto.
  - destruct v; cbn [der_value holds] in *; try contradiction. unfold get_unicode. cbn [o_cache c_unicode o_enc]. rewrite Hi.
    unfold merged_bytes. cbn [merge bytes_chunk bind]. destruct Hh as [T R].
    destruct (codec_roundtrip en s T) as [H _]. destruct (H R) as (b' & E & _ & Dd). rewrite D in E. injection E as <-.
    rewrite Dd. apply S; discriminate.
  - destruct v; cbn [der_value holds] in *; try contradiction.
    unfold time_native, get_unicode. cbn [o_cache c_native c_unicode o_enc]. rewrite Hi.
    unfold merged_bytes. cbn [merge bytes_chunk bind].
    destruct Hh as (Dx & Y & t0 & I & R). destruct D as (t1 & I1 & U). rewrite I in I1. injection I1 as <-.
    destruct (utctime_exact x t0 Dx Y I R) as [Ef Fn]. destruct (utc_read_back t0 R) as (B1 & B2 & B3 & B4).
    assert (c = strftime_utc (fields_of t0)) as -> by exact U.
    destruct (encode_latin1 _ (utc_ascii (fields_of t0))) as (El & _ & Tl & Rl).
    destruct (codec_roundtrip Latin1 _ Tl) as [H _]. destruct (H Rl) as (b' & E & _ & Dd). rewrite El in E. injection E as <-.
    rewrite Dd, Fn. eexists _, _. split; [reflexivity|]. split; [|split].
    + exists t0, (t0 - t0 mod 1000000). split; auto. split; auto. lia.
    + cbn [holds]. split; auto. split; auto. exists (t0 - t0 mod 1000000). split; auto. unfold utc_year in *. rewrite B4. exact R.
    + exists (t0 - t0 mod 1000000). split; auto. rewrite B4, <- utc_text_whole. apply strftime_utc_text.
  - destruct v; cbn [der_value holds] in *; try contradiction.
    unfold time_native, get_unicode. cbn [o_cache c_native c_unicode o_enc]. rewrite Hi.
    unfold merged_bytes. cbn [merge bytes_chunk bind].
    destruct Hh as (Dx & t0 & I & R0 & R1 & RP). destruct D as (t1 & I1 & U). rewrite I in I1. injection I1 as <-.
    destruct (gentime_exact pad x t0 Dx I R0 R1 RP) as (Ef & Fn & R). destruct (gen_read_back t0 R) as (B1 & B2 & B3).
    assert (T : gen_text (fields_of t0) (gen_string (fields_of t0))) by (apply gen_string_text; [apply us_of_fields|exact R]).
    assert (c = gen_string (fields_of t0)) as -> by exact (gen_text_unique _ _ _ U T).
    destruct (encode_latin1 _ (gen_ascii _ _ T)) as (El & _ & Tl & Rl).
    destruct (codec_roundtrip Latin1 _ Tl) as [H _]. destruct (H Rl) as (b' & E & _ & Dd). rewrite El in E. injection E as <-.
    rewrite Dd, Fn. eexists _, _. split; [reflexivity|]. split; [|split].
    + exists t0, t0. auto.
    + cbn [holds]. split; auto. exists t0. split; auto. rewrite B3. split; [lia|]. split; [lia|auto].
    + exists t0. auto.
  - destruct Hk.
Qed.

(* ---- loading an encoding with its own tagging ---- *)
(* the one combination that does not read back: explicit tags of the class together
   with an implicit tag given to the constructor *)
Definition tags_compatible (c : pcls) (p : params) : Prop :=
  p_no_explicit p = true \/ k_explicit c = [] \/ p_explicit p <> [] \/ p_implicit p = None.

Lemma init_explicit c p t : init_tagging c p = Ok t ->
  t_explicit t = if p_no_explicit p then [] else k_explicit c ++ p_explicit p.
Proof.
  unfold init_tagging. destruct (p_explicit p) as [|x r] eqn:E.
  - rewrite app_nil_r. destruct (p_implicit p) as [[cl tg]|].
    + destruct (class_ok cl); [|discriminate]. cbn. intros H. injection H as <-. destruct (p_no_explicit p); reflexivity.
    + cbn. intros H. injection H as <-. destruct (p_no_explicit p); reflexivity.
  - destruct (forallb (fun ct => class_ok (fst ct)) (x :: r)); [|discriminate]. cbn. intros H. injection H as <-.
    destruct (p_no_explicit p); reflexivity.
Qed.

Lemma init_plain c p t : init_tagging c p = Ok t -> p_explicit p <> [] \/ p_implicit p = None ->
  t_class t = k_class c /\ t_tag t = k_tag c /\ t_implicit t = false.
Proof.
  unfold init_tagging. destruct (p_explicit p) as [|x r] eqn:E.
  - intros H [N|N]; [contradiction|]. rewrite N in H. cbn in H. injection H as <-. destruct (p_no_explicit p); cbn; auto.
  - intros H _. destruct (forallb (fun ct => class_ok (fst ct)) (x :: r)); [|discriminate]. cbn in H. injection H as <-.
    destruct (p_no_explicit p); cbn; auto.
Qed.

Lemma has_explicit_false c p t : init_tagging c p = Ok t -> has_explicit c p = false -> t_explicit t = [].
Proof.
  intros H K. rewrite (init_explicit _ _ _ H). unfold has_explicit in K. destruct (p_no_explicit p); auto.
  cbn in K. destruct (k_explicit c), (p_explicit p); try discriminate. reflexivity.
Qed.

Lemma has_explicit_true c p t : init_tagging c p = Ok t -> has_explicit c p = true ->
  t_explicit t <> [] /\ p_no_explicit p = false.
Proof.
  intros H K. rewrite (init_explicit _ _ _ H). unfold has_explicit in K. destruct (p_no_explicit p); [discriminate|].
  cbn in K. split; auto. destruct (k_explicit c), (p_explicit p); discriminate.
Qed.

Definition loaded (t : tagging) (h x tr : bytes) (m : Z) (ind : bool) : obj :=
  Obj t (Enc m (Some h) (Some x) tr ind) no_cache None.

Lemma load_own k cls p t x d s : init_tagging cls p = Ok t -> tags_compatible cls p ->
  der_object t x d -> exists h, load k cls p d s = Ok (loaded t h x [] 0 false) /\ h ++ x = d.
Proof.
  intros Hi Hc (inner & Ht & Hw). destruct (der_tlv_ber _ _ _ _ _ 10 Ht) as (h & E & B).
  set (j := mkInfo (t_class t) 0 (t_tag t) h x []).
  assert (Bj : ber_info max_budget j) by exact B.
  assert (Ej : encoding_of j = inner) by (unfold encoding_of; cbn; now rewrite app_nil_r).
  rewrite <- Ej in Hw. destruct (peel_wrapped (t_explicit t) j d [] [] Bj eq_refl Hw) as (i & hdr & Bi & Ti & Ei & P & Eh).
  cbn [app] in P. exists hdr. split; [|exact Eh].
  unfold load. pose proof (parse__0_complete i [] Bi) as Q. rewrite app_nil_r, Ei in Q. rewrite Q. cbn [bind].
  rewrite Z.eqb_refl. cbn [negb]. rewrite andb_false_r. unfold build.
  destruct (has_explicit cls p) eqn:He.
  - destruct (has_explicit_true _ _ _ Hi He) as [Nx Np]. rewrite Hi. cbn [bind]. rewrite Ti, P. cbn [bind].
    assert (Hp : p_explicit p <> [] \/ p_implicit p = None).
    { destruct Hc as [Hc|[Hc|[Hc|Hc]]]; auto; [congruence|].
      rewrite (init_explicit _ _ _ Hi), Np, Hc in Nx. left. exact Nx. }
    destruct (init_plain _ _ _ Hi Hp) as (C1 & C2 & C3).
    unfold build_plain. cbn [init_tagging p_explicit p_implicit bind p_no_explicit t_class t_tag t_implicit].
    cbn [j i_class i_method i_tag i_trailer i_header i_contents]. rewrite C1, C2, !Z.eqb_refl. cbn [negb andb]. 
    cbn. unfold loaded. f_equal. f_equal. destruct t as [tc tt ti te]. cbn in *. congruence.
  - pose proof (has_explicit_false _ _ _ Hi He) as Nx. rewrite Nx in P. cbn in P. injection P as -> <-.
    unfold build_plain. rewrite Hi. cbn [bind j i_class i_method i_tag i_trailer i_header i_contents]. rewrite !Z.eqb_refl.
    reflexivity.
Qed.

(* ---- loading an encoding made with other tags ---- *)
Lemma len_rev_explicit (a b : list (Z * Z)) : a = b \/ a <> b.
Proof.
  destruct (list_eq_dec (fun x y : Z * Z => ltac:(decide equality; apply Z.eq_dec)) a b); auto.
Qed.

(* taking wrappers off an encoding that was wrapped differently never reaches the
   primitive encoding inside *)
Lemma peel_other ex2 : forall ex j d i P T, ber_info max_budget i -> i_trailer i = [] -> encoding_of i = d ->
  ber_info max_budget j -> i_method j = 0 -> i_trailer j = [] ->
  der_wrapped ex2 (encoding_of j) d -> ex <> ex2 ->
  peel (rev ex) i P T = Err ValueError \/
  exists j' P' T', peel (rev ex) i P T = Ok (j', P', T') /\ i_method j' = 1 /\ i_trailer j' = [].
Proof.
  assert (Same : forall i i', ber_info max_budget i -> ber_info max_budget i' -> encoding_of i = encoding_of i' -> i = i').
  { intros i i' B B' E. pose proof (parse__0_complete i [] B) as Q. pose proof (parse__0_complete i' [] B') as Q'.
    rewrite !app_nil_r in *. rewrite E in Q. congruence. }
  induction ex2 as [|[c t] ex2 IH] using rev_ind; intros ex j d i P T Bi Ti Ei Bj Mj Tj Hw Ne.
  - cbn in Hw. subst d. rewrite (Same i j Bi Bj Hw) in *.
    destruct ex as [|[c' t'] ex _] using rev_ind; [contradiction|].
    rewrite rev_unit. cbn [peel]. rewrite Mj. change (0 =? 1) with false. cbn [negb].
    destruct (negb (i_class j =? c')); auto.
  - apply der_wrapped_snoc in Hw as (mid & H1 & H2). destruct (der_tlv_ber _ _ _ _ _ 10 H2) as (h & E & B).
    assert (Eii : i = mkInfo c 1 t h mid []).
    { apply Same; auto. unfold encoding_of at 2. cbn. rewrite app_nil_r. congruence. }
    destruct ex as [|[c' t'] ex _] using rev_ind.
    + right. exists i, P, T. split; [reflexivity|]. rewrite Eii. auto.
    + rewrite rev_unit. cbn [peel]. rewrite Eii. cbn [i_class i_method i_tag i_contents].
      destruct (Z.eqb_spec c c') as [->|]; cbn [negb]; [|auto].
      change (1 =? 1) with true. cbn [negb].
      destruct (Z.eqb_spec t t') as [->|]; cbn [negb]; [|auto].
      destruct (peel_wrapped ex2 j mid [] [] Bj Tj H1) as (i' & hdr & Bi' & Ti' & Ei' & _ & _).
      pose proof (parse__0_complete i' [] Bi') as Q. rewrite app_nil_r, Ei' in Q. rewrite Q. cbn [bind].
      apply (IH ex j mid i'); auto. congruence.
Qed.

Lemma load_other k cls p t t2 x d s : init_tagging cls p = Ok t -> tags_compatible cls p ->
  der_object t2 x d ->
  (t_class t2, t_tag t2, t_explicit t2) <> (t_class t, t_tag t, t_explicit t) -> ~ In (t_tag t2) (k_bad cls) ->
  load k cls p d s = Err ValueError.
Proof.
  intros Hi Hc (inner & Ht & Hw) Ne Nb. destruct (der_tlv_ber _ _ _ _ _ 10 Ht) as (h & E & B).
  set (j := mkInfo (t_class t2) 0 (t_tag t2) h x []).
  assert (Bj : ber_info max_budget j) by exact B.
  assert (Ej : encoding_of j = inner) by (unfold encoding_of; cbn; now rewrite app_nil_r).
  rewrite <- Ej in Hw. destruct (peel_wrapped (t_explicit t2) j d [] [] Bj eq_refl Hw) as (i & hdr & Bi & Ti & Ei & P & Eh).
  cbn [app] in P.
  unfold load. pose proof (parse__0_complete i [] Bi) as Q. rewrite app_nil_r, Ei in Q. rewrite Q. cbn [bind].
  rewrite Z.eqb_refl. cbn [negb]. rewrite andb_false_r. unfold build.
  assert (Bad : existsb (fun b => t_tag t2 =? b) (k_bad cls) = false).
  { destruct (existsb (fun b => t_tag t2 =? b) (k_bad cls)) eqn:X; auto. apply existsb_exists in X as (b & I & X).
    apply Z.eqb_eq in X. subst b. contradiction. }
  assert (Plain : forall p' t', init_tagging cls p' = Ok t' -> (t_class t2, t_tag t2) <> (t_class t', t_tag t') ->
    build_plain k cls p' j = Err ValueError).
  { intros p' t' Hi' Ne'. unfold build_plain. rewrite Hi'. cbn [bind j i_class i_method i_tag i_trailer].
    destruct (Z.eqb_spec (t_class t2) (t_class t')) as [E1|]; cbn [negb]; [|auto].
    change (0 =? 0) with true. cbn [negb andb]. rewrite Bad.
    destruct (Z.eqb_spec (t_tag t2) (t_tag t')) as [E2|]; cbn [negb andb]; [|auto]. congruence. }
  assert (Cons : forall p' t' j', init_tagging cls p' = Ok t' -> i_method j' = 1 -> i_trailer j' = [] ->
    build_plain k cls p' j' = Err ValueError).
  { intros p' t' j' Hi' M1 T1. unfold build_plain. rewrite Hi'. cbn [bind]. rewrite M1, T1.
    destruct (negb (i_class j' =? t_class t')); auto. }
  destruct (has_explicit cls p) eqn:He.
  - destruct (has_explicit_true _ _ _ Hi He) as [Nx Np]. rewrite Hi. cbn [bind]. rewrite Ti.
    set (p' := Params [] None true).
    assert (Hi' : init_tagging cls p' = Ok (Tagging (k_class cls) (k_tag cls) false [])) by reflexivity.
    destruct (len_rev_explicit (t_explicit t) (t_explicit t2)) as [Ee|Ee].
    + rewrite Ee, P. cbn [bind]. rewrite (Plain p' _ Hi'); [reflexivity|]. cbn [t_class t_tag].
      assert (Hp : p_explicit p <> [] \/ p_implicit p = None).
      { destruct Hc as [Hc|[Hc|[Hc|Hc]]]; auto; [congruence|].
        rewrite (init_explicit _ _ _ Hi), Np, Hc in Nx. left. exact Nx. }
      destruct (init_plain _ _ _ Hi Hp) as (C1 & C2 & _). congruence.
    + destruct (peel_other (t_explicit t2) (t_explicit t) j d i (i_header i) []) as [Z1|(j' & P' & T' & Z1 & M1 & T1)]; auto.
      * now rewrite Z1.
      * rewrite Z1. cbn [bind]. rewrite (Cons p' _ j' Hi' M1 T1). reflexivity.
  - pose proof (has_explicit_false _ _ _ Hi He) as Nx.
    destruct (len_rev_explicit (t_explicit t) (t_explicit t2)) as [Ee|Ee].
    + rewrite <- Ee, Nx in P. cbn in P. injection P as -> _. apply (Plain p t Hi). congruence.
    + destruct (peel_other (t_explicit t2) (t_explicit t) j d i (i_header i) []) as [Z1|(j' & P' & T' & Z1 & M1 & T1)]; auto.
      * rewrite Nx in Z1. discriminate.
      * rewrite Nx in Z1. cbn in Z1. injection Z1 as -> _ _. now apply (Cons p t).
Qed.

(* ---- construct, dump, load ---- *)
Lemma make_good k cls p t v : kind_ok k -> init_tagging cls p = Ok t -> tagging_ok t -> holds k None v ->
  exists o c, make k cls p v = Ok o /\ o_tagging o = t /\ o_width o = None /\ contents o = Some c /\ state_ok k o /\
    e_header (o_enc o) = None /\ der_value k None v c /\ bytes_ok c /\
    exists o' v', get_native k cls o = (o', Ok v') /\ same_value k v v' /\ holds k None v' /\ der_value k None v' c.
Proof.
  intros Hk Hi Ht Hh. unfold make, new_obj. rewrite Hi. cbn [bind].
  set (o0 := Obj t (Enc 0 None (initial_contents k) [] false) no_cache None).
  assert (S0 : state_ok k o0) by (split; [exact Ht|]; split; [left; reflexivity|reflexivity]).
  assert (G : forall r, r = set_value k o0 v -> exists o c, match r with (o', Ok tt) => Ok o' | (_, Err e) => Err e end = Ok o /\
    o_tagging o = t /\ o_width o = None /\ contents o = Some c /\ state_ok k o /\
    e_header (o_enc o) = None /\ der_value k None v c /\ bytes_ok c /\
    exists o' v', get_native k cls o = (o', Ok v') /\ same_value k v v' /\ holds k None v' /\ der_value k None v' c).
  { intros r ->. destruct (set_ok k cls o0 v Hk Hh) as (c & o' & Es & D & B & St & o'' & v' & Eg & Fg & Sv & Hv & Dv).
    destruct (store_state k _ c o' S0 St) as ((tr & ind & Ee) & S1).
    rewrite Es. exists o', c. split; [reflexivity|]. split; [apply St|]. split; [apply St|].
    split; [exact (stored_contents _ _ _ _ St)|]. split; [exact S1|]. split; [now rewrite Ee|].
    split; [exact D|]. split; [exact B|]. exists o'', v'; auto. }
  destruct v as [|b|z|s|b|l|s|x]; try exact (G _ eq_refl). clear G.
  (* only Null holds None *)
    destruct k as [|m|m|m| | | | | |m|e| |pad|]; try (destruct m); cbn [holds] in Hh; try contradiction.
    exists o0, []. split; [reflexivity|]. split; [reflexivity|]. split; [reflexivity|]. split; [reflexivity|].
    split; [exact S0|]. split; [reflexivity|]. split; [reflexivity|]. split; [constructor|].
    exists o0, NNone. repeat split.
Qed.

Lemma construct_dump_load k cls p t v : kind_ok k -> init_tagging cls p = Ok t -> tagging_ok t -> tags_compatible cls p ->
  holds k None v ->
  exists o o' c d, make k cls p v = Ok o /\ dump k cls o false = (o', Ok d) /\ der_value k None v c /\
    (len d < 2 ^ 1008 -> der_object t c d /\
      exists o2 v', load k cls p d true = Ok o2 /\ contents o2 = Some c /\ o_tagging o2 = t /\
        snd (get_native k cls o2) = Ok v' /\ same_value k v v' /\ snd (dump k cls o2 true) = Ok d).
Proof.
  intros Hk Hi Ht Hc Hh.
  destruct (make_good k cls p t v Hk Hi Ht Hh) as (o & c & Em & Eo & Ew & Ec & So & Eh & D & B & _).
  assert (Ed0 : dump k cls o false = base_dump k o) by (unfold dump; now rewrite Eh).
  exists o. rewrite Ed0, (base_dump_none k o c Ec Eh (proj1 (proj2 So))), Eo.
  eexists _, c, (object_bytes t c). split; [exact Em|]. split; [reflexivity|]. split; [exact D|].
  intros L. pose proof (object_bytes_der t c Ht L) as Dd. split; [exact Dd|].
  destruct (load_own k cls p t c _ true Hi Hc Dd) as (h & El & Ehx).
  exists (loaded t h c [] 0 false).
  destruct (get_loaded k cls t (Enc 0 (Some h) (Some c) [] false) None v c Hk Hh D B eq_refl eq_refl) as (o3 & v' & Eg & Sv & Hv & Dv).
  exists v'. split; [exact El|]. split; [reflexivity|]. split; [reflexivity|].
  fold (loaded t h c [] 0 false) in Eg. rewrite Eg. cbn [snd]. split; [reflexivity|]. split; [exact Sv|].
  destruct (kind_eq_null k) as [->|Nk].
  - destruct v'; cbn [holds] in Hv; try contradiction. cbn in Dv. subst c.
    unfold dump. cbn [orb]. rewrite Eg. injection Eg as <- .
    change (set_value KNull (set_contents (loaded t h [] [] 0 false) None) NNone) with
      (loaded t h [] [] 0 false, Ok tt). cbn iota beta.
    unfold base_dump, loaded. cbn [o_enc e_contents e_header e_trailer e_method e_indef o_tagging constructable andb].
    rewrite app_nil_r in Ehx. destruct (ends_80 (Some h)); cbn [snd].
    + reflexivity.
    + now rewrite Ehx, !app_nil_r.
  - assert (Sl : state_ok k (loaded t h c [] 0 false)).
    { split; [exact Ht|]. split; [left; reflexivity|]. contradiction. }
    destruct (forced_dump k cls (loaded t h c [] 0 false) c o3 v' true Hk Sl eq_refl eq_refl Eg Hv) as (c' & o4 & Ed & Dc & _).
    rewrite Ed. cbn [snd]. now rewrite (der_value_unique k None v' c c' Hk Dv Dc).
Qed.
