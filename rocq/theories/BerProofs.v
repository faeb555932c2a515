(* Objects loaded from BER stand for the value that was encoded. *)
Require Import Verif.Base Verif.BaseFacts Verif.IntModel Verif.IntSpec Verif.IntProofs
  Verif.ParserModel Verif.ParserSpec Verif.ParserProofs Verif.ParserFacts Verif.Text Verif.BitModel Verif.BitSpec Verif.BitProofs
  Verif.CodecModel Verif.CodecSpec Verif.CodecProofs Verif.Calendar Verif.TimeModel Verif.TimeSpec Verif.TimeText Verif.TimeTextProofs
  Verif.TagSpec Verif.TagProofs Verif.ChunkSpec Verif.ChunkProofs
  Verif.PrimModel Verif.PrimSpec Verif.PrimProofs Verif.PrimSet Verif.PrimDump Verif.PrimLoad Verif.HistSpec Verif.PrimHist
  Verif.PrimRead Verif.PrimSide Verif.ContModel Verif.ContSpec Verif.ContBase Verif.ContRep Verif.ContPrim Verif.ContSeq Verif.ContSeq2
  Verif.ContList Verif.ContChoice Verif.ContPath Verif.ContHistSpec Verif.ContHist Verif.ContHist2 Verif.ContFinal Verif.BerSpec.
Require Import Sorting.Permutation Sorting.Sorted.

(* ---- primitive contents ---- *)
Lemma latin1_bytes c : bytes_ok c -> decode Latin1 c = Ok c.
Proof. intros _. cbn [decode]. induction c as [|b c IH]; cbn; auto. now rewrite IH. Qed.

Lemma ber_chunk l c : bytes_ok c -> ber_bits l c -> exists ub, bit_chunk c = Ok (bits_int l, len l, ub).
Proof.
  intros B (u & body & pad & -> & Hu & E & L). apply bytes_ok_cons in B as [_ B]. exists pad. now apply bit_chunk_ok.
Qed.

Lemma get_ber k cls t e v c : kind_ok k -> holds k None v -> ber_value k v c -> e_contents e = Some c -> e_indef e = false ->
  exists o' v', get_native k cls (Obj t e no_cache None) = (o', Ok v') /\ same_value k v v' /\ holds k None v'.
Proof.
  intros Hk Hh (B & [D|D]) Hc Hi.
  { destruct (get_loaded k cls t e None v c Hk Hh D B Hc Hi) as (o' & v' & E & S & H & _). eauto. }
  unfold get_native, contents. cbn [o_enc o_cache c_native c_bytes no_cache]. rewrite Hc, Hi. cbn zeta.
  unfold cached, no_cache. cbn [o_cache c_native].
  assert (S : forall o1, (forall s, v <> NSet s) -> exists o' v', (o1 : obj, Ok v) = (o', Ok v') /\ same_value k v v' /\ holds k None v').
  { intros o1 N1. exists o1, v. split; auto. split; [now apply same_value_refl|auto]. }
  destruct k as [|m|m|m| | | | | |m|en| |pad|].
  - destruct v; cbn [ber_form] in *; try contradiction. destruct D as (z & -> & Hz).
    replace (negb (eqb_bytes [z] [0])) with b; [apply S; discriminate|]. cbn. destruct (Z.eqb_spec z 0) as [->|Nz]; cbn.
    + destruct b; auto. exfalso. now apply (proj1 Hz eq_refl).
    + now apply Hz.
  - destruct Hk as [N1 N2]. assert (G : int_native m (int_from_bytes c true) = v).
    { rewrite int_from_bytes_signed by auto. unfold int_native.
      destruct v; cbn [ber_form holds] in *; try contradiction.
      - destruct D as (_ & ->). now rewrite map_get_none.
      - destruct D as (z & I & _ & ->). apply map_get_in in I; auto. now rewrite I. }
    rewrite G. destruct v; cbn [ber_form] in *; try contradiction; apply S; discriminate.
  - destruct m as [m|]; [|destruct v; contradiction]. destruct Hk as [N1 N2].
    destruct v; cbn [ber_form holds] in *; try contradiction.
    rewrite int_from_bytes_signed by auto. destruct D as (z & I & _ & ->).
    pose proof I as I'. apply map_get_in in I; auto. rewrite I. apply S; discriminate.
  - unfold bits_native. cbn [o_cache c_native o_enc]. rewrite Hi. unfold merged_int.
    destruct m as [m|].
    + destruct Hk as [N1 N2]. destruct v; cbn [ber_form holds] in *; try contradiction.
      destruct D as (bits & Db & Hb). destruct (ber_chunk _ _ B Db) as (ub & ->). cbn [bind]. rewrite int_to_bits_ok. cbn [bind].
      assert (Sv : forall x, In x s <-> In x (set_of_bits m bits)).
      { intros x. unfold set_of_bits. rewrite labels_in. split.
        - intros I. destruct (Hh x I) as (i & nm & Im & ->).
          assert (Pi : 0 <= i) by (rewrite Forall_forall in N2; exact (N2 _ Im)).
          exists (Z.to_nat i).
          assert (Nt : nth (Z.to_nat i) bits false = true) by (apply Hb; exists nm; rewrite Z2Nat.id by lia; auto).
          split; [|split; auto].
          + destruct (Nat.lt_ge_cases (Z.to_nat i) (length bits)); auto. rewrite nth_overflow in Nt by auto. discriminate.
          + unfold label_of. replace (0 + Z.of_nat (Z.to_nat i)) with i by lia.
            apply map_get_in in Im; auto. now rewrite Im.
        - intros (j & _ & Nt & ->). apply Hb in Nt as (nm & Im & Is). unfold label_of. rewrite Z.add_0_l.
          apply map_get_in in Im; auto. now rewrite Im. }
      eexists _, (NSet (set_of_bits m bits)). split; [reflexivity|]. split; [exact Sv|].
      intros x Hx. apply Sv in Hx. auto.
    + destruct v; cbn [ber_form holds] in *; try contradiction.
      destruct (ber_chunk _ _ B D) as (ub & ->). cbn [bind]. rewrite int_to_bits_ok. cbn [bind]. apply S; discriminate.
  - destruct v; contradiction.
  - destruct v; cbn [ber_form holds] in *; try contradiction. destruct D as (u & body & -> & Hu & Hb & ->).
    apply bytes_ok_cons in B as [_ B].
    assert (exists nb ub, bit_chunk (u :: body) = Ok (be_value body / 2 ^ u, nb, ub)) as (nb & ub & G).
    { destruct (split_unused u body Hu) as (a & b & Ea & Lb); [destruct Hb; tauto|].
      exists (len a), b. rewrite (bit_chunk_ok u body a b) by auto. f_equal. f_equal. f_equal.
      rewrite <- octets_bits_int, Ea, bits_int_app, Lb by auto. pose proof (bits_int_bound b) as Bb. rewrite Lb in Bb.
      rewrite Z.div_add_l by lia. rewrite Z.div_small by lia. lia. }
    unfold merged_int. cbn [o_cache c_native]. rewrite G. apply S; discriminate.
  - destruct v; contradiction.
  - destruct v; cbn [ber_form holds] in *; try contradiction.
    unfold merged_bytes. cbn [merge bytes_chunk bind]. unfold intoctets_decode. rewrite int_from_bytes_unsigned.
    rewrite D. apply S; discriminate.
  - destruct v; contradiction.
  - destruct v; contradiction.
  - destruct v; contradiction.
  - destruct v; cbn [ber_form] in *; try contradiction.
    unfold time_native, get_unicode. cbn [o_cache c_native c_unicode o_enc]. rewrite Hi.
    unfold merged_bytes. cbn [merge bytes_chunk bind]. rewrite latin1_bytes by auto.
    replace (utctime_native c) with (@Ok dt x) by (symmetry; apply utctime_reads; exists c; split; auto; now left). apply S; discriminate.
  - destruct v; cbn [ber_form] in *; try contradiction.
    unfold time_native, get_unicode. cbn [o_cache c_native c_unicode o_enc]. rewrite Hi.
    unfold merged_bytes. cbn [merge bytes_chunk bind]. rewrite latin1_bytes by auto.
    replace (gentime_native c) with (@Ok dt x) by (symmetry; apply gentime_reads; exists c; split; auto; now left). apply S; discriminate.
  - destruct Hk.
Qed.

(* ---- explicit tags ---- *)
Lemma within_peel ex Q : forall i hd tl, ber_info max_budget i -> within ex Q i ->
  exists j hd' tl', peel ex i hd tl = Ok (j, hd', tl') /\ ber_info max_budget j /\ Q j.
Proof.
  induction ex as [|[c t] ex IH]; intros i hd tl B H; cbn [within] in H.
  - exists i, hd, tl. auto.
  - destruct H as (H1 & H2 & H3 & j & Bj & Ej & H). cbn [peel]. rewrite H1, H2, H3, !Z.eqb_refl. cbn [negb]. rewrite Ej.
    pose proof (parse__0_complete j [] Bj) as P. rewrite app_nil_r in P. rewrite P. cbn [bind]. apply IH; auto.
Qed.
Lemma within_impl ex (Q Q' : info -> Prop) : (forall i, Q i -> Q' i) -> forall i, within ex Q i -> within ex Q' i.
Proof.
  intros H. induction ex as [|[c t] ex IH]; cbn [within]; auto. intros i (H1 & H2 & H3 & j & Bj & Ej & K). split; auto. split; auto. split; auto. exists j. auto.
Qed.

Lemma ber_cases c p Q i : params_ok p -> (p_implicit p = None \/ k_explicit c = []) -> ber_info max_budget i ->
  within (rev (t_explicit (tags_of c p))) Q i ->
  exists j hd tl, ber_info max_budget j /\ Q j /\
   ((has_explicit c p = false /\ p_explicit p = [] /\ j = i /\ hd = i_header i /\ tl = i_trailer i) \/
    (has_explicit c p = true /\ tags_of c p = Tagging (k_class c) (k_tag c) false (t_explicit (tags_of c p)) /\
       peel (rev (t_explicit (tags_of c p))) i (i_header i) (i_trailer i) = Ok (j, hd, tl))).
Proof.
  intros Hp Hi B H. destruct (within_peel _ _ i (i_header i) (i_trailer i) B H) as (j & hd & tl & P & Bj & Qj).
  exists j, hd, tl. split; auto. split; auto. pose proof (init_tags c p Hp) as It. destruct (has_explicit c p) eqn:He.
  - right. split; auto. split; auto. destruct (has_explicit_true _ _ _ It He) as [Nx _].
    unfold tags_of in *. destruct (params_shape p Hp) as [(c0 & t0 & -> & H1 & H2)|[(y & -> & H1 & H2)| ->]]; cbn in *; auto.
    destruct Hi as [Hi|Hi]; [discriminate|]. rewrite Hi in Nx. contradiction.
  - left. split; auto. pose proof (has_explicit_false _ _ _ It He) as Ex. rewrite Ex in P. cbn in P. injection P as <- <- <-.
    split; auto. unfold has_explicit in He; destruct Hp as (Np & _); rewrite Np in He; destruct (k_explicit c), (p_explicit p); auto; discriminate.
Qed.

(* ---- the outermost tag ---- *)
Lemma within_id ex Q i x : within (rev ex) Q i -> (forall j, Q j -> (i_class j, i_tag j) = x) ->
  In (i_class i, i_tag i) (match rev ex with [] => [x] | y :: _ => [y] end).
Proof.
  intros H K. destruct (rev ex) as [|[c t] r]; cbn [within] in H; [left; symmetry; auto|]. destruct H as (-> & _ & -> & _). now left.
Qed.

Lemma ber_ids s : wf s -> forall p a i, ber_info max_budget i -> ber_of s (stags s p) a i -> In (i_class i, i_tag i) (outer_ids s p).
Proof.
  induction s as [k c|c fs IH|c fs IH|c s IH|c s IH|ex alts IH] using spec_rect'; intros W p a i B H.
  - assert (KNull = k \/ exists v, within (rev (t_explicit (tags_of c p))) (ber_prim k c (tags_of c p) v) i) as [E|(v & H')].
    { cbn in H. destruct k; auto; destruct a; try contradiction; right; destruct H as (_ & _ & H); eauto. }
    + subst k. cbn [ber_of] in H. destruct a as [|[]| | | |]; try contradiction; try (now destruct H as (H & _)).
      destruct (der_info _ p _ _ W H) as (j & Bj & _ & Ej & Ij). assert (j = i) by (apply same_info0; auto). now subst j.
    + eapply within_id; [exact H'|]. intros j (-> & -> & _). reflexivity.
  - cbn in H. destruct a; try contradiction. eapply within_id; [exact H|]. intros j (-> & _ & -> & _). reflexivity.
  - cbn in H. contradiction.
  - cbn in H. destruct a; try contradiction. eapply within_id; [exact H|]. intros j (-> & _ & -> & _). reflexivity.
  - cbn in H. destruct a; try contradiction. eapply within_id; [exact H|]. intros j (-> & _ & -> & _). reflexivity.
  - cbn [ber_of stags t_explicit] in H. destruct a as [| | | |n b|]; try contradiction. cbn [outer_ids].
    destruct (rev (ex ++ p_explicit p)) as [|[c t] r] eqn:E; cbn [within] in H.
    + destruct H as (_ & H). apply some_ex in H as (f & Hf & _ & H). apply in_flat_map. exists f. split; auto.
      destruct (wf_alt _ _ _ W Hf) as (Wf & _). rewrite Forall_forall in IH. exact (IH f Hf Wf _ _ _ B H).
    + destruct H as (-> & _ & -> & _). now left.
Qed.

(* ---- loading ---- *)
Lemma prim_raw k c t h tr m x ind v : k <> KNull -> kind_ok k -> holds k None v ->
  ((m = 0 /\ ind = false /\ ber_value k v x) \/
   (m = 1 /\ ind = true /\ constructable k = true /\ k_explicit c = [] /\
    exists n xs y, segments (k_class c) (own_tag c) (tolerant k) n x xs /\ (n < 10)%nat /\
      (tolerant k = false -> xs <> []) /\ joined k xs y /\ ber_value k v y)) ->
  raw k c t v (Obj t (Enc m (Some h) (Some x) tr ind) no_cache None).
Proof.
  intros Nk Hk Hv H. unfold raw, meth_ok, contents. cbn [o_tagging o_width o_enc e_indef e_method e_header e_contents].
  split; auto. split; auto. split; auto. destruct H as [(-> & -> & V)|(-> & -> & Ck & Kx & n & xs & y & Sg & Hn & Ne & J & V)].
  - split; [left; reflexivity|]. split; [discriminate|]. split; [discriminate|]. exists x. split; auto. now apply (get_ber k c t _ v x).
  - split; [right; auto|]. split; [auto|]. split; [discriminate|]. exists x. split; auto.
    destruct (get_ber k c t (Enc 0 (Some h) (Some y) tr false) v y Hk Hv V eq_refl eq_refl) as (o' & v' & Eg & Sv & Hv').
    pose proof (segmented_native k c n x xs y t (Some h) tr None t (Some h) tr Kx Ck (proj1 V) Sg Hn Ne J) as E.
    unfold one_piece, in_segments in E. rewrite Eg in E. cbn [snd] in E.
    destruct (get_native k c (Obj t (Enc 1 (Some h) (Some x) tr true) no_cache None)) as [o2 r] eqn:E2. cbn [snd] in E. subst r. eauto.
Qed.

Lemma build_ber_prim k c p v i : wf (SPrim k c) -> taggable (SPrim k c) p -> k <> KNull -> holds k None v -> ber_info max_budget i ->
  within (rev (t_explicit (tags_of c p))) (ber_prim k c (tags_of c p) v) i ->
  exists o, build k c p i = Ok o /\ raw k c (tags_of c p) v o.
Proof.
  intros W T Nk Hv B H. destruct W as (Hk & Hc). pose proof (proj1 T) as Hp.
  assert (Hi : p_implicit p = None \/ k_explicit c = []) by (destruct T as (_ & [Hi|[Hi _]] & _); auto).
  destruct (ber_cases c p _ i Hp Hi B H) as (j & hd & tl & Bj & (J1 & J2 & J3) & [(He & Pe & -> & -> & ->)|(He & Sh & P)]).
  - unfold build, build_plain. rewrite He, (init_tags c p Hp). cbn [bind]. rewrite J1, J2, !Z.eqb_refl. cbn [negb andb].
    destruct J3 as [(M & V)|(M & Tr & Ck & Kx & J3)]; rewrite M.
    + change (0 =? 0) with true. cbn [negb andb]. eexists. split; [reflexivity|]. apply prim_raw; auto.
    + change (1 =? 0) with false. change (1 =? 1) with true. rewrite Tr, Ck. cbn [negb andb eqb_bytes]. rewrite !Z.eqb_refl. cbn [andb negb].
      eexists. split; [reflexivity|]. apply prim_raw; auto. right. auto.
  - unfold build. rewrite He, (init_tags c p Hp). cbn [bind]. rewrite P. cbn [bind]. unfold build_plain.
    change (init_tagging c (Params [] None true)) with (Ok (Tagging (k_class c) (k_tag c) false [])). cbn [bind t_class t_tag].
    pose proof Sh as Sh'. rewrite Sh in J1, J2. cbn [t_class t_tag] in J1, J2. rewrite J1, J2, !Z.eqb_refl. cbn [negb andb].
    destruct J3 as [(M & V)|(M & Tr & Ck & Kx & J3)]; rewrite M.
    + change (0 =? 0) with true. cbn [negb andb bind o_tagging o_enc o_cache o_width e_method e_contents e_indef t_class t_tag t_implicit].
      rewrite <- Sh. eexists. split; [reflexivity|]. apply prim_raw; auto.
    + change (1 =? 0) with false. change (1 =? 1) with true. rewrite Tr, Ck. cbn [negb andb eqb_bytes]. rewrite !Z.eqb_refl. cbn [andb negb].
      cbn [negb andb bind o_tagging o_enc o_cache o_width e_method e_contents e_indef t_class t_tag t_implicit].
      rewrite <- Sh. eexists. split; [reflexivity|]. apply prim_raw; auto. right. auto.
Qed.

Definition loads (s : spec) : Prop := forall p dflt i a, taggable s p -> default_fine s p dflt -> ber_info max_budget i ->
  ber_of s (stags s p) a i ->
  exists v a', x_build (methods s) p dflt i = Ok v /\ sim s a a' /\ fresh (methods s) (rep Stale true s (stags s p) a') v.

Lemma loads_prim k c : wf (SPrim k c) -> loads (SPrim k c).
Proof.
  intros W p dflt i a T Df B H.
  assert ((k = KNull /\ der (SPrim k c) (stags (SPrim k c) p) a (encoding_of i)) \/
     exists v, a = APrim v /\ k <> KNull /\ holds k None v /\ within (rev (t_explicit (tags_of c p))) (ber_prim k c (tags_of c p) v) i) as [(E & D)|(v & -> & Nk & Hv & H')].
  { cbn [ber_of stags] in H. destruct k; try (destruct a; try contradiction; right; exists v; tauto).
    destruct a as [|[]| | | |]; try contradiction; try (now destruct H as (H & _)). left. auto. }
  - destruct (K_build _ (contract_prim k c W) p dflt i a T Df B D) as (v & a' & E' & S & (R & F1 & F2)). exists v, a'. split; auto. split; auto.
    assert (G : forall u, rep Own true (SPrim k c) (stags (SPrim k c) p) a' u -> rep Stale true (SPrim k c) (stags (SPrim k c) p) a' u)
      by (intros u; apply rep_weaken; auto).
    split; [now apply G|]. split; auto. destruct v; auto; destruct F2 as (b' & X & Y & Z); exists b'; auto.
  - destruct (build_ber_prim k c p v i W T Nk Hv B H') as (o & Eb & Ro). exists (VPrim o), (APrim v).
    cbn [methods prim_ops x_build]. rewrite Eb. split; [reflexivity|]. split; [cbn; split; auto; split; auto; now apply same_value_refl|].
    split; [|split; auto]. cbn. split; auto.
Qed.

Lemma one_pos Q y : one_of Q y -> y <> [].
Proof. intros (i & B & -> & _) E. apply encoding_pos in B. rewrite E in B. now apply Z.lt_irrefl in B. Qed.

Definition ber_field (f : fld * spec) (na : text * aval) (y : bytes) : Prop :=
  fst na = fname f /\
  ((y = [] /\ match fpres f with
              | Required => False
              | Optional => snd na = ANone
              | Default d => exists ad, denotes (snd f) d ad /\ sim (snd f) (snd na) ad
              end) \/
   one_of (ber_of (snd f) (ftags f) (snd na)) y).

Lemma ber_found c fs : wf (SSeq c fs) -> (forall f, In f fs -> loads (snd f)) -> found_in fs ber_field Stale.
Proof.
  intros W L. assert (C : forall f, In f fs -> contract (snd f)) by (intros f Hf; apply contract_all; apply (wf_tags c fs f W Hf)).
  split.
  - intros f na Hf (En & [(_ & H)|H]); [|now apply one_pos in H]. destruct (wf_tags c fs f W Hf) as (Wf & T & Tk).
    destruct (fpres f) as [| |d] eqn:X; [contradiction| |]; (split; [discriminate|]).
    + exists VVoid, na. unfold absent_child, fmeth. unfold fpres in X. rewrite X. split; auto. split.
      * apply simf_cases. split; auto.
      * apply crep_cases. split; auto.
    + destruct H as (ad' & D1' & S2).
      destruct (made_default c fs W C f d Hf X) as (v & ad & a' & w' & Ev & D1 & D2 & D3 & S1 & R & Hd).
      assert (ad' = ad) by (eapply denotes_fun; eauto). subst ad'.
      exists v, (fname f, a'). unfold absent_child, fmeth. unfold fpres in X. rewrite X. split; auto.
      assert (S3 : sim (snd f) (snd na) a') by (eapply sim_trans; eauto).
      split; [apply simf_cases; split; auto|]. apply crep_cases. split; auto. right. right. eapply rep_weaken; [| |exact R]; auto.
  - intros f na y Hf (En & [(-> & _)|H]) N; [contradiction|]. destruct (wf_tags c fs f W Hf) as (Wf & T & Tk).
    destruct H as (i & B & -> & H). exists i. split; auto. split; auto. split; [exact (ber_ids _ Wf _ _ _ B H)|].
    destruct (L f Hf (f_params (fst f)) (default_of (fst f)) i (snd na) T (default_fine_field c fs W f Hf) B H) as (v & a' & Ev & S1 & R).
    exists (fname f, a'). split; [apply simf_cases; split; auto|]. apply crep_cases. split; auto. right. left. exists i, v.
    split; auto. split; auto. split; [discriminate|]. auto.
Qed.

Lemma loads_seq c fs : wf (SSeq c fs) -> (forall f, In f fs -> loads (snd f)) -> loads (SSeq c fs).
Proof.
  intros W L p dflt i a T Df B H. assert (C : forall f, In f fs -> contract (snd f)) by (intros f Hf; apply contract_all; apply (wf_tags c fs f W Hf)).
  cbn [ber_of stags] in H. destruct a as [| |la| | |]; try contradiction. cbn [stags].
  assert (Hi : p_implicit p = None \/ k_explicit c = []) by (destruct T as (_ & [Hi|[Hi _]] & _); auto).
  destruct (ber_cases c p _ i (proj1 T) Hi B H) as (j & hd & tl & Bj & (J1 & J2 & J3 & ys & Ej & Fy) & Sh).
  destruct (children_found c fs W C ber_field Stale (ber_found c fs W L) la ys Fy) as (l & la' & El & S1 & Rl). rewrite <- Ej in El.
  destruct (build_found c fs Stale p dflt i j hd tl la' l T Df Sh J1 J2 J3 El Rl) as (v & Ev & Fr); [discriminate| |].
  - intros d ->. destruct Df as (_ & _ & _ & ad & D1 & D2).
    assert (exists la0, ad = ADict la0) as [la0 ->] by (cbn in D1; destruct d, ad; try contradiction; eauto).
    destruct (make_seq_ok c fs W C p d la0 T D1 D2) as (v & _ & Ev & _).
    exists v. rewrite <- Ev. exact (make_default (SSeq c fs) p d eq_refl).
  - exists v, (ADict la'). split; [exact Ev|]. split; [now apply sim_seq|exact Fr].
Qed.

Lemma loads_list c s sorted : wf (LS c s sorted) -> loads s -> loads (LS c s sorted).
Proof.
  intros W L p dflt i a T Df B H. destruct (W_parts c s sorted W) as (Wc & Ws & Ts & Ce). pose proof (contract_all s Ws) as C.
  destruct (LS_taggable c s sorted p T) as [Hp Hi].
  assert (exists la lb, a = AList la /\ (exists m, Permutation la m /\ m = lb /\ (sorted = false -> la = lb)) /\
     within (rev (t_explicit (tags_of c p))) (ber_constructed (tags_of c p) (fun x => exists ys, x = concat ys /\
        all2 (fun a y => one_of (ber_of s (stags s no_params) a) y) lb ys)) i) as (la & lb & -> & (m & P & -> & Pe) & H').
  { unfold LS in H. destruct sorted; cbn [ber_of stags] in H; destruct a as [| | |la| |]; try contradiction.
    - exists la. clear - H. revert i H. induction (rev (t_explicit (tags_of c p))) as [|[cl tg] ex IH]; intros i H; cbn [within] in *.
      + destruct H as (H1 & H2 & H3 & ys & lb & E & P & A). exists lb. split; auto. split; [exists lb; split; auto; split; auto; discriminate|].
        split; auto. split; auto. split; auto. exists ys. auto.
      + destruct H as (H1 & H2 & H3 & j & Bj & Ej & H). destruct (IH j H) as (lb & E & P & A). exists lb. split; auto. split; auto.
        split; auto. split; auto. split; auto. exists j. auto.
    - exists la, la. split; auto. split; [exists la; auto|]. exact H. }
  rewrite (LS_tags c s sorted) in *.
  destruct (ber_cases c p _ i Hp Hi B H') as (j & hd & tl & Bj & (J1 & J2 & J3 & ys & Ej & Fy) & Sh).
  assert (F : forall a y, one_of (ber_of s (stags s no_params) a) y ->
     exists i, ber_info max_budget i /\ encoding_of i = y /\ exists a', sim s a a' /\ erep Stale true s a' (VLazy i)).
  { intros a y (k & Bk & -> & K). exists k. split; auto. split; auto.
    destruct (L no_params None k a Ts I Bk K) as (v & a' & Ev & S1 & R). exists a'. split; auto. apply erep_cases. left. exists k, v.
    split; auto. split; auto. split; [discriminate|]. auto. }
  destruct (list_found s _ Stale F lb ys Fy (S (length (concat ys))) []) as (l & lb' & El & S1 & Rl); [lia|].
  cbn [app] in El. change (len (@nil Z)) with 0 in El.
  assert (El' : list_children (i_contents j) = Ok l) by (rewrite Ej; exact El).
  destruct (build_list_found c s sorted W Stale p dflt i j hd tl lb' l T Sh J1 J2 J3 El' Rl) as (v & Ev & Fr); [discriminate| |].
  - intros d ->. destruct Df as (_ & _ & _ & ad & D1 & D2).
    assert (exists la0, ad = AList la0) as [la0 ->] by (unfold LS in D1; destruct sorted; cbn in D1; destruct d, ad; try contradiction; eauto).
    destruct (make_list_ok c s sorted W C p d la0 T D1 D2) as (v & _ & Ev & _).
    exists v. rewrite <- Ev. pose proof (make_default (LS c s sorted) p d) as Md. rewrite (LS_methods c s sorted W) in Md. apply Md. unfold LS. destruct sorted; reflexivity.
  - exists v, (AList lb'). split; [rewrite (LS_methods c s sorted W); exact Ev|]. split; [|exact Fr].
    unfold LS. destruct sorted; cbn [sim]; [exists lb; auto|]. rewrite Pe by auto. exact S1.
Qed.

Lemma loads_choice ex alts : wf (SChoice ex alts) -> (forall f, In f alts -> loads (snd f)) -> loads (SChoice ex alts).
Proof.
  intros W L p dflt i a T Df B H. assert (C : forall f, In f alts -> contract (snd f)) by (intros f Hf; apply contract_all; apply (wf_alt _ _ _ W Hf)).
  assert (dflt = None) as -> by (destruct dflt; auto; destruct Df as (X & _); discriminate).
  destruct (choice_params ex alts W p T) as (Hp & Ni & Et & Cx).
  cbn [ber_of stags t_explicit] in H. destruct a as [| | | |n b|]; try contradiction.
  assert (PC : forall p' j, init_choice ex p' = Ok (Tagging 0 0 false []) -> ber_info max_budget j -> i_trailer j = [] ->
     some (fun f => fname f = n /\ ber_of (snd f) (ftags f) b j) alts ->
     exists f v k b', plain_choice ex (fields alts) p' j = Ok (VChoice (Tagging 0 0 false []) (Enc 1 (Some []) (Some (encoding_of j)) [] false) (Some k) (Some v)) /\
       nth_error alts k = Some f /\ fname f = n /\ sim (snd f) b b' /\ rep Stale true (snd f) (ftags f) b' v /\ has_dict v = false).
  { intros p' j Ei Bj Tj K. apply some_ex in K as (f & Hf & En & K). destruct (wf_alt _ _ _ W Hf) as (Wf & Tf & Nc & Ce & Tk).
    pose proof (ber_ids _ Wf _ _ _ Bj K) as Ij. destruct (alt_of_ok ex alts W f _ _ Hf Ij) as (k & Ek & Hk).
    destruct (L f Hf _ None j b Tf I Bj K) as (v & b' & Ev & S1 & R & Hd & _).
    exists f, v, k, b'. split; [|auto 10]. unfold plain_choice. rewrite Ei. cbn [bind t_explicit validate]. rewrite Ek. cbn [bind].
    assert (Ec : i_header j ++ i_contents j = encoding_of j) by (unfold encoding_of; rewrite Tj, app_nil_r; reflexivity).
    cbn [parse_choice]. rewrite (meth_nth alts _ _ Hk). unfold fmeth. cbn [e_contents]. rewrite Ec.
    pose proof (parse__0_complete j [] Bj) as Q. rewrite app_nil_r in Q. rewrite Q. cbn [bind]. rewrite Ev. cbn [place_header e_method e_contents e_indef]. now rewrite Tj. }
  destruct (within_peel _ _ i (i_header i) (i_trailer i) B H) as (j & hd & tl & P & Bj & Tj & K).
  assert (He : has_explicit (choice_cls ex) p = match ex ++ p_explicit p with [] => false | _ => true end).
  { unfold has_explicit. destruct Hp as (Np & _). rewrite Np. cbn. destruct ex, (p_explicit p); reflexivity. }
  cbn [methods choice_ops x_build]. change (map (fun fs : fld * spec => (fst fs, methods (snd fs))) alts) with (fields alts).
  unfold build_choice. rewrite He. destruct Cx as [Cx|(x & Cx)].
  - rewrite Cx in *. cbn in P. injection P as <- <- <-.
    destruct (PC p i) as (f & v & k & b' & Ev & Hk & En & S1 & R & Hd); auto.
    { rewrite Et. cbn [stags]. now rewrite Cx. }
    rewrite Ev. pose proof (nth_error_In _ _ Hk) as Hf. subst n. eexists _, (AChoice (fname f) b'). split; [reflexivity|]. split; [apply (choice_sim ex alts); auto|]. split; [|split; [exact Hd|exact I]].
    apply rep_choice_eq; auto. eexists b', _, k, v, f. split; [reflexivity|]. cbn [stags]. rewrite Cx. split; [reflexivity|]. split; auto. split; auto. discriminate.
  - assert (Cx' := Cx). rewrite Cx in P |- *. unfold make_choice. rewrite Et. cbn [bind stags t_explicit]. rewrite Cx. rewrite P. cbn [bind].
    destruct (PC (Params [] None true) j) as (f & v & k & b' & Ev & Hk & En & S1 & R & Hd); auto.
    rewrite Ev. cbn [bind]. unfold place_explicit. cbn [place_header]. unfold with_explicit. cbn [t_class t_tag t_implicit].
    pose proof (nth_error_In _ _ Hk) as Hf. subst n. eexists _, (AChoice (fname f) b'). split; [reflexivity|]. split; [apply (choice_sim ex alts); auto|]. split; [|split; [exact Hd|exact I]].
    apply rep_choice_eq; auto. eexists b', _, k, v, f. split; [reflexivity|]. split; [reflexivity|]. split; auto. split; auto. discriminate.
Qed.

Theorem loads_all s : wf s -> loads s.
Proof.
  induction s as [k c|c fs IH|c fs IH|c s IH|c s IH|ex alts IH] using spec_rect'; intros W.
  - now apply loads_prim.
  - apply loads_seq; auto. rewrite Forall_forall in IH. intros f Hf. apply IH; auto. apply (wf_tags c fs f W Hf).
  - intros p dflt i a _ _ _ H. contradiction.
  - apply (loads_list c s false W). apply IH. apply (W_parts c s false W).
  - apply (loads_list c s true W). apply IH. apply (W_parts c s true W).
  - apply loads_choice; auto. rewrite Forall_forall in IH. intros f Hf. apply IH; auto. apply (wf_alt _ _ _ W Hf).
Qed.
