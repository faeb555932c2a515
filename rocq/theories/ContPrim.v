(* Tags of the fields of structured types, and the methods of primitive classes in them. *)
Require Import Verif.Base Verif.BaseFacts Verif.IntModel Verif.IntSpec Verif.IntProofs
  Verif.ParserModel Verif.ParserSpec Verif.ParserProofs Verif.ParserFacts Verif.Text Verif.CodecModel Verif.TagSpec Verif.TagProofs
  Verif.PrimModel Verif.PrimSpec Verif.PrimProofs Verif.PrimSet Verif.PrimDump Verif.PrimLoad Verif.HistSpec Verif.PrimHist
  Verif.PrimRead Verif.PrimSide Verif.ContModel Verif.ContSpec Verif.ContBase Verif.ContRep.
Require Import Sorting.Permutation Sorting.Sorted.

Lemma same_info i j r r' : ber_info max_budget i -> ber_info max_budget j ->
  encoding_of i ++ r = encoding_of j ++ r' -> i = j /\ r = r'.
Proof.
  intros Hi Hj E. pose proof (parse__0_complete i r Hi) as P. pose proof (parse__0_complete j r' Hj) as Q.
  rewrite <- E, P in Q. injection Q as <- _. split; auto. now apply app_inv_head in E.
Qed.
Lemma same_info0 i j : ber_info max_budget i -> ber_info max_budget j -> encoding_of i = encoding_of j -> i = j.
Proof. intros Hi Hj E. apply (same_info i j [] []); auto. now rewrite E. Qed.

Lemma encoding_pos i : ber_info max_budget i -> 0 < len (encoding_of i).
Proof.
  intros H. pose proof (parse__0_complete i [] H) as P. rewrite app_nil_r in P.
  destruct (encoding_of i) as [|x r]; [|unfold len; cbn [length]; lia]. vm_compute in P. discriminate.
Qed.

Lemma class_ok_range c : 0 <= c <= 3 -> class_ok c = true.
Proof. intros H. unfold class_ok. lia. Qed.

Lemma init_tags c p : params_ok p -> init_tagging c p = Ok (tags_of c p).
Proof.
  intros (N & V & _ & I). unfold init_tagging, tags_of. rewrite N. destruct (p_explicit p) as [|x r] eqn:E.
  - destruct (p_implicit p) as [[cl tg]|]; [|now rewrite app_nil_r]. destruct I as (I & _). now rewrite class_ok_range.
  - assert (F : forallb (fun ct => class_ok (fst ct)) (x :: r) = true).
    { apply forallb_forall. intros y Hy. unfold tags_valid in V. rewrite Forall_forall in V. apply class_ok_range, V, Hy. }
    rewrite F. destruct (p_implicit p) as [[cl tg]|]; [|reflexivity]. destruct I as (_ & _ & I). discriminate.
Qed.

Lemma params_shape p : params_ok p ->
  (exists c t, p = Params [] (Some (c, t)) false /\ 0 <= c <= 3 /\ 0 <= t) \/
  (exists x, p = Params [x] None false /\ 0 <= fst x <= 3 /\ 0 <= snd x) \/ p = no_params.
Proof.
  destruct p as [ex im ne]. intros (N & V & L & I). cbn in *. subst ne. unfold no_params. destruct im as [[c t]|].
  - destruct I as (? & ? & ->). left. eauto 6.
  - destruct ex as [|x [|y r]]; cbn in L; [auto| |lia]. inversion V; subst. right. left. exists x. auto.
Qed.
Lemma no_params_ok : params_ok no_params.
Proof. unfold no_params, params_ok. cbn. repeat split; auto. constructor. Qed.

Lemma taggable_none s : (is_choice s = true -> (length (class_explicit s) <= 1)%nat) -> taggable s no_params.
Proof. intros H. split; [apply no_params_ok|]. split; [left; reflexivity|]. cbn. now rewrite app_nil_r. Qed.

(* the tags put on by _fix_tagging: Params of the same tags *)
Lemma fix_params p : params_ok p -> Params (p_explicit p) (p_implicit p) false = p.
Proof. destruct p. intros (N & _). cbn in *. now subst. Qed.

Lemma der_sim s : wf s -> forall t a b d, sim s a b -> der s t a d -> der s t b d.
Proof.
  induction s as [k cl|cl fs IH|cl fs IH|cl s IH|cl s IH|ex alts IH] using spec_rect'; intros W t a b d S H.
  - destruct a; try contradiction. destruct b; try contradiction. cbn in *. destruct H as (H & x & D & Dd), S as (_ & S & K).
    split; auto. exists x. split; [|exact Dd]. eapply der_value_same; eauto.
  - destruct a as [| |la| | |]; try contradiction. destruct b as [| |lb| | |]; try contradiction. rewrite sim_seq in S.
    cbn [der] in *. destruct H as (ys & Dd & H). exists ys. split; [exact Dd|]. clear Dd.
    destruct W as (_ & _ & _ & _ & W). rewrite all1_in in W. rewrite Forall_forall in IH.
    revert la lb ys H S. induction fs as [|f fs IHl]; intros [|na la] [|nb lb] [|y ys]; cbn; try tauto.
    intros [H1 H2] [S1 S2]. split; [|refine (IHl _ _ la lb ys H2 S2); intros z Hz; [apply (IH z)|apply (W z)]; now right].
    specialize (IH f (or_introl eq_refl)). destruct (W f (or_introl eq_refl)) as (Wf & _).
    change (encf (der (snd f)) f na y) in H1. change (encf (der (snd f)) f nb y). apply encf_cases in H1 as (E & H1). apply simf_cases in S1 as (_ & E' & S1). apply encf_cases. split; auto.
    destruct H1 as [(X & Y & H1)|[(X & Y & H1)|[(X & H1)|(dv & w & X & H1 & H1')]]]; destruct S1 as [(X' & Y' & Z')|S1]; try congruence.
    + left. auto.
    + rewrite Y in S1. apply sim_not_none in S1. tauto.
    + right. left. split; auto. split; [apply sim_not_none in S1; tauto|]. eapply IH; eauto.
    + right. right. left. split; auto. eapply IH; eauto.
    + right. right. right. exists dv, w. split; auto. split; auto. eapply IH; eauto.
  - contradiction.
  - destruct a; try contradiction. destruct b; try contradiction. cbn in *. destruct H as (ds & H & Dd). exists ds. split; [|exact Dd].
    apply (all2_sym _ (fun y x => der s (stags s no_params) x y)) in H; [|auto].
    apply (all2_sym (fun y x => der s (stags s no_params) x y)); [auto|].
    eapply all2_trans; [|exact H|exact S]. cbn beta. intros y x z _ E K. eapply IH; eauto. tauto.
  - destruct a; try contradiction. destruct b; try contradiction. cbn in *. destruct H as (ds & es & H & P & So & Dd).
    destruct S as (m & Pm & S). destruct (all2_perm _ _ _ Pm _ H) as (ds' & P' & H'). exists ds', es.
    split; [|split; auto].
    + apply (all2_sym _ (fun y x => der s (stags s no_params) x y)) in H'; [|auto].
      apply (all2_sym (fun y x => der s (stags s no_params) x y)); [auto|].
      eapply all2_trans; [|exact H'|exact S]. cbn beta. intros y x z _ E K. eapply IH; eauto. tauto.
    + eapply perm_trans; [apply Permutation_sym, P'|exact P].
  - destruct a; try contradiction. destruct b; try contradiction. cbn in *. destruct H as (w & Dd & H), S as (-> & S).
    exists w. split; auto. apply some_ex in H as (f & Hf & <- & H), S as (g & Hg & E & S). destruct W as (_ & W1 & _ & W2).
    assert (g = f) as -> by (eapply nodup_same; eauto). apply some_ex. exists f. split; auto. split; auto.
    rewrite all1_in in W2. rewrite Forall_forall in IH. eapply IH; eauto. apply W2; auto.
Qed.

Lemma fits_sim s a b : wf s -> sim s a b -> fits s a -> fits s b.
Proof. intros W S (t & d & T & D). exists t, d. split; auto. eapply der_sim; eauto. Qed.
Lemma der_fits s t a d : tagging_ok t -> der s t a d -> fits s a.
Proof. intros T D. exists t, d. auto. Qed.
Lemma der_encodes s t a d : wf s -> tagging_ok t -> der s t a d -> encodes s t a d.
Proof. intros W T. apply (encodes_der_both s W t T). Qed.

Definition der_field (f : fld * spec) := encf (der (snd f)) f.

Lemma wf_tags c fs f : wf (SSeq c fs) -> In f fs -> wf (snd f) /\ taggable (snd f) (f_params (fst f)) /\ tagging_ok (ftags f).
Proof.
  intros (_ & _ & _ & _ & W) Hf. rewrite all1_in in W. destruct (W f Hf) as (A & B & _). split; auto. split; auto. now apply stags_ok.
Qed.

Lemma fits_fields c fs la : fits (SSeq c fs) (ADict la) -> exists ys, all3 der_field fs la ys /\ len (concat ys) < 2 ^ 1008.
Proof.
  intros (t & d & T & D). cbn in D. destruct D as (ys & Dc & D). exists ys. split; [exact D|].
  now apply der_constructed_bytes in Dc.
Qed.
Lemma der_enc_field c fs : wf (SSeq c fs) -> forall la ys, all3 der_field fs la ys -> all3 enc_field fs la ys.
Proof.
  intros W la ys. revert W la ys.
  assert (G : forall l, (forall f, In f l -> In f fs) -> wf (SSeq c fs) -> forall la ys, all3 der_field l la ys -> all3 enc_field l la ys).
  { intros l. induction l as [|f l IHl]; intros S W [|na la] [|y ys]; cbn [all3]; try tauto. intros [H1 H2].
    split; [|apply IHl; auto; intros; apply S; now right].
    destruct (wf_tags c fs f W (S f (or_introl eq_refl))) as (Wf & _ & T).
    destruct (encodes_der_both _ Wf _ T) as [ED DE].
    apply encf_cases in H1 as (E & H1). apply encf_cases. split; auto.
    destruct H1 as [(X & Y & H1)|[(X & Y & H1)|[(X & H1)|(dv & w & X & H1 & H1')]]]; auto 6.
    right. right. right. exists dv, w. split; auto. split; auto.
    assert (EQ : forall ad, denotes (snd f) dv ad -> encodes (snd f) (ftags f) ad w -> der (snd f) (ftags f) ad w).
    { intros ad D1 D2. destruct W as (_ & _ & _ & _ & W). rewrite all1_in in W.
      destruct (W f (S f (or_introl eq_refl))) as (_ & _ & Wd). rewrite X in Wd. destruct Wd as (_ & _ & ad' & w' & D1' & D2' & L).
      assert (ad' = ad) by (eapply denotes_fun; eauto). subst ad'. assert (w = w') by (eapply encodes_fun; eauto). now subst w'. }
    destruct H1' as [((ad & D1 & D2) & ->)|(H3 & ->)].
    - left. split; auto. exists ad. auto.
    - right. split; auto. intros (ad & D1 & D2). apply H3. exists ad. auto. }
  intros W. apply G; auto.
Qed.

(* what a value of the fields in der form has in each field *)
Lemma fits_field f na y : tagging_ok (ftags f) -> der_field f na y -> fst na = fname f /\ ((fpres f = Optional /\ snd na = ANone) \/ fits (snd f) (snd na)).
Proof.
  intros T H. apply encf_cases in H as (E & H). split; auto.
  destruct H as [(X & Y & H1)|[(X & Y & H1)|[(X & H1)|(dv & w & X & H1 & H1')]]]; auto; right; eapply der_fits; eauto.
Qed.

(* ---- explicit wrappers ---- *)
Lemma wrapped_info ex j d : ber_info max_budget j -> i_trailer j = [] -> der_wrapped ex (encoding_of j) d ->
  exists i, ber_info max_budget i /\ i_trailer i = [] /\ encoding_of i = d /\
    match rev ex with [] => i = j | x :: _ => (i_class i, i_tag i) = x end.
Proof.
  intros Bj Tj Hw. destruct (peel_wrapped ex j d [] [] Bj Tj Hw) as (i & hd & Bi & Ti & Ei & P & _).
  exists i. split; auto. split; auto. split; auto. destruct (rev ex) as [|[c t] r]; cbn [peel] in P.
  - now injection P as ->.
  - destruct (i_class i =? c) eqn:E1; [|discriminate]. destruct (i_method i =? 1); [|discriminate]. cbn [negb] in P.
    destruct (i_tag i =? t) eqn:E2; [|discriminate]. f_equal; lia.
Qed.

Lemma tlv_info c m t x d : der_tlv c m t x d -> exists h, ber_info max_budget (mkInfo c m t h x []) /\ encoding_of (mkInfo c m t h x []) = d.
Proof.
  intros H. destruct (der_tlv_ber _ _ _ _ _ 10 H) as (h & E & B). exists h. split; [exact B|]. unfold encoding_of. cbn. now rewrite app_nil_r.
Qed.

Lemma tagged_info c m t ex x inner d : der_tlv c m t x inner -> der_wrapped ex inner d ->
  exists i, ber_info max_budget i /\ i_trailer i = [] /\ encoding_of i = d /\
    (i_class i, i_tag i) = match rev ex with [] => (c, t) | x :: _ => x end.
Proof.
  intros H Hw. destruct (tlv_info _ _ _ _ _ H) as (h & B & E). rewrite <- E in Hw.
  destruct (wrapped_info _ _ _ B eq_refl Hw) as (i & Bi & Ti & Ei & K). exists i. split; auto. split; auto. split; auto.
  destruct (rev ex); auto. now subst i.
Qed.

Lemma der_info s : forall p a d, wf s -> der s (stags s p) a d ->
  exists i, ber_info max_budget i /\ i_trailer i = [] /\ encoding_of i = d /\ In (i_class i, i_tag i) (outer_ids s p).
Proof.
  assert (G : forall t m x d inner, der_tlv (t_class t) m (t_tag t) x inner -> der_wrapped (t_explicit t) inner d ->
    exists i, ber_info max_budget i /\ i_trailer i = [] /\ encoding_of i = d /\
      In (i_class i, i_tag i) (match rev (t_explicit t) with [] => [(t_class t, t_tag t)] | x :: _ => [x] end)).
  { intros t m x d inner H Hw. destruct (tagged_info _ _ _ _ _ _ _ H Hw) as (i & Bi & Ti & Ei & K). exists i.
    split; auto. split; auto. split; auto. rewrite K. destruct (rev (t_explicit t)); now left. }
  induction s as [k cl|cl fs IH|cl fs IH|cl s IH|cl s IH|ex alts IH] using spec_rect'; intros p a d W H; destruct a; try contradiction; cbn [der] in H.
  - destruct H as (_ & x & _ & inner & Ht & Hw). exact (G _ _ _ _ _ Ht Hw).
  - destruct H as (ys & (inner & Ht & Hw) & _). exact (G _ _ _ _ _ Ht Hw).
  - destruct H as (ys & _ & (inner & Ht & Hw)). exact (G _ _ _ _ _ Ht Hw).
  - destruct H as (ys & es & _ & _ & _ & (inner & Ht & Hw)). exact (G _ _ _ _ _ Ht Hw).
  - destruct H as (w & Hw & H). apply some_ex in H as (f & Hf & E & H).
    destruct W as (_ & _ & _ & W). rewrite all1_in in W. rewrite Forall_forall in IH.
    destruct (IH f Hf _ _ _ (proj1 (W f Hf)) H) as (j & Bj & Tj & Ej & K). subst w.
    destruct (wrapped_info _ _ _ Bj Tj Hw) as (i & Bi & Ti & Ei & K2). exists i. split; auto. split; auto. split; auto.
    cbn [stags t_explicit outer_ids] in *. destruct (rev (ex ++ p_explicit p)).
    + subst j. apply in_flat_map. exists f. auto.
    + left. auto.
Qed.

Lemma der_pos s p a d : wf s -> der s (stags s p) a d -> d <> [].
Proof.
  intros W H E. subst d. destruct (der_info s p a [] W H) as (i & B & _ & E & _). apply encoding_pos in B. rewrite E in B. discriminate B.
Qed.

Lemma same_id_some x c t : same_id (Some x) c t = true <-> x = (c, t).
Proof. destruct x as [c' t']. cbn. split; [intros H; f_equal; lia|intros H; injection H as -> ->; lia]. Qed.

Lemma field_id_in s p c t : is_choice s = false -> class_explicit s = [] -> params_ok p ->
  same_id (field_id p (methods s)) c t = true <-> In (c, t) (outer_ids s p).
Proof.
  intros Hc He Hp. destruct (params_shape p Hp) as [(c' & t' & -> & _)|[(x & -> & _)| ->]].
  - unfold field_id. cbn [p_explicit p_implicit]. rewrite same_id_some.
    destruct s; try discriminate; cbn in He |- *; unfold tags_of; cbn; rewrite He; cbn; intuition congruence.
  - unfold field_id. cbn [p_explicit]. rewrite same_id_some.
    destruct s; try discriminate; cbn in He |- *; unfold tags_of; cbn; rewrite He; cbn; intuition congruence.
  - unfold field_id. cbn [p_explicit p_implicit no_params].
    destruct s; try discriminate; cbn in He |- *; unfold tags_of; cbn; rewrite He; cbn;
      (rewrite andb_true_iff, !Z.eqb_eq; split; [intros [X Y]; left; congruence|intros [E|[]]; injection E; auto]).
Qed.

Lemma alt_of_some alts : forall n c t m, alt_of (fields alts) n c t = Some m ->
  exists f, (n <= m)%nat /\ nth_error alts (m - n) = Some f /\ same_id (field_id (f_params (fst f)) (methods (snd f))) c t = true.
Proof.
  induction alts as [|f alts IH]; intros n c t m; cbn; [discriminate|]. fold (fields alts). destruct (alt_of (fields alts) (S n) c t) as [k|] eqn:E.
  - intros HH; injection HH as <-. destruct (IH _ _ _ _ E) as (g & L & Hg & K). exists g. split; [lia|]. split; auto.
    replace (k - n)%nat with (S (k - S n)) by lia. exact Hg.
  - destruct (same_id _ c t) eqn:K; [|discriminate]. intros HH; injection HH as <-. exists f. rewrite Nat.sub_diag. auto.
Qed.
Lemma alt_of_none alts : forall n c t, alt_of (fields alts) n c t = None ->
  forall f, In f alts -> same_id (field_id (f_params (fst f)) (methods (snd f))) c t = false.
Proof.
  induction alts as [|f alts IH]; intros n c t; cbn; [tauto|]. fold (fields alts). destruct (alt_of (fields alts) (S n) c t) as [k|] eqn:E; [discriminate|].
  destruct (same_id _ c t) eqn:K; [discriminate|]. intros _ g [<-|Hg]; auto. eapply IH; eauto.
Qed.

Lemma wf_alt ex alts f : wf (SChoice ex alts) -> In f alts ->
  wf (snd f) /\ taggable (snd f) (f_params (fst f)) /\ is_choice (snd f) = false /\ class_explicit (snd f) = [] /\ tagging_ok (ftags f).
Proof.
  intros (_ & _ & _ & W) Hf. rewrite all1_in in W. destruct (W f Hf) as (A & B & C & D). split; [exact A|]. split; [exact B|]. split; [exact C|]. split; [exact D|]. now apply stags_ok.
Qed.

Lemma alt_of_in ex alts c t : wf (SChoice ex alts) ->
  (exists n, alt_of (fields alts) 0 c t = Some n) <-> In (c, t) (flat_map ids alts).
Proof.
  intros W. rewrite in_flat_map. split.
  - intros (n & H). destruct (alt_of_some _ _ _ _ _ H) as (f & _ & Hf & K). rewrite Nat.sub_0_r in Hf. apply nth_error_In in Hf. exists f. split; auto.
    destruct (wf_alt _ _ _ W Hf) as (_ & T & A & B & _). apply (field_id_in (snd f)) in K; auto. apply T.
  - intros (f & Hf & K). destruct (alt_of (fields alts) 0 c t) eqn:E; eauto.
    pose proof (alt_of_none _ _ _ _ E f Hf) as N. destruct (wf_alt _ _ _ W Hf) as (_ & T & A & B & _).
    apply (field_id_in (snd f)) in K; auto; [congruence|apply T].
Qed.

Lemma init_choice_tags ex p : tags_valid ex -> params_ok p -> p_implicit p = None -> init_choice ex p = Ok (Tagging 0 0 false (ex ++ p_explicit p)).
Proof.
  intros V Hp N. unfold init_choice. rewrite N. destruct (params_shape p Hp) as [(c & t & -> & _)|[(x & -> & Hx & Hx')| ->]]; [discriminate| |].
  - unfold init_tagging. cbn [p_explicit p_no_explicit]. cbn [forallb]. rewrite class_ok_range by auto. reflexivity.
  - unfold init_tagging. cbn. now rewrite app_nil_r.
Qed.


Lemma takes_in f i : wf (snd f) -> taggable (snd f) (f_params (fst f)) -> class_explicit (snd f) = [] -> fpres f <> Required ->
  takes (fmeth f) i = true <-> In (i_class i, i_tag i) (ids f).
Proof.
  intros W T He Hr.
  assert (E : takes (fmeth f) i = same_id (field_id (f_params (fst f)) (methods (snd f))) (i_class i) (i_tag i)
     || (x_choice (methods (snd f)) && x_validate (methods (snd f)) (f_params (fst f)) i)).
  { unfold fmeth, takes. destruct f as [f s]. cbn [fst snd fpres] in *. unfold fpres in Hr. cbn in Hr. destruct (f_pres f); [contradiction|reflexivity|reflexivity]. }
  rewrite E. destruct T as (Hp & Hi & _). destruct (is_choice (snd f)) eqn:Hc.
  - unfold ids. destruct f as [f s]. cbn [fst snd] in *. destruct s as [| | | | |ex alts]; try discriminate. cbn in He. subst ex.
    assert (Ni : p_implicit (f_params f) = None) by (destruct Hi as [Hi|[_ Hi]]; [exact Hi|discriminate]).
    cbn [methods choice_ops x_choice x_validate andb]. rewrite (init_choice_tags [] _) by (auto; constructor). cbn [bind t_explicit app outer_ids].
    destruct (params_shape _ Hp) as [(c & t & Ep & _)|[(x & Ep & _)|Ep]]; rewrite Ep in *; cbn [p_explicit p_implicit] in *; [discriminate| |].
    + cbn [rev app]. unfold field_id. cbn [p_explicit]. rewrite orb_true_iff, same_id_some. split.
      * intros [->|H]; [now left|]. left. cbn [validate last] in H. destruct x as [c t].
        destruct ((c =? i_class i) && (t =? i_tag i)) eqn:K; [f_equal; lia|discriminate].
      * intros [->|[]]. now left.
    + cbn [rev app no_params p_explicit]. unfold field_id. cbn [no_params p_explicit p_implicit x_id same_id orb].
      change (flat_map (fun fs : fld * spec => outer_ids (snd fs) (f_params (fst fs))) alts) with (flat_map ids alts).
      rewrite <- (alt_of_in [] alts) by auto. cbn [validate]. change (map (fun fs : fld * spec => (fst fs, methods (snd fs))) alts) with (fields alts).
      destruct (alt_of (fields alts) 0 (i_class i) (i_tag i)); split; try discriminate; eauto. intros (n & K). discriminate.
  - assert (X : x_choice (methods (snd f)) = false) by (destruct (snd f); try discriminate; reflexivity). rewrite X. cbn [andb]. rewrite orb_false_r.
    apply field_id_in; auto.
Qed.

(* ---- the contract of a primitive class ---- *)
Lemma step_indef k cls o x : e_indef (o_enc o) = false -> e_indef (o_enc (fst (step k cls o x))) = false.
Proof. intros H. now apply (step_moved k cls o x). Qed.

Lemma make_default s p d : is_choice s = false -> x_make (methods s) p (Some d) ANone = x_make (methods s) p None d.
Proof. intros H. destruct s; try discriminate; cbn; destruct d; reflexivity. Qed.

Lemma prim_compatible k c p : taggable (SPrim k c) p -> tags_compatible c p.
Proof. intros (_ & [H|[H _]] & _); [right; right; right; exact H|right; left; exact H]. Qed.

(* objects as loaded: whatever replaces their contents is definite *)
Lemma stored_indef k o c o' : k <> KNull -> (e_indef (o_enc o) = true -> constructable k = true) -> stored k o c o' -> e_indef (o_enc o') = false.
Proof.
  intros Nk H (_ & _ & E). assert (X : o_enc o' = o_enc (store k o c)) by (destruct k; auto; contradiction). rewrite X. unfold store.
  destruct (e_indef (o_enc o)) eqn:Ei; [rewrite H by auto; reflexivity|]. rewrite andb_false_r. reflexivity.
Qed.

Lemma raw_dump k cls t v o f : kind_ok k -> tagging_ok t -> raw k cls t v o ->
  exists o' d, dump k cls o f = (o', Ok d) /\ (f = true -> settled k cls t None v o' /\ exists x, d = object_bytes t x /\ der_value k None v x) /\
    (settled k cls t None v o' \/ raw k cls t v o').
Proof.
  intros Hk Ht R. pose proof R as (Nk & Et & Ew & M & Hi & Hh & x & Ex & o1 & v1 & Eg & Sv & Hv).
  destruct (f || ends_80 (e_header (o_enc o))) eqn:Ef.
  - assert (So : state_ok k o) by (split; [now rewrite Et|]; split; [exact M|contradiction]).
    rewrite <- Ew in Hv.
    destruct (forced_dump k cls o x o1 v1 f Hk So Ex Ef Eg Hv) as
      (c & o2 & Ed & Dc & B & Ec2 & Et2 & Ew2 & So2 & Eh2 & Etr2 & o3 & v3 & Eg3 & Sv3 & Hv3 & Dv3).
    rewrite Ew, Et in *.
    assert (Ei : e_indef (o_enc o2) = false).
    { pose proof Ed as Ed'. unfold dump in Ed'. rewrite Ef, Eg in Ed'.
      pose proof (get_frame k cls o x Ex) as F. rewrite Eg in F. destruct F as (F1 & F2 & F3). cbn [fst] in *.
      assert (Hv' : holds k (o_width (set_contents o1 None)) v1) by (cbn; rewrite F3, Ew; exact Hv).
      destruct (set_ok k cls (set_contents o1 None) v1 Hk Hv') as (c' & o4 & Es & _ & _ & St & _).
      rewrite Es in Ed'.
      assert (Ei4 : e_indef (o_enc o4) = false) by (apply (stored_indef k (set_contents o1 None) c'); auto; cbn; now rewrite F2).
      pose proof (base_moved k o4) as (_ & _ & _ & Mv). rewrite Ed' in Mv. now apply Mv. }
    assert (S2 : settled k cls t None v o2).
    { split; [|exact Ei]. split; [exact Et2|]. split; [exact Ew2|]. split; [destruct k; try contradiction; apply So2|].
      exists c. split; [exact Ec2|]. split; [eapply der_value_same; [apply same_value_sym; exact Sv|exact Dc]|]. split; [right; auto|].
      exists o3, v3. split; [exact Eg3|]. split; [eapply same_value_trans; eauto|auto]. }
    exists o2, (object_bytes t c). split; [exact Ed|]. split; [|now left]. intros _. split; auto. exists c. split; auto.
    eapply der_value_same; [apply same_value_sym; exact Sv|exact Dc].
  - apply orb_false_iff in Ef as [-> E8]. unfold dump. cbn [orb]. rewrite E8. unfold base_dump. unfold contents in Ex. rewrite Ex, E8.
    destruct (e_header (o_enc o)) as [h|] eqn:Eh; [|contradiction]. eexists o, _. split; [reflexivity|]. split; [discriminate|]. now right.
Qed.

Lemma raw_read k cls t v o : kind_ok k -> raw k cls t v o ->
  exists o' v', get_native k cls o = (o', Ok v') /\ same_value k v v' /\ raw k cls t v o'.
Proof.
  intros Hk (Nk & Et & Ew & M & Hi & Hh & x & Ex & o1 & v1 & Eg & Sv & Hv). exists o1, v1. split; auto. split; auto.
  pose proof (get_frame k cls o x Ex) as F. rewrite Eg in F. destruct F as (F1 & F2 & F3). cbn [fst] in *.
  pose proof (get_idem k cls o x Hk Ex) as J. rewrite Eg in J. cbn [fst] in J.
  unfold raw, meth_ok. rewrite F1, F2, F3. unfold contents. rewrite F2. do 6 (split; [assumption|]). exists x. split; auto. exists o1, v1. auto.
Qed.

Lemma raw_set k cls t v o u : kind_ok k -> tagging_ok t -> raw k cls t v o -> holds k None u ->
  exists o', set_value k o u = (o', Ok tt) /\ settled k cls t None u o'.
Proof.
  intros Hk Ht (Nk & Et & Ew & M & Hi & Hh & _) Hu.
  destruct (carries_set k cls t None u o Hk Ht Et Ew M Nk Hu) as (o' & Es & C). exists o'. split; auto. split; auto.
  assert (Hu' : holds k (o_width o) u) by now rewrite Ew.
  destruct (set_ok k cls o u Hk Hu') as (c & o2 & Es2 & _ & _ & St & _). rewrite Es in Es2. injection Es2 as <-.
  now apply (stored_indef k o c).
Qed.

Lemma contract_prim k c : wf (SPrim k c) -> contract (SPrim k c).
Proof.
  intros W. pose proof W as (Hk & Hc).
  assert (MK : forall p v, taggable (SPrim k c) p -> holds k None v ->
     exists o, make k c p v = Ok o /\ rep Own true (SPrim k c) (tags_of c p) (APrim v) (VPrim o)).
  { intros p v T Hv. pose proof (init_tags c p (proj1 T)) as Hi. pose proof (stags_ok _ _ W T) as Ht.
    destruct (make_settled k c p _ v Hk Hi Ht Hv) as (o & Em & So). exists o. split; auto. cbn. auto. }
  constructor.
  - intros p i a T D F. cbn [denotes] in D. destruct i as [|v| | | |]; destruct a as [|v'| | | |]; try contradiction.
    + destruct v'; try contradiction. subst k. destruct (MK p NNone T I) as (o & Em & R). exists (VPrim o), (APrim NNone).
      cbn [methods prim_ops x_make make_prim]. rewrite Em. split; [reflexivity|]. split; [|split; [exact R|reflexivity]]. cbn. auto.
    + destruct D as (-> & Nv & Hv). destruct (MK p v' T Hv) as (o & Em & R). exists (VPrim o), (APrim v').
      cbn [methods prim_ops x_make make_prim]. rewrite Em. split; [reflexivity|]. split; [|split; [exact R|reflexivity]].
      cbn. split; auto. split; auto. now apply same_value_refl.
  - intros p dflt i a T _ B D. destruct a; try contradiction. cbn in D. destruct D as (Hv & x & Dx & Do).
    pose proof (init_tags c p (proj1 T)) as Hi. pose proof (stags_ok _ _ W T) as Ht.
    destruct (load_own k c p _ x _ false Hi (prim_compatible _ _ _ T) Do) as (h & El & Eh).
    unfold load in El. pose proof (parse__0_complete i [] B) as Q. rewrite app_nil_r in Q. rewrite Q in El. cbn [bind andb] in El.
    destruct (make_good k c p _ v Hk Hi Ht Hv) as (o1 & c1 & _ & _ & _ & _ & _ & _ & D1 & B1 & _).
    assert (c1 = x) by (eapply der_value_unique; eauto). subst c1.
    destruct (get_loaded k c (tags_of c p) (Enc 0 (Some h) (Some x) [] false) None v x Hk Hv Dx B1 eq_refl eq_refl) as (o3 & v' & Eg & Sv & Hv' & Dv).
    exists (VPrim (loaded (tags_of c p) h x [] 0 false)), (APrim v). cbn [methods prim_ops x_build]. rewrite El. split; [reflexivity|].
    split; [cbn; split; auto; split; auto; now apply same_value_refl|]. split; [|split; auto]. cbn. split; auto. left. split; [|reflexivity].
    split; [reflexivity|]. split; [reflexivity|]. split; [left; reflexivity|]. exists x. split; [reflexivity|]. split; auto. split; [|exists o3, v'; auto].
    right. split; [|reflexivity]. cbn. f_equal. apply der_object_eq in Do; auto. rewrite Do in Eh. unfold object_bytes in Eh. now apply app_inv_tail in Eh.
  - intros q n t a v Ht R. destruct a; try contradiction. destruct v; try contradiction. cbn in R. destruct R as (Hv & S0).
    assert (X : exists x, contents o = Some x).
    { destruct S0 as [((_ & _ & _ & x & Ex & _) & _)|(_ & _ & _ & _ & _ & _ & _ & x & Ex & _)]; eauto. }
    destruct X as (x & Ex). exists (VPrim o), x. cbn [methods prim_ops x_contents on_prim]. rewrite Ex.
    split; [reflexivity|]. split; [cbn; auto|]. split; [split; auto|auto].
  - intros q n t a v f Ht R. destruct a; try contradiction. destruct v as [| |o| | |]; try contradiction. cbn in R. destruct R as (Hv & [(S0 & Ei)|(Q & Rw)]).
    + destruct (carries_dump k c t None _ o f Hk Ht S0) as (o' & x & Ed & Dx & S1).
      pose proof (step_indef k c o (ODump f) Ei) as E'. cbn [step] in E'. rewrite Ed in E'. cbn [fst] in E'.
      exists (VPrim o'), (object_bytes t x). cbn [methods prim_ops x_dump on_prim]. rewrite Ed. split; [reflexivity|]. split; [split; auto|]. split; [reflexivity|].
      split; [destruct f; cbn; split; auto; left; split; auto|]. intros _. cbn. split; auto. exists x. auto.
    + destruct (raw_dump k c t _ o f Hk Ht Rw) as (o' & d & Ed & F & N). exists (VPrim o'), d. cbn [methods prim_ops x_dump on_prim]. rewrite Ed.
      split; [reflexivity|]. split; [split; auto|]. split; [reflexivity|]. split.
      * destruct f; cbn; split; auto; [left; now apply F|]. destruct N as [N|N]; auto.
      * intros [A|A]; [congruence|]. destruct (F A) as (_ & x & -> & D). cbn. split; auto. exists x. auto.
  - intros q n t a v Ht R. destruct a; try contradiction. destruct v as [| |o| | |]; try contradiction. cbn in R. destruct R as (Hv & [(S0 & Ei)|(Q & Rw)]).
    + destruct (carries_read k c t None _ o Hk S0) as (o' & v' & Eg & Sv & S1).
      pose proof (step_indef k c o ORead Ei) as E'. cbn [step] in E'. rewrite Eg in E'. cbn [fst] in E'.
      exists (VPrim o'), (native_of v'). cbn [methods prim_ops x_native on_prim]. rewrite Eg. cbn [bind]. split; [reflexivity|].
      split; [cbn; split; auto; left; split; auto|]. split; [split; auto|]. split; [reflexivity|]. split; [reflexivity|]. intros _. cbn. exists v'. auto.
    + destruct (raw_read k c t _ o Hk Rw) as (o' & v' & Eg & Sv & R'). exists (VPrim o'), (native_of v'). cbn [methods prim_ops x_native on_prim]. rewrite Eg. cbn [bind].
      split; [reflexivity|]. split; [cbn; auto|]. split; [split; auto|]. split; [reflexivity|]. split; [reflexivity|]. intros _. cbn. exists v'. auto.
  - intros p q n t a v Aq T Ht _ R. destruct a; try contradiction. destruct v as [| |o| | |]; try contradiction. cbn in R. destruct R as (Hv & [S0|(Q & _)]); [|congruence].
    destruct (copy_settled k c t (tags_of c p) _ o Hk S0) as (r & Er & Sr). exists (VPrim r), (APrim v0).
    cbn [methods prim_ops x_retag]. unfold retag. rewrite (init_tags c p (proj1 T)). cbn [bind]. rewrite Er. cbn [bind]. split; [reflexivity|].
    split; [cbn; split; auto; split; auto; now apply same_value_refl|]. split; [cbn; auto|reflexivity].
  - intros q n t a v Aq Ht _ R. destruct a; try contradiction. destruct v as [| |o| | |]; try contradiction. cbn in R. destruct R as (Hv & [S0|(Q & _)]); [|congruence].
    destruct (copy_settled k c t t _ o Hk S0) as (r & Er & Sr). exists (VPrim r), (APrim v0).
    cbn [methods prim_ops x_copy]. unfold copy. pose proof S0 as ((Et & _) & _). rewrite Et, Er. cbn [bind]. split; [reflexivity|].
    split; [cbn; split; auto; split; auto; now apply same_value_refl|]. split; [cbn; auto|reflexivity].
Qed.
