(* The methods of a Choice meet the contract of ContRep if those of its alternatives do,
   and so every well-formed class does. *)
Require Import Verif.Base Verif.BaseFacts Verif.IntModel Verif.IntSpec Verif.IntProofs
  Verif.ParserModel Verif.ParserSpec Verif.ParserProofs Verif.ParserFacts Verif.Text Verif.CodecModel Verif.TagSpec Verif.TagProofs
  Verif.PrimModel Verif.PrimSpec Verif.PrimProofs Verif.PrimSet Verif.PrimDump Verif.PrimLoad Verif.HistSpec Verif.PrimHist
  Verif.PrimRead Verif.PrimSide Verif.ContModel Verif.ContSpec Verif.ContBase Verif.ContRep Verif.ContPrim Verif.ContSeq Verif.ContSeq2 Verif.ContList.
Require Import Sorting.Permutation Sorting.Sorted.

Section Alts.
  Variable ex : list (Z * Z).
  Variable alts : list (fld * spec).
  Hypothesis W : wf (SChoice ex alts).
  Hypothesis C : forall f, In f alts -> contract (snd f).
  Notation CS := (SChoice ex alts).

  Lemma named_same f g : In f alts -> In g alts -> fname f = fname g -> f = g.
  Proof. intros Hf Hg E. destruct W as (_ & N & _). eapply nodup_same; eauto. Qed.

  Lemma alt_named_some l : forall n nm m, alt_named (fields l) n nm = Some m ->
    exists f, (n <= m)%nat /\ nth_error l (m - n) = Some f /\ fname f = nm.
  Proof.
    induction l as [|f l IH]; intros n nm m; cbn; [discriminate|]. fold (fields l). destruct (alt_named (fields l) (S n) nm) as [k|] eqn:E.
    - intros HH; injection HH as <-. destruct (IH _ _ _ E) as (g & L & Hg & K). exists g. split; [lia|]. split; auto.
      replace (k - n)%nat with (S (k - S n)) by lia. exact Hg.
    - destruct (eqb_text (f_name (fst f)) nm) eqn:K; [|discriminate]. intros HH; injection HH as <-. exists f. rewrite Nat.sub_diag. split; auto. split; auto.
      now apply eqb_text_spec in K.
  Qed.
  Lemma alt_named_none l : forall n nm, alt_named (fields l) n nm = None -> forall f, In f l -> fname f <> nm.
  Proof.
    induction l as [|f l IH]; intros n nm; cbn; [tauto|]. fold (fields l). destruct (alt_named (fields l) (S n) nm) as [k|] eqn:E; [discriminate|].
    destruct (eqb_text (f_name (fst f)) nm) eqn:K; [discriminate|]. intros _ g [<-|Hg]; [|eapply IH; eauto].
    intros X. apply eqb_text_spec in X. unfold fname in X. congruence.
  Qed.
  Lemma alt_named_ok f : In f alts -> exists k, alt_named (fields alts) 0 (fname f) = Some k /\ nth_error alts k = Some f.
  Proof.
    intros Hf. destruct (alt_named (fields alts) 0 (fname f)) as [k|] eqn:E.
    - exists k. split; auto. destruct (alt_named_some _ _ _ _ E) as (g & _ & Hg & Eg). rewrite Nat.sub_0_r in Hg.
      assert (g = f) by (apply named_same; auto; eapply nth_error_In; eauto). now subst g.
    - exfalso. eapply alt_named_none; eauto.
  Qed.

  Lemma ids_same f g x : In f alts -> In g alts -> In x (ids f) -> In x (ids g) -> f = g.
  Proof.
    intros Hf Hg Xf Xg. destruct W as (_ & _ & N & _). clear W C.
    induction alts as [|h l IH]; [contradiction|]. cbn [flat_map] in N.
    assert (D : forall y, In y (ids h) -> In y (flat_map ids l) -> False).
    { clear - N. revert N. generalize (flat_map ids l). induction (ids h) as [|z r IH]; intros m N y; [contradiction|]. cbn in N. inversion N as [|? ? A B]; subst.
      intros [->|Hy] Hm; [apply A; apply in_or_app; auto|eapply IH; eauto]. }
    assert (N' : NoDup (flat_map ids l)).
    { clear - N. revert N. induction (ids h) as [|z r IH]; cbn; auto. intros N. inversion N; auto. }
    destruct Hf as [<-|Hf], Hg as [<-|Hg]; auto; exfalso; eapply D; eauto; apply in_flat_map; eauto.
  Qed.
  Lemma alt_of_ok f cl tg : In f alts -> In (cl, tg) (ids f) -> exists k, alt_of (fields alts) 0 cl tg = Some k /\ nth_error alts k = Some f.
  Proof.
    intros Hf Hi. destruct (proj2 (alt_of_in ex alts cl tg W)) as [k E]; [apply in_flat_map; eauto|]. exists k. split; auto.
    destruct (alt_of_some _ _ _ _ _ E) as (g & _ & Hg & K). rewrite Nat.sub_0_r in Hg. pose proof (nth_error_In _ _ Hg) as Gi.
    destruct (wf_alt _ _ _ W Gi) as (_ & T & A & B & _). apply (field_id_in (snd g)) in K; auto; [|apply T].
    assert (g = f) by (eapply ids_same; eauto). now subst g.
  Qed.

  Lemma meth_nth k f : nth_error alts k = Some f -> nth_error (fields alts) k = Some (fmeth f).
  Proof. intros H. unfold fields. rewrite nth_error_map, H. reflexivity. Qed.

  Lemma rep_choice_eq q n t a v : rep q n CS t a v <-> exists b e k w f, a = AChoice (fname f) b /\ v = VChoice t e (Some k) (Some w) /\ nth_error alts k = Some f /\
      (acc q = true -> e_header e = None \/ exists y, e_header e = Some (wrap (t_explicit t) [] y) /\ encodes (snd f) (ftags f) b y) /\
      rep (under q) n (snd f) (ftags f) b w.
  Proof.
    split.
    - intros R. cbn [rep] in R. destruct a as [| | | |nm b|]; try contradiction. destruct v as [| | | | |t' e [k|] [w|]]; try contradiction.
      destruct R as (-> & H & K). apply at_nth_iff in K as (f & Hf & <- & K). exists b, e, k, w, f. split; auto. split; auto. split; auto. split; auto.
      intros Q. destruct (H Q) as [H'|(y & Hy & K')]; auto. apply at_nth_iff in K' as (g & Hg & K'). assert (g = f) by congruence. subst g. eauto.
    - intros (b & e & k & w & f & -> & -> & Hf & H & R). cbn [rep]. split; auto. split.
      + intros Q. destruct (H Q) as [H'|(y & Hy & K')]; auto. right. exists y. split; auto. apply at_nth_iff. eauto.
      + apply at_nth_iff. eauto.
  Qed.

  Lemma alt_fits f b : In f alts -> fits CS (AChoice (fname f) b) -> fits (snd f) b.
  Proof.
    intros Hf (t & d & Ht & w & _ & H). apply some_ex in H as (g & Hg & E & D). assert (g = f) by (apply named_same; auto). subst g.
    destruct (wf_alt _ _ _ W Hf) as (_ & _ & _ & _ & Tk). exact (der_fits _ _ _ _ Tk D).
  Qed.
  Lemma choice_sim f b b' : In f alts -> sim (snd f) b b' -> sim CS (AChoice (fname f) b) (AChoice (fname f) b').
  Proof. intros Hf S. cbn. split; auto. apply some_ex. eauto. Qed.

  Lemma choice_params p : taggable CS p -> params_ok p /\ p_implicit p = None /\ init_choice ex p = Ok (stags CS p) /\
    (ex ++ p_explicit p = [] \/ exists x, ex ++ p_explicit p = [x]).
  Proof.
    intros (Hp & Hi & Hl). assert (Ni : p_implicit p = None) by (destruct Hi as [Hi|[_ Hi]]; [exact Hi|discriminate]). split; auto. split; auto. split.
    - rewrite init_choice_tags; auto. apply W.
    - specialize (Hl eq_refl). cbn [class_explicit] in Hl. destruct (ex ++ p_explicit p) as [|x [|y r]]; eauto. cbn in Hl. lia.
  Qed.

  Lemma make_choice_ok p i a : taggable CS p -> denotes CS i a -> fits CS a ->
    exists v a', make_choice ex (fields alts) p None i = Ok v /\ sim CS a a' /\ rep Own true CS (stags CS p) a' v /\ has_dict v = false.
  Proof.
    intros T D F. cbn [denotes] in D. destruct i as [| | | |nm b|]; try contradiction. destruct a as [| | | |nm' a|]; try contradiction.
    destruct D as (<- & D). apply some_ex in D as (f & Hf & <- & G). destruct (choice_params p T) as (Hp & Ni & Et & _).
    destruct (wf_alt _ _ _ W Hf) as (Wf & Tf & Nc & Ce & Tk). pose proof (alt_fits f a Hf F) as Ff.
    destruct (alt_named_ok f Hf) as (k & Ek & Hk).
    assert (exists v a', match b with AObj q b' => do w <- x_make (methods (snd f)) q None b'; fix_tagging (methods (snd f)) (f_params (fst f)) w
                                    | _ => x_make (methods (snd f)) (f_params (fst f)) None b end = Ok v /\
        sim (snd f) a a' /\ rep Own true (snd f) (ftags f) a' v /\ has_dict v = false) as (v & a' & Ev & S1 & R & Hd).
    { unfold given in G. assert (Dr : forall b, true = true /\ denotes (snd f) b a -> exists v a', x_make (methods (snd f)) (f_params (fst f)) None b = Ok v /\
        sim (snd f) a a' /\ rep Own true (snd f) (ftags f) a' v /\ has_dict v = false) by (intros b' [_ D]; exact (K_make _ (C f Hf) _ b' a Tf D Ff)).
      destruct b as [| | | | |q b']; try (apply Dr; exact G). destruct G as [Tq D].
      destruct (K_make _ (C f Hf) q b' a Tq D Ff) as (w & a1 & Ew & S1 & R & Hd). rewrite Ew. cbn [bind].
      destruct (fix_tagging_ok _ (f_params (fst f)) q a1 w Wf (C f Hf) Tf Tq (fits_sim _ _ _ Wf S1 Ff) R Hd) as (v & a2 & Ef & S2 & R2 & Hd2).
      exists v, a2. split; auto. split; [eapply sim_trans; eauto|auto]. }
    unfold make_choice. rewrite Et. cbn [bind]. rewrite Ek, (meth_nth _ _ Hk). unfold fmeth. rewrite Ev. cbn [bind].
    eexists _, (AChoice (fname f) a'). split; [reflexivity|]. split; [apply choice_sim; auto|]. split; [|exact Hd].
    apply rep_choice_eq. eexists a', _, k, v, f. split; [reflexivity|]. split; [reflexivity|]. split; auto.
  Qed.

  Lemma plain_choice_ok p f b i : init_choice ex p = Ok (Tagging 0 0 false []) -> In f alts -> ber_info max_budget i -> der (snd f) (ftags f) b (encoding_of i) ->
    exists v k b', plain_choice ex (fields alts) p i = Ok (VChoice (Tagging 0 0 false []) (Enc 1 (Some []) (Some (encoding_of i)) [] false) (Some k) (Some v)) /\
      nth_error alts k = Some f /\ sim (snd f) b b' /\ rep Own true (snd f) (ftags f) b' v /\ has_dict v = false.
  Proof.
    intros Ei Hf B D. destruct (wf_alt _ _ _ W Hf) as (Wf & Tf & Nc & Ce & Tk).
    destruct (der_info _ _ _ _ Wf D) as (j & Bj & Tj & Ej & Ij). assert (j = i) by (apply same_info0; auto). subst j.
    destruct (alt_of_ok f _ _ Hf Ij) as (k & Ek & Hk).
    destruct (K_build _ (C f Hf) _ None i b Tf I B D) as (v & b' & Ev & S1 & R & Hd & _).
    exists v, k, b'. split; [|auto]. unfold plain_choice. rewrite Ei. cbn [bind t_explicit validate]. rewrite Ek. cbn [bind].
    assert (Ec : i_header i ++ i_contents i = encoding_of i) by (unfold encoding_of; rewrite Tj, app_nil_r; reflexivity).
    cbn [parse_choice]. rewrite (meth_nth _ _ Hk). unfold fmeth. cbn [e_contents]. rewrite Ec.
    pose proof (parse__0_complete i [] B) as Q. rewrite app_nil_r in Q. rewrite Q. cbn [bind]. rewrite Ev. cbn [place_header e_method e_contents e_indef]. now rewrite Tj.
  Qed.

  Lemma build_choice_ok p i a : taggable CS p -> ber_info max_budget i -> der CS (stags CS p) a (encoding_of i) ->
    exists v a', build_choice ex (fields alts) p None i = Ok v /\ sim CS a a' /\ fresh (methods CS) (rep Own true CS (stags CS p) a') v.
  Proof.
    intros T B D. destruct (choice_params p T) as (Hp & Ni & Et & Cx). pose proof (stags_ok _ _ W T) as Ht.
    cbn [der] in D. destruct a as [| | | |nm b|]; try contradiction. destruct D as (w & Dw & D). apply some_ex in D as (f & Hf & <- & D).
    assert (Ex : t_explicit (stags CS p) = ex ++ p_explicit p) by reflexivity.
    assert (He : has_explicit (choice_cls ex) p = match ex ++ p_explicit p with [] => false | _ => true end).
    { unfold has_explicit. destruct Hp as (Np & _). rewrite Np. cbn. destruct ex, (p_explicit p); reflexivity. }
    destruct (wf_alt _ _ _ W Hf) as (Wf & Tf & Nc & Ce & Tk).
    unfold build_choice. rewrite He. destruct Cx as [Cx|(x & Cx)].
    - rewrite Cx. rewrite Ex, Cx in Dw. cbn in Dw. subst w.
      destruct (plain_choice_ok p f b i) as (v & k & b' & Ev & Hk & S1 & R & Hd); auto.
      { rewrite Et. cbn [stags]. now rewrite Cx. }
      rewrite Ev. eexists _, (AChoice (fname f) b'). split; [reflexivity|]. split; [apply choice_sim; auto|]. split; [|split; [exact Hd|exact I]].
      apply rep_choice_eq. eexists b', _, k, v, f. split; [reflexivity|]. cbn [stags]. rewrite Cx. split; [reflexivity|]. split; auto. split; auto.
      intros _. right. exists (encoding_of i). split; [reflexivity|]. eapply encodes_sim; eauto. apply der_encodes; auto.
    - rewrite Cx. unfold make_choice. rewrite Et. cbn [bind]. rewrite Ex, Cx in *. 
      destruct (der_info _ _ _ _ Wf D) as (j & Bj & Tj & Ej & Ij). subst w.
      assert (Tx : tags_ok [x]) by (rewrite <- Ex; apply Ht).
      pose proof (der_wrapped_wrap [x] [] (encoding_of j) _ Tx Dw) as Wr.
      destruct x as [cl tg]. destruct Dw as (mid & Dm & Em). cbn [der_wrapped] in Em. subst mid. destruct (tlv_info _ _ _ _ _ Dm) as (h & Bi & Ei).
      assert (i = mkInfo cl 1 tg h (encoding_of j) []) by (apply same_info0; auto). subst i. clear Ei.
      unfold encoding_of at 1 in Wr. cbn [i_header i_contents i_trailer] in Wr. rewrite app_nil_r in Wr. apply app_inv_tail in Wr.
      cbn [rev app peel i_class i_method i_tag i_contents i_header i_trailer]. rewrite !Z.eqb_refl. cbn [negb].
      pose proof (parse__0_complete j [] Bj) as Q. rewrite app_nil_r in Q. rewrite Q. cbn [bind].
      destruct (plain_choice_ok (Params [] None true) f b j) as (v & k & b' & Ev & Hk & S1 & R & Hd); auto.
      rewrite Ev. cbn [bind]. unfold place_explicit. cbn [place_header]. unfold with_explicit. cbn [t_class t_tag t_implicit].
      eexists _, (AChoice (fname f) b'). split; [reflexivity|]. split; [apply choice_sim; auto|]. split; [|split; [exact Hd|exact I]].
      apply rep_choice_eq. eexists b', _, k, v, f. split; [reflexivity|]. cbn [stags]. rewrite Cx. split; [reflexivity|]. split; auto. split; auto.
      intros _. right. exists (encoding_of j). split; [cbn [e_header t_explicit]; now rewrite Wr|eapply encodes_sim; eauto; apply der_encodes; auto].
  Qed.

  Lemma choice_kept t e e' k w w' : kept w w' -> kept (VChoice t e (Some k) (Some w)) (VChoice t e' (Some k) (Some w')).
  Proof. intros K. exact K. Qed.

  Lemma dump_choice_ok q n t f b e k w force : nth_error alts k = Some f ->
    (acc q = true -> e_header e = None \/ exists y, e_header e = Some (wrap (t_explicit t) [] y) /\ encodes (snd f) (ftags f) b y) ->
    rep (under q) n (snd f) (ftags f) b w ->
    exists v' d, dump_choice (fields alts) force (VChoice t e (Some k) (Some w)) = (v', Ok d) /\ kept (VChoice t e (Some k) (Some w)) v' /\
      rep (join q force) n CS t (AChoice (fname f) b) v' /\ (acc q = true \/ force = true -> encodes CS t (AChoice (fname f) b) d).
  Proof.
    intros Hk Hh R. pose proof (nth_error_In _ _ Hk) as Hf. destruct (wf_alt _ _ _ W Hf) as (Wf & Tf & Nc & Ce & Tk).
    unfold dump_choice, choice_with. cbn [parse_choice]. rewrite (meth_nth _ _ Hk). unfold fmeth. set (f' := force || ends_80 (e_header e)).
    destruct (K_dump _ (C f Hf) (under q) n _ b w f' Tk R) as (w' & y & Ed & K & M & R' & En). rewrite Ed. cbn [e_header e_method e_trailer e_indef].
    set (h := match e_header e with Some h => if f' then wrap (t_explicit t) [] y else h | None => wrap (t_explicit t) [] y end).
    assert (Eh : acc q || force = true -> h = wrap (t_explicit t) [] y /\ encodes (snd f) (ftags f) b y).
    { intros Q. assert (Y : encodes (snd f) (ftags f) b y) by (apply En; unfold f'; destruct q, force; auto). split; auto. unfold h.
      destruct (e_header e) as [h0|] eqn:E0; auto. destruct f' eqn:Ef; auto.
      assert (force = false) by (unfold f' in Ef; destruct force; [discriminate|auto]). subst force. rewrite orb_false_r in Q.
      destruct (Hh Q) as [X|(y0 & X & Y0)]; [discriminate|]. injection X as ->. f_equal. exact (encodes_fun _ _ _ _ _ Wf Y0 Y). }
    eexists _, _. split; [reflexivity|]. split; [exact K|]. split.
    - apply rep_choice_eq. eexists b, _, k, w', f. split; [reflexivity|]. split; [reflexivity|]. split; auto. cbn [e_header]. split.
      + intros Q. rewrite acc_join in Q. destruct (Eh Q) as [-> Y]. right. eauto.
      + destruct f' eqn:Ef; [eapply rep_weaken; [| |exact R']; auto|]. assert (force = false) by (unfold f' in Ef; destruct force; [discriminate|auto]). subst force. cbn [join] in *. exact R'.
    - intros Q. destruct Eh as [-> Y]; [destruct q, force; auto; destruct Q; discriminate|]. cbn [encodes]. exists y. split; auto. apply some_ex. eauto.
  Qed.

  Lemma copy_choice_ok q t t' n f b e k w : acc q = true -> nth_error alts k = Some f -> fits (snd f) b -> rep (under q) n (snd f) (ftags f) b w ->
    exists v' b', copy_choice (fields alts) t' (VChoice t e (Some k) (Some w)) = Ok v' /\ sim (snd f) b b' /\
      rep Own (negb (has_dict w)) CS t' (AChoice (fname f) b') v' /\ has_dict v' = has_dict w.
  Proof.
    intros Aq Hk F R. pose proof (nth_error_In _ _ Hk) as Hf. destruct (wf_alt _ _ _ W Hf) as (Wf & Tf & Nc & Ce & Tk).
    destruct (K_contents _ (C f Hf) _ _ _ _ _ Tk R) as (w1 & x & Ex & R1 & K & Kn).
    rewrite <- acc_under in Aq. destruct (K_copy _ (C f Hf) _ _ _ _ _ Aq Tk F R1) as (w2 & b' & Ec & S1 & R2 & Hd).
    assert (E : has_dict w1 = has_dict w) by (destruct (has_dict w) eqn:E; [now apply K|auto]). rewrite E in *.
    unfold copy_choice. cbn [contents_choice]. rewrite (meth_nth _ _ Hk). unfold fmeth. rewrite Ex, (meth_nth _ _ Hk). unfold fmeth. rewrite Ec. cbn [bind].
    eexists _, b'. split; [reflexivity|]. split; auto. split; [|exact Hd]. apply rep_choice_eq. eexists b', _, k, w2, f. split; [reflexivity|]. split; [reflexivity|]. split; auto.
  Qed.

  Lemma contract_choice : contract CS.
  Proof.
    constructor.
    - intros p i a T D F. exact (make_choice_ok p i a T D F).
    - intros p dflt i a T Df B D. destruct dflt as [d|]; [destruct Df as (X & _); discriminate|]. exact (build_choice_ok p i a T B D).
    - intros q n t a v Ht R. apply rep_choice_eq in R as (b & e & k & w & f & -> & -> & Hk & Hh & R). pose proof (nth_error_In _ _ Hk) as Hf.
      destruct (wf_alt _ _ _ W Hf) as (Wf & Tf & Nc & Ce & Tk). destruct (K_contents _ (C f Hf) _ _ _ _ _ Tk R) as (w1 & x & Ex & R1 & K & Kn).
      exists (VChoice t e (Some k) (Some w1)), x. split.
      { change (x_contents (methods CS)) with (contents_choice (fields alts)). cbn [contents_choice]. rewrite (meth_nth _ _ Hk). unfold fmeth. now rewrite Ex. }
      split; [apply rep_choice_eq; eexists b, _, k, w1, f; split; [reflexivity|]; split; [reflexivity|]; auto|]. split; [exact K|exact Kn].
    - intros q n t a v force Ht R. apply rep_choice_eq in R as (b & e & k & w & f & -> & -> & Hk & Hh & R).
      destruct (dump_choice_ok q n t f b e k w force Hk Hh R) as (v' & d & Ed & K & R' & En). exists v', d. split; [exact Ed|]. split; auto.
      split. { apply rep_choice_eq in R' as (b0 & e0 & k0 & w0 & f0 & _ & -> & _). reflexivity. }
      split; auto.
    - intros q n t a v Ht R. apply rep_choice_eq in R as (b & e & k & w & f & -> & -> & Hk & Hh & R). pose proof (nth_error_In _ _ Hk) as Hf.
      destruct (wf_alt _ _ _ W Hf) as (Wf & Tf & Nc & Ce & Tk). destruct (K_native _ (C f Hf) _ _ _ _ _ Tk R) as (w1 & x & Ex & R1 & K & M & Dd & Sh).
      exists (VChoice t e (Some k) (Some w1)), x. split.
      { change (x_native (methods CS)) with (native_choice (fields alts)). unfold native_choice. cbn [parse_choice]. rewrite (meth_nth _ _ Hk). unfold fmeth. now rewrite Ex. }
      split; [apply rep_choice_eq; eexists b, _, k, w1, f; split; [reflexivity|]; split; [reflexivity|]; auto|]. split; [exact K|]. split; [reflexivity|]. split; [exact Dd|].
      intros N. cbn. apply some_ex. exists f. auto.
    - intros p q n t a v Aq T Ht F R. apply rep_choice_eq in R as (b & e & k & w & f & -> & -> & Hk & Hh & R). pose proof (nth_error_In _ _ Hk) as Hf.
      destruct (choice_params p T) as (Hp & Ni & Et & _).
      destruct (copy_choice_ok q t (stags CS p) n f b e k w Aq Hk (alt_fits f b Hf F) R) as (v' & b' & Ev & S1 & R' & Hd). exists v', (AChoice (fname f) b').
      split; [|split; [apply choice_sim; auto|auto]].
      change (x_retag (methods CS) p (VChoice t e (Some k) (Some w))) with (do t' <- init_choice ex p; copy_choice (fields alts) t' (VChoice t e (Some k) (Some w))).
      rewrite Et. exact Ev.
    - intros q n t a v Aq Ht F R. apply rep_choice_eq in R as (b & e & k & w & f & -> & -> & Hk & Hh & R). pose proof (nth_error_In _ _ Hk) as Hf.
      destruct (copy_choice_ok q t t n f b e k w Aq Hk (alt_fits f b Hf F) R) as (v' & b' & Ev & S1 & R' & Hd). exists v', (AChoice (fname f) b').
      split; [exact Ev|split; [apply choice_sim; auto|auto]].
  Qed.
End Alts.

Theorem contract_all s : wf s -> contract s.
Proof.
  induction s as [k cl|cl fs IH|cl fs IH|cl s IH|cl s IH|ex alts IH] using spec_rect'; intros W.
  - now apply contract_prim.
  - rewrite Forall_forall in IH. apply contract_seq; auto. intros f Hf. apply IH; auto. now destruct (wf_tags cl fs f W Hf).
  - contradiction.
  - exact (contract_list cl s false W (IH (proj1 (proj2 W)))).
  - exact (contract_list cl s true W (IH (proj1 (proj2 W)))).
  - rewrite Forall_forall in IH. apply contract_choice; auto. intros f Hf. apply IH; auto. now destruct (wf_alt ex alts f W Hf).
Qed.
