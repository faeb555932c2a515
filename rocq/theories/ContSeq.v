(* The methods of a Sequence meet the contract of ContRep if those of its fields do: reading. *)
Require Import Verif.Base Verif.BaseFacts Verif.IntModel Verif.IntSpec Verif.IntProofs
  Verif.ParserModel Verif.ParserSpec Verif.ParserProofs Verif.ParserFacts Verif.Text Verif.CodecModel Verif.TagSpec Verif.TagProofs
  Verif.PrimModel Verif.PrimSpec Verif.PrimProofs Verif.PrimSet Verif.PrimDump Verif.PrimLoad Verif.HistSpec Verif.PrimHist
  Verif.PrimRead Verif.PrimSide Verif.ContModel Verif.ContSpec Verif.ContBase Verif.ContRep Verif.ContPrim.
Require Import Sorting.Permutation Sorting.Sorted.

Lemma der_inj s p a b d : wf s -> taggable s p -> contract s -> der s (stags s p) a d -> der s (stags s p) b d -> sim s a b.
Proof.
  intros W T C H K. destruct (der_info s p a d W H) as (i & B & _ & E & _). subst d.
  destruct (K_build s C p None i a T I B H) as (v & a' & Ev & S1 & R & _).
  destruct (K_build s C p None i b T I B K) as (v' & b' & Ev' & S2 & R' & _).
  rewrite Ev in Ev'. injection Ev' as <-. apply (sim_trans s W a a' b S1).
  apply (sim_trans s W a' b' b); [eapply rep_fun; eauto|now apply sim_sym].
Qed.

Lemma enc_field_sim f na nb y : wf (snd f) -> simf f na nb -> enc_field f na y -> enc_field f nb y.
Proof.
  intros W S1 H1. apply encf_cases in H1 as (E & H1). apply simf_cases in S1 as (_ & E' & S1). apply encf_cases. split; auto.
  destruct H1 as [(X & Y & H1)|[(X & Y & H1)|[(X & H1)|(dv & w & X & H1 & H1')]]]; destruct S1 as [(X' & Y' & Z')|S1]; try congruence.
  - left. auto.
  - rewrite Y in S1. apply sim_not_none in S1. tauto.
  - right. left. split; auto. split; [apply sim_not_none in S1; tauto|]. eapply encodes_sim; eauto.
  - right. right. left. split; auto. eapply encodes_sim; eauto.
  - right. right. right. exists dv, w. split; auto. split; auto. eapply encodes_sim; eauto.
Qed.
Lemma enc_fields_sim fs : (forall f, In f fs -> wf (snd f)) -> forall la lb x, all3 simf fs la lb -> enc_fields fs la x -> enc_fields fs lb x.
Proof.
  intros W la lb x S1 (ys & -> & H). exists ys. split; auto. revert W la lb ys S1 H.
  induction fs as [|f fs IH]; intros W [|na la] [|nb lb] [|y ys]; cbn; try tauto. intros [S1 S2] [H1 H2].
  split; [eapply enc_field_sim; eauto; apply W; now left|eapply IH; eauto; intros; apply W; now right].
Qed.

Lemma eqb_bytes_iff a b : eqb_bytes a b = true <-> a = b.
Proof. apply eqb_bytes_true. Qed.

Definition keptc (v v' : value) : Prop := is_lazy v = false -> is_lazy v' = false /\ kept v v'.
Lemma kept_refl v : kept v v. Proof. split; auto. Qed.
Lemma keptc_refl v : keptc v v. Proof. intros H. split; auto. apply kept_refl. Qed.
Lemma rep_lazy q n s t a v : rep q n s t a v -> is_lazy v = false.
Proof. intros R. destruct v; auto. now apply rep_not_lazy in R. Qed.

Lemma ents_kept fs la l l' d : length l = length l' ->
  (forall i v v', nth_error l i = Some v -> nth_error l' i = Some v' -> keptc v v') -> ents_seq fs la l d -> ents_seq fs la l' d.
Proof.
  intros L K (Ld & H). split; auto. intros i f na v' Hf Hn Hv'.
  destruct (nth_error l i) as [v|] eqn:Hv.
  - destruct (H i f na v Hf Hn Hv) as (ne & Hd & Z & E). exists ne. split; auto. destruct (K i v v' Hv Hv' Z) as (Z' & D & Hd'). split; auto.
    unfold ent_ok in *. rewrite D. destruct (dictlike v); auto. destruct E. auto.
  - apply nth_error_None in Hv. assert (N : nth_error l' i <> None) by congruence. apply nth_error_Some in N. lia.
Qed.
Lemma all2_nth_rel {A B} (R : A -> B -> Prop) l m : all2 R l m -> forall i x y, nth_error l i = Some x -> nth_error m i = Some y -> R x y.
Proof. intros H i x y Hx Hy. destruct (all2_nth _ _ _ _ _ H Hx) as (z & Hz & K). rewrite Hy in Hz. injection Hz as ->. auto. Qed.

Section Seq.
  Variable c : pcls.
  Variable fs : list (fld * spec).
  Hypothesis W : wf (SSeq c fs).
  Hypothesis C : forall f, In f fs -> contract (snd f).
  Notation incl l := (forall f, In f l -> In f fs).

  Lemma wf_dflt f d : In f fs -> fpres f = Default d -> class_explicit (snd f) = [] /\ default_ok (fst f) (snd f) d /\
    exists ad w, denotes (snd f) d ad /\ der (snd f) (ftags f) ad w /\ encodes (snd f) (ftags f) ad w.
  Proof.
    intros Hf E. destruct (wf_tags c fs f W Hf) as (Wf & _ & T). destruct W as (_ & _ & _ & _ & W'). rewrite all1_in in W'.
    destruct (W' f Hf) as (_ & _ & Wd). rewrite E in Wd. destruct Wd as (A & B & ad & w & D1 & D2 & _). split; auto. split; auto.
    exists ad, w. split; auto. split; auto. now apply der_encodes.
  Qed.
  Lemma dflt_not_choice f d : In f fs -> fpres f = Default d -> is_choice (snd f) = false.
  Proof. intros Hf E. destruct (wf_dflt f d Hf E) as (_ & D & _). destruct f as [f s]. cbn in *. destruct s; auto. contradiction. Qed.
  Lemma wf_opt f : In f fs -> fpres f <> Required -> class_explicit (snd f) = [].
  Proof.
    intros Hf E. destruct W as (_ & _ & _ & _ & W'). rewrite all1_in in W'. destruct (W' f Hf) as (_ & _ & Wd).
    destruct (fpres f); [contradiction|auto|tauto].
  Qed.
  Lemma wf_wf f : In f fs -> wf (snd f).
  Proof. intros Hf. now apply (wf_tags c fs f W). Qed.

  Lemma made_default f d : In f fs -> fpres f = Default d ->
    exists v ad a' w, x_make (methods (snd f)) (f_params (fst f)) (Some d) ANone = Ok v /\ denotes (snd f) d ad /\
      der (snd f) (ftags f) ad w /\ encodes (snd f) (ftags f) ad w /\ sim (snd f) ad a' /\ rep Own true (snd f) (ftags f) a' v /\ has_dict v = false.
  Proof.
    intros Hf E. destruct (wf_dflt f d Hf E) as (A & B & ad & w & D1 & D2 & D3). destruct (wf_tags c fs f W Hf) as (Wf & T & Tk).
    rewrite make_default by eauto using dflt_not_choice.
    destruct (K_make _ (C f Hf) _ d ad T D1 (der_fits _ _ _ _ Tk D2)) as (v & a' & Ev & S1 & R & Hd).
    exists v, ad, a', w. auto 10.
  Qed.

  Lemma absent_ok f na : In f fs -> der_field f na [] ->
    exists v na', absent_child (fmeth f) = Ok v /\ simf f na na' /\ crep Own true f na' v.
  Proof.
    intros Hf H. destruct (wf_tags c fs f W Hf) as (Wf & T & Tk). apply encf_cases in H as (E & H).
    destruct H as [(X & Y & _)|[(X & Y & H1)|[(X & H1)|(dv & w & X & H1 & H1')]]].
    - exists VVoid, na. unfold absent_child, fmeth. unfold fpres in X. rewrite X. split; auto. split.
      + apply simf_cases. split; auto.
      + apply crep_cases. split; auto.
    - apply der_pos in H1; auto. contradiction.
    - apply der_pos in H1; auto. contradiction.
    - destruct (made_default f dv Hf X) as (v & ad & a' & w' & Ev & D1 & D2 & D3 & S1 & R & Hd).
      assert (S2 : sim (snd f) (snd na) ad).
      { destruct H1' as [((ad' & D1' & D2') & _)|(_ & Y)].
        - assert (ad' = ad) by (eapply denotes_fun; eauto). subst ad'. eapply der_inj; eauto.
        - subst w. apply der_pos in H1; auto. contradiction. }
      exists v, (fname f, a'). unfold absent_child, fmeth. unfold fpres in X. rewrite X. split; auto.
      assert (S3 : sim (snd f) (snd na) a') by (eapply sim_trans; eauto).
      split; [apply simf_cases; split; auto|]. apply crep_cases. split; auto.
  Qed.

  Lemma default_fine_field f : In f fs -> default_fine (snd f) (f_params (fst f)) (default_of (fst f)).
  Proof.
    intros Hf. unfold default_fine, default_of. destruct (f_pres (fst f)) as [| |d] eqn:E; auto.
    destruct (wf_dflt f d Hf E) as (A & B & ad & w & D1 & D2 & D3). destruct (wf_tags c fs f W Hf) as (_ & _ & Tk).
    split; [eapply dflt_not_choice; eauto|]. split; auto. split; [|exists ad; split; auto; eapply der_fits; eauto].
    destruct f as [f s]. cbn in *. destruct s, d; auto.
  Qed.

  Lemma present_der f na y : In f fs -> der_field f na y -> y <> [] -> der (snd f) (ftags f) (snd na) y /\ fst na = fname f /\ snd na <> ANone.
  Proof.
    intros Hf H N. apply encf_cases in H as (E & H).
    assert (G : forall z, der (snd f) (ftags f) (snd na) z -> snd na <> ANone) by (intros z Hz X; rewrite X in Hz; destruct (snd f); contradiction).
    destruct H as [(X & Y & K)|[(X & Y & H1)|[(X & H1)|(dv & w & X & H1 & [(_ & H1')|(_ & H1')])]]]; try contradiction; try subst y; eauto.
  Qed.

  Lemma present_ok f na i : In f fs -> ber_info max_budget i -> der_field f na (encoding_of i) ->
    exists na', simf f na na' /\ crep Own true f na' (VLazy i).
  Proof.
    intros Hf B H. pose proof (encoding_pos i B) as L. destruct (present_der f na _ Hf H) as (D & E & N).
    { intros X. rewrite X in L. discriminate L. }
    destruct (wf_tags c fs f W Hf) as (Wf & T & Tk).
    destruct (K_build _ (C f Hf) _ (default_of (fst f)) i (snd na) T (default_fine_field f Hf) B D) as (v & a' & Ev & S1 & R).
    exists (fname f, a'). split; [apply simf_cases; split; auto|]. apply crep_cases. split; auto. right. left. exists i, v.
    split; auto. split; auto. split; [|auto]. intros _. eapply encodes_sim; eauto. now apply der_encodes.
  Qed.

  (* children found in contents: each field has one element or none *)
  Definition found_in (P : fld * spec -> text * aval -> bytes -> Prop) (md : mode) : Prop :=
    (forall f na, In f fs -> P f na [] -> fpres f <> Required /\
       exists v na', absent_child (fmeth f) = Ok v /\ simf f na na' /\ crep md true f na' v) /\
    (forall f na y, In f fs -> P f na y -> y <> [] -> exists i, ber_info max_budget i /\ encoding_of i = y /\
       In (i_class i, i_tag i) (ids f) /\ exists na', simf f na na' /\ crep md true f na' (VLazy i)).

  Section Found.
  Variable P : fld * spec -> text * aval -> bytes -> Prop.
  Variable md : mode.
  Hypothesis F : found_in P md.

  (* the element that follows belongs to a field that can come next *)
  Lemma next_ids l : incl l -> forall la ys i r, all3 P l la ys -> ber_info max_budget i -> concat ys = encoding_of i ++ r ->
    exists g, In g (reach l) /\ In (i_class i, i_tag i) (ids g).
  Proof.
    induction l as [|f l IH]; intros S [|na la] [|y ys] i r; cbn [all3]; try tauto.
    - intros _ B E. cbn in E. apply encoding_pos in B. destruct (encoding_of i); discriminate.
    - intros [H1 H2] B E. cbn in E.
      assert (Hf : In f fs) by (apply S; now left).
      assert (R : In f (reach (f :: l))) by (cbn [reach]; destruct (fpres f); now left).
      destruct y as [|b y].
      + destruct (proj1 F f na Hf H1) as (X & _).
        destruct (IH (fun g Hg => S g (or_intror Hg)) la ys i r H2 B E) as (g & Hg & K). exists g. split; auto.
        cbn [reach]. destruct (fpres f); [contradiction|now right|now right].
      + destruct (proj2 F f na _ Hf H1) as (j & Bj & Ej & Kj & _); [discriminate|]. rewrite <- Ej in E.
        destruct (same_info j i (concat ys) r Bj B E) as [<- _]. exists f. auto.
  Qed.

  Lemma loop_ok l : incl l -> distinct l -> forall la ys, all3 P l la ys ->
    (forall n pre i r, ber_info max_budget i -> concat ys = encoding_of i ++ r -> (length l + 2 * length r + 1 <= n)%nat ->
       exists vs la', seq_loop n (pre ++ concat ys) (fields l) (Some i) (len pre + len (encoding_of i)) = Ok vs /\
         all3 simf l la la' /\ all3 (crep md true) l la' vs) /\
    (forall n pre, (2 * length (concat ys) + length l + 1 <= n)%nat ->
       exists vs la', seq_loop n (pre ++ concat ys) (fields l) None (len pre) = Ok vs /\
         all3 simf l la la' /\ all3 (crep md true) l la' vs).
  Proof.
    induction l as [|f l IH]; intros S Ds [|na la] [|y ys]; cbn [all3]; try tauto.
    - intros _. split.
      + intros n pre i r B E. cbn in E. apply encoding_pos in B. destruct (encoding_of i); discriminate.
      + intros [|n] pre L; cbn in L; [lia|]. cbn [seq_loop concat fields map absent_children]. rewrite app_nil_r, Z.ltb_irrefl.
        exists [], []. cbn. auto.
    - intros [H1 H2]. cbn [distinct] in Ds. destruct Ds as [D1 D2].
      assert (Hf : In f fs) by (apply S; now left). destruct (wf_tags c fs f W Hf) as (Wf & T & Tk).
      destruct (IH (fun g Hg => S g (or_intror Hg)) D2 la ys H2) as [B0 A0].
      assert (PB : forall n pre i r, ber_info max_budget i -> concat (y :: ys) = encoding_of i ++ r -> (length (f :: l) + 2 * length r + 1 <= n)%nat ->
       exists vs la', seq_loop n (pre ++ concat (y :: ys)) (fields (f :: l)) (Some i) (len pre + len (encoding_of i)) = Ok vs /\
         all3 simf (f :: l) (na :: la) la' /\ all3 (crep md true) (f :: l) la' vs).
      { intros [|n] pre i r B E L; cbn [length] in L; [lia|]. cbn [seq_loop fields map]. fold (fields l). fold (fmeth f). cbn [concat] in E |- *.
        destruct y as [|b y].
        - cbn [app] in E |- *. destruct (proj1 F f na Hf H1) as (X & v & na' & Ev & S1 & R).
          assert (Tf : takes (fmeth f) i = false).
          { destruct (takes (fmeth f) i) eqn:Tf; auto. apply takes_in in Tf; auto using wf_opt.
            destruct (next_ids l (fun g Hg => S g (or_intror Hg)) la ys i r H2 B E) as (g & Hg & K).
            specialize (D1 X). rewrite Forall_forall in D1. exfalso. eapply D1; eauto. }
          rewrite Tf, Ev. cbn [bind].
          destruct (B0 n pre i r B E) as (vs & la' & Es & S2 & R2); [lia|]. rewrite Es. cbn [bind]. exists (v :: vs), (na' :: la'). cbn. auto.
        - destruct (proj2 F f na _ Hf H1) as (j & Bj & Ej & Kj & na' & S1 & R); [discriminate|]. rewrite <- Ej in E.
          destruct (same_info j i (concat ys) r Bj B E) as [-> Er].
          assert (Tf : takes (fmeth f) i = true).
          { destruct (fpres f) eqn:X; [unfold takes, fmeth; unfold fpres in X; now rewrite X| |];
              (apply takes_in; auto; [apply wf_opt; auto|]; congruence). }
          rewrite Tf.
          destruct (A0 n (pre ++ encoding_of i)) as (vs & la' & Es & S2 & R2); [rewrite Er; lia|].
          rewrite <- Ej, app_assoc. rewrite len_app in Es. rewrite Es. cbn [bind]. exists (VLazy i :: vs), (na' :: la'). cbn. auto. }
      split; [exact PB|].
      intros [|n] pre L; cbn [length] in L; [lia|]. cbn [seq_loop].
      destruct (list_eq_dec Z.eq_dec (concat (y :: ys)) []) as [E|E].
      + rewrite E, app_nil_r, Z.ltb_irrefl.
        assert (G : forall l, incl l -> forall la ys, all3 P l la ys -> concat ys = [] ->
           exists vs la', absent_children (fields l) = Ok vs /\ all3 simf l la la' /\ all3 (crep md true) l la' vs).
        { clear - W C F. induction l as [|f l IH]; intros S [|na la] [|y ys]; cbn [all3]; try tauto.
          - intros _ _. exists [], []. cbn. auto.
          - intros [H1 H2] E. cbn in E. apply app_eq_nil in E as [-> E].
            destruct (proj1 F f na (S f (or_introl eq_refl)) H1) as (_ & v & na' & Ev & S1 & R).
            destruct (IH (fun g Hg => S g (or_intror Hg)) la ys H2 E) as (vs & la' & Es & S2 & R2).
            exists (v :: vs), (na' :: la'). cbn [fields map absent_children]. fold (fields l). fold (fmeth f). rewrite Ev. cbn [bind]. rewrite Es. cbn. auto. }
        apply (G (f :: l) S (na :: la) (y :: ys)); cbn [all3]; auto.
      + assert (exists i r, ber_info max_budget i /\ concat (y :: ys) = encoding_of i ++ r) as (i & r & B & Ei).
        { assert (G : forall l, incl l -> forall la ys, all3 P l la ys -> concat ys <> [] ->
             exists i r, ber_info max_budget i /\ concat ys = encoding_of i ++ r).
          { clear - W C F. induction l as [|f l IH]; intros S [|na la] [|y ys]; cbn [all3]; try tauto.
            intros [H1 H2] N. destruct y as [|b y]; [apply (IH (fun g Hg => S g (or_intror Hg)) la ys H2 N)|].
            pose proof (S f (or_introl eq_refl)) as Hf. destruct (proj2 F f na _ Hf H1) as (j & Bj & Ej & _); [discriminate|].
            exists j, (concat ys). split; auto. now rewrite Ej. }
          apply (G (f :: l) S (na :: la) (y :: ys)); cbn [all3]; auto. }
        assert (Lp : len pre <? len (pre ++ concat (y :: ys)) = true).
        { rewrite len_app. destruct (concat (y :: ys)); [contradiction|]. unfold len; cbn [length]. lia. }
        rewrite Lp. pose proof (parse_complete i pre r B) as Pc. rewrite <- Ei in Pc. rewrite Pc. cbn [bind].
        apply (PB n pre i r B Ei). pose proof (encoding_pos i B) as Lb. rewrite Ei in L. rewrite app_length in L. unfold len in Lb. cbn [length]. lia.
  Qed.

  Lemma children_found la ys : all3 P fs la ys ->
    exists vs la', seq_children (fields fs) (concat ys) = Ok vs /\ all3 simf fs la la' /\ all3 (crep md true) fs la' vs.
  Proof.
    intros H. destruct W as (_ & _ & _ & Wd & _). destruct (loop_ok fs (fun f Hf => Hf) Wd la ys H) as [_ A0].
    destruct (A0 (S (2 * length (concat ys) + length (fields fs))) []) as (vs & la' & Es & R); [unfold fields; rewrite map_length; lia|].
    exists vs, la'. split; auto.
  Qed.
  End Found.

  Lemma der_found : found_in der_field Own.
  Proof.
    split.
    - intros f na Hf H. split; [|now apply absent_ok]. intros X. apply encf_cases in H as (_ & H).
      destruct H as [(Y & _)|[(Y & _)|[(_ & H)|(dv & w & Y & _)]]]; try congruence. apply der_pos in H; auto. now apply wf_wf.
    - intros f na y Hf H N. destruct (present_der f na _ Hf H N) as (D & _ & _).
      destruct (der_info _ _ _ _ (wf_wf f Hf) D) as (j & Bj & _ & Ej & Kj). exists j. split; auto. split; auto. split; auto.
      apply present_ok; auto. now rewrite Ej.
  Qed.

  Lemma children_ok la ys : all3 der_field fs la ys ->
    exists vs la', seq_children (fields fs) (concat ys) = Ok vs /\ all3 simf fs la la' /\ all3 (crep Own true) fs la' vs.
  Proof. apply children_found. apply der_found. Qed.

  Lemma rep_seq_eq q n t a v : rep q n (SSeq c fs) t a v <-> exists la t' e ch m nc, a = ADict la /\ v = VSeq t' e ch m nc /\
      t' = t /\ e_method e = 1 /\
      (m = false -> e_contents e <> None) /\
      (acc q = true -> flagged q v = false -> exists x, has_hdr t e x /\ enc_fields fs la x) /\
      (n = true -> match nc, ch with None, _ => True | Some d, Some l => ents_seq fs la l d | Some _, None => False end) /\
      match ch with
      | Some l => all3 (crep q n) fs la l
      | None => m = false /\ exists x l, e_contents e = Some x /\ seq_children (fields fs) x = Ok l /\ all3 (crep (low q) true) fs la l
      end.
  Proof.
    split.
    - intros R. cbn [rep] in R. unfold rep_seq in R. destruct a as [| |la| | |]; try contradiction.
      destruct v as [| | |t' e ch m nc| |]; try contradiction. exists la, t', e, ch, m, nc. split; auto.
    - intros (la & t' & e & ch & m & nc & -> & -> & R). cbn [rep]. unfold rep_seq. exact R.
  Qed.

  (* "if self.children is None: self._parse_children()" *)
  Lemma ensure_ok q n t la e ch m nc : rep q n (SSeq c fs) t (ADict la) (VSeq t e ch m nc) ->
    exists l, ensure (fields fs) false (VSeq t e ch m nc) = (VSeq t e (Some l) m nc, Ok l) /\
      all3 (crep q n) fs la l /\ (ch = Some l \/ ch = None) /\ rep q n (SSeq c fs) t (ADict la) (VSeq t e (Some l) m nc).
  Proof.
    intros R. pose proof R as R0. apply rep_seq_eq in R as (la' & t' & e' & ch' & m' & nc' & [= <-] & [= <- <- <- <- <-] & _ & Em & R2 & R3 & R4 & R5).
    destruct ch as [l|].
    - exists l. cbn [ensure]. auto.
    - destruct R5 as (-> & x & l & Hx & El & R5). exists l. cbn [ensure]. unfold parse_flat. rewrite Hx.
      rewrite El. split; [reflexivity|]. assert (R6 : all3 (crep q n) fs la l).
      { eapply all3_impl; [|exact R5]. intros f na v _. apply crep_weaken; auto. apply le_low_self. }
      split; auto. split; auto. apply rep_seq_eq. exists la, t, e, (Some l), false, nc. do 3 (split; [reflexivity|]).
      split; auto. split; [intros _; rewrite Hx; discriminate|]. split; [intros Q _; apply R3; auto; now apply not_flagged|]. split; auto.
      intros N. specialize (R4 N). destruct nc; auto. contradiction.
  Qed.

  (* ---- dumping the children ---- *)
  Lemma default_dump_ok f : In f fs ->
    match fpres f with
    | Default d => exists ad w, denotes (snd f) d ad /\ encodes (snd f) (ftags f) ad w /\ default_dump (fmeth f) = Ok (Some w)
    | _ => default_dump (fmeth f) = Ok None
    end.
  Proof.
    intros Hf. unfold fpres. destruct (f_pres (fst f)) as [| |d] eqn:E; [unfold default_dump, fmeth; now rewrite E| unfold default_dump, fmeth; now rewrite E|].
    destruct (made_default f d Hf E) as (v & ad & a' & w & Ev & D1 & D2 & D3 & S1 & R & Hd).
    destruct (wf_tags c fs f W Hf) as (Wf & T & Tk).
    destruct (K_dump _ (C f Hf) _ _ _ _ _ false Tk R) as (v' & b & Eb & _ & _ & _ & En). specialize (En (or_introl eq_refl)).
    exists ad, w. split; auto. split; auto. unfold default_dump, fmeth. rewrite E, Ev. cbn [bind]. rewrite Eb.
    do 2 f_equal. eapply encodes_fun; [exact Wf|exact En|]. eapply encodes_sim; eauto.
  Qed.

  Definition dump_child (force : bool) (f : fld * spec) (v : value) : value * res bytes :=
    match v with
    | VLazy i => if force then match built (fmeth f) v with Ok b => child_dump (methods (snd f)) force b | Err e => (v, Err e) end
                 else (v, Ok (i_header i ++ i_contents i ++ i_trailer i))
    | _ => child_dump (methods (snd f)) force v
    end.

  Lemma child_dump_rep q n force f a v : In f fs -> rep q n (snd f) (ftags f) a v ->
    exists v1 b, child_dump (methods (snd f)) force v = (v1, Ok b) /\ rep (join q force) n (snd f) (ftags f) a v1 /\ mutated v1 = false /\
      kept v v1 /\ (acc q || force = true -> encodes (snd f) (ftags f) a b).
  Proof.
    intros Hf R. destruct (wf_tags c fs f W Hf) as (Wf & T & Tk).
    destruct (K_dump _ (C f Hf) _ _ _ _ _ force Tk R) as (v' & b & Eb & K & M & R' & En). exists v', b.
    split. { destruct v; auto. now apply rep_not_void in R. }
    split; [exact R'|]. split; auto. split; auto. rewrite orb_true_iff. auto.
  Qed.

  Lemma dump_child_ok q n force f na v : In f fs -> crep q n f na v ->
    exists v1 b, dump_child force f v = (v1, Ok b) /\ crep (join q force) n f na v1 /\ mutated v1 = false /\ keptc v v1 /\
      (acc q || force = true -> (fpres f = Optional /\ snd na = ANone /\ b = []) \/ encodes (snd f) (ftags f) (snd na) b).
  Proof.
    intros Hf R. apply crep_cases in R as (E & [(-> & X & Y)|[(i & b & -> & B & En & Eb & Fr)|R]]).
    - exists VVoid, []. cbn [dump_child child_dump]. split; auto. split; [apply crep_cases; auto|]. split; auto. split; [apply keptc_refl|]. auto.
    - destruct force; cbn [dump_child].
      + unfold built, fmeth. rewrite Eb. destruct Fr as (Fr & _).
        destruct (child_dump_rep (low q) true true f _ b Hf Fr) as (v1 & d & Ed & R1 & M & K & En'). exists v1, d. split; auto.
        split; [apply crep_cases; split; auto; right; right; eapply rep_weaken; [| |exact R1]; auto|]. split; auto.
        split; [intros Z; discriminate Z|]. intros _. right. apply En'. apply orb_true_r.
      + exists (VLazy i), (encoding_of i). split; auto. split; [apply crep_cases; split; auto; right; left; eauto 10|]. split; auto.
        split; [apply keptc_refl|]. rewrite orb_false_r. auto.
    - assert (L : is_lazy v = false) by (eapply rep_lazy; eauto).
      destruct (child_dump_rep q n force f _ v Hf R) as (v1 & d & Ed & R1 & M & K & En'). exists v1, d.
      split; [destruct v; auto; discriminate|]. split; [apply crep_cases; auto|]. split; auto. split; [intros _; split; auto; eapply rep_lazy; eauto|]. auto.
  Qed.

  Definition is_default_of (f : fld * spec) (b : bytes) : Prop :=
    exists d ad, fpres f = Default d /\ denotes (snd f) d ad /\ encodes (snd f) (ftags f) ad b.
  Lemma is_default_ok f b : In f fs -> exists dflt, is_default (fmeth f) b = Ok dflt /\ (dflt = true <-> is_default_of f b).
  Proof.
    intros Hf. pose proof (default_dump_ok f Hf) as H. unfold is_default, is_default_of. destruct (fpres f) as [| |d] eqn:E.
    - rewrite H. cbn [bind]. exists false. split; auto. split; [discriminate|]. intros (d & ad & X & _). discriminate.
    - rewrite H. cbn [bind]. exists false. split; auto. split; [discriminate|]. intros (d & ad & X & _). discriminate.
    - destruct H as (ad & w & D & En & H). rewrite H. cbn [bind]. exists (eqb_bytes w b). split; auto. rewrite eqb_bytes_iff. split.
      + intros <-. eauto.
      + intros (d' & ad' & X & D' & En'). injection X as <-. assert (ad' = ad) by (exact (denotes_fun _ _ _ _ (wf_wf f Hf) D' D)). subst ad'.
        exact (encodes_fun _ _ _ _ _ (wf_wf f Hf) En En').
  Qed.

  Lemma enc_field_of f na b dflt : In f fs -> fst na = fname f ->
    (fpres f = Optional /\ snd na = ANone /\ b = []) \/ encodes (snd f) (ftags f) (snd na) b ->
    (dflt = true <-> is_default_of f b) -> enc_field f na (if dflt then [] else b).
  Proof.
    intros Hf E H K. apply encf_cases. split; auto. destruct H as [(X & Y & ->)|H].
    - left. destruct dflt; auto.
    - destruct (fpres f) as [| |d] eqn:X.
      + right. right. left. split; auto. destruct dflt; auto. destruct K as [K _]. destruct (K eq_refl) as (d & ad & X' & _). congruence.
      + right. left. split; auto. split; [eapply encodes_not_none; eauto|]. destruct dflt; auto. destruct K as [K _]. destruct (K eq_refl) as (d & ad & X' & _). congruence.
      + right. right. right. exists d, b. split; auto. split; auto. destruct dflt.
        * left. split; auto. destruct K as [K _]. destruct (K eq_refl) as (d' & ad & X' & D & En). assert (d' = d) by congruence. subst d'. eauto.
        * right. split; auto. intros (ad & D & En). destruct K as [_ K]. assert (false = true) by (apply K; exists d, ad; auto). discriminate.
  Qed.

  Lemma dump_fields_ok q n force l : incl l -> forall la vs, all3 (crep q n) l la vs ->
    exists vs' x, dump_fields force (fields l) vs = (vs', Ok x) /\ all3 (crep (join q force) n) l la vs' /\
      existsb mutated vs' = false /\ all2 keptc vs vs' /\ (acc q || force = true -> enc_fields l la x).
  Proof.
    induction l as [|f l IH]; intros S [|na la] [|v vs]; cbn [all3]; try tauto.
    - intros _. exists [], []. cbn. split; auto. split; auto. split; auto. split; auto. intros _. exists []. cbn. auto.
    - intros [H1 H2]. assert (Hf : In f fs) by (apply S; now left).
      destruct (dump_child_ok q n force f na v Hf H1) as (v1 & b & Eb & R1 & M1 & K1 & En1).
      destruct (is_default_ok f b Hf) as (dflt & Ed & Hd).
      destruct (IH (fun g Hg => S g (or_intror Hg)) la vs H2) as (vs' & x & Es & R2 & M2 & K2 & En2).
      exists (v1 :: vs'), (if dflt then x else b ++ x). cbn [fields map dump_fields]. fold (fields l). fold (fmeth f). fold (dump_child force f v).
      change (match v with VLazy i => if force then match built (fmeth f) v with Ok b0 => child_dump (snd (fmeth f)) force b0 | Err e => (v, Err e) end
        else (v, Ok (i_header i ++ i_contents i ++ i_trailer i)) | _ => child_dump (snd (fmeth f)) force v end) with (dump_child force f v).
      rewrite Eb, Ed, Es. cbn [bind]. split; auto. split; [cbn; auto|]. split; [cbn; now rewrite M1|]. split; [cbn; auto|].
      intros Q. specialize (En1 Q). destruct (En2 Q) as (ys & Ey & Hy). subst x. exists ((if dflt then [] else b) :: ys). split; [destruct dflt; reflexivity|].
      cbn [all3]. split; auto. eapply enc_field_of; eauto. apply crep_cases in R1. tauto.
  Qed.

  Lemma set_contents_ok q n force t la e ch m nc : rep q n (SSeq c fs) t (ADict la) (VSeq t e ch m nc) ->
    exists l' x, set_contents_seq (fields fs) false force (VSeq t e ch m nc) =
        (VSeq t (Enc 1 None (Some x) [] (e_indef e)) (Some l') false nc, Ok tt) /\
      existsb mutated l' = false /\
      rep (join q force) n (SSeq c fs) t (ADict la) (VSeq t (Enc 1 None (Some x) [] (e_indef e)) (Some l') false nc).
  Proof.
    intros R. destruct (ensure_ok _ _ _ _ _ _ _ _ R) as (l & El & H & _ & R').
    destruct (dump_fields_ok q n force fs (fun f Hf => Hf) la l H) as (l' & x & Ed & R1 & M & K & En).
    exists l', x. unfold set_contents_seq. rewrite El. cbn iota beta. rewrite Ed.
    apply rep_seq_eq in R' as (la' & t' & e' & ch' & m' & nc' & [= <-] & [= <- <- <- <- <-] & _ & Em & R2 & R3 & R4 & R5).
    rewrite Em. split; auto. split; auto. apply rep_seq_eq.
    eexists la, t, _, (Some l'), false, nc. do 3 (split; [reflexivity|]). split; [reflexivity|].
    split; [intros _; cbn; discriminate|]. split.
    - intros Q _. rewrite acc_join in Q. exists x. split; [|auto]. split; [reflexivity|]. now left.
    - split; [|exact R1]. intros N. specialize (R4 N). destruct nc as [d|]; auto.
      eapply ents_kept; [|apply (all2_nth_rel _ _ _ K)|exact R4]. now apply all2_length in K.
  Qed.

  Lemma seq_mutated t e l m nc : mutated (VSeq t e (Some l) m nc) = m || existsb mutated l.
  Proof. reflexivity. Qed.

  (* .contents *)
  Lemma contents_ok q n t la e ch m nc : rep q n (SSeq c fs) t (ADict la) (VSeq t e ch m nc) ->
    exists e' ch' m' x, contents_seq (fields fs) false (VSeq t e ch m nc) = (VSeq t e' ch' m' nc, Ok (Some x)) /\
      mutated (VSeq t e' ch' m' nc) = false /\ e_contents e' = Some x /\
      rep q n (SSeq c fs) t (ADict la) (VSeq t e' ch' m' nc) /\
      (acc q = true -> has_hdr t e' x /\ enc_fields fs la x) /\
      (mutated (VSeq t e ch m nc) = false -> e' = e).
  Proof.
    intros R. destruct (mutated (VSeq t e ch m nc)) eqn:M.
    - destruct ch as [l|].
      + destruct (set_contents_ok _ _ false _ _ _ _ _ _ R) as (l' & x & Es & Ml & R'). cbn [join] in R'.
        eexists _, _, _, x. unfold contents_seq. rewrite M, Es. cbn [e_contents]. split; [reflexivity|]. split; [exact Ml|]. split; [reflexivity|].
        split; auto. split; [|discriminate]. intros Q. apply rep_seq_eq in R' as (la' & t' & e' & ch' & m' & nc' & [= <-] & [= <- <- <- <- <-] & _ & Em & R2 & R3 & _).
        destruct (R3 Q) as (x' & Hx & Ex); [apply not_flagged; exact Ml|]. assert (x' = x) by (destruct Hx as [Hx _]; cbn in Hx; congruence). subst x'. auto.
      + apply rep_seq_eq in R as (la' & t' & e' & ch' & m' & nc' & [= <-] & [= <- <- <- <- <-] & _ & Em & R2 & R3 & R4 & R5).
        destruct R5 as (-> & _). discriminate M.
    - pose proof R as R0. apply rep_seq_eq in R as (la' & t' & e' & ch' & m' & nc' & [= <-] & [= <- <- <- <- <-] & _ & Em & R2 & R3 & R4 & R5).
      destruct (e_contents e) as [x|] eqn:Ex; [|specialize (R2 (mutated_own _ M)); congruence]. exists e, ch, m, x.
      split. { unfold contents_seq. destruct ch; [rewrite M|]; now rewrite Ex. }
      split; auto. split; auto. split; auto. split; auto. intros Q. destruct (R3 Q (not_flagged _ _ M)) as (x' & Hx & Hf).
      assert (x' = x) by (destruct Hx as [Hx _]; congruence). subst x'. auto.
  Qed.

  Lemma missing_ok q n l : forall la vs, all3 (crep q n) l la vs -> missing (fields l) vs = false.
  Proof.
    induction l as [|f l IH]; intros [|na la] [|v vs]; cbn [all3]; try tauto. intros [H1 H2]. cbn [fields map missing]. fold (fields l).
    apply crep_cases in H1 as (_ & [(-> & X & _)|[(i & b & -> & _)|R]]).
    - unfold fpres in X. rewrite X. eapply IH; eauto.
    - destruct (f_pres (fst f)); eapply IH; eauto.
    - destruct v; [now apply rep_not_void in R| | | | |]; destruct (f_pres (fst f)); eapply IH; eauto.
  Qed.

  (* the header is right or missing: Asn1Value.dump *)
  Lemma finish_ok t e x : e_method e = 1 -> has_hdr t e x ->
    exists e', finish_dump t e (Some x) = (e', Ok (cbytes t x)) /\ e_method e' = 1 /\ has_hdr t e' x.
  Proof.
    intros Em (Ec & Eh). unfold finish_dump. rewrite Em. destruct (ends_80 (e_header e)) eqn:E8.
    - eexists. split; [reflexivity|]. split; [reflexivity|]. split; [exact Ec|]. right. auto.
    - destruct Eh as [Eh|[Eh Et]]; rewrite Eh.
      + eexists. split; [reflexivity|]. split; [reflexivity|]. split; [exact Ec|]. right. auto.
      + exists e. rewrite Et, app_nil_r. split; [reflexivity|]. split; auto. split; auto.
  Qed.
  Lemma finish_any t e x : e_contents e = Some x -> exists e' d, finish_dump t e (Some x) = (e', Ok d) /\ e_method e' = e_method e /\ e_contents e' = Some x.
  Proof.
    intros Ec. unfold finish_dump. destruct (ends_80 (e_header e)); [eauto 6|]. destruct (e_header e); eauto 6.
  Qed.

  Lemma rep_enc q n t la e e' ch m nc : e_method e' = 1 -> e_contents e' = e_contents e ->
    (forall x, has_hdr t e x -> has_hdr t e' x) ->
    rep q n (SSeq c fs) t (ADict la) (VSeq t e ch m nc) -> rep q n (SSeq c fs) t (ADict la) (VSeq t e' ch m nc).
  Proof.
    intros Em Ec Hh R. apply rep_seq_eq in R as (la' & t' & e0 & ch' & m' & nc' & [= <-] & [= <- <- <- <- <-] & _ & _ & R2 & R3 & R4 & R5).
    apply rep_seq_eq. exists la, t, e', ch, m, nc. do 3 (split; [reflexivity|]). split; auto. split; [intros M; rewrite Ec; now apply R2|].
    split; [intros Q M; destruct (R3 Q M) as (x & Hx & En); eauto|]. split; auto. destruct ch; auto.
    destruct R5 as (-> & x & l & Hx & El & R5). split; auto. exists x, l. split; [congruence|auto].
  Qed.

  Lemma finish_rep q n t la e ch m nc x : e_contents e = Some x -> mutated (VSeq t e ch m nc) = false ->
    rep q n (SSeq c fs) t (ADict la) (VSeq t e ch m nc) -> 
    exists e' d, finish_dump t e (Some x) = (e', Ok d) /\ mutated (VSeq t e' ch m nc) = false /\
      rep q n (SSeq c fs) t (ADict la) (VSeq t e' ch m nc) /\
      (acc q = true -> encodes (SSeq c fs) t (ADict la) d).
  Proof.
    intros Ec M R. pose proof R as R0.
    apply rep_seq_eq in R as (la' & t' & e0 & ch' & m' & nc' & [= <-] & [= <- <- <- <- <-] & _ & Em & R2 & R3 & R4 & R5).
    destruct (finish_any t e x Ec) as (e' & d & Ed & Em' & Ec'). exists e', d. split; auto. split; [exact M|].
    assert (HH : forall y, has_hdr t e y -> has_hdr t e' y).
    { intros y Hy. assert (y = x) by (destruct Hy as [Hy _]; congruence). subst y.
      destruct (finish_ok t e x Em Hy) as (e2 & E2 & _ & H2). rewrite Ed in E2. now injection E2 as -> _. }
    split; [apply rep_enc with (e := e); [congruence|congruence|exact HH|exact R0]|].
    intros Q. destruct (R3 Q (not_flagged _ _ M)) as (y & Hy & En). assert (y = x) by (destruct Hy as [Hy _]; congruence). subst y.
    destruct (finish_ok t e x Em Hy) as (e2 & E2 & _ & H2). rewrite Ed in E2. injection E2 as _ ->. apply encodes_seq. eauto.
  Qed.

  Lemma dump_ok q n t la e ch m nc f : rep q n (SSeq c fs) t (ADict la) (VSeq t e ch m nc) ->
    exists e' ch' m' d, dump_seq (fields fs) false f (VSeq t e ch m nc) = (VSeq t e' ch' m' nc, Ok d) /\
      mutated (VSeq t e' ch' m' nc) = false /\ rep (join q f) n (SSeq c fs) t (ADict la) (VSeq t e' ch' m' nc) /\
      (acc q = true \/ f = true -> encodes (SSeq c fs) t (ADict la) d).
  Proof.
    intros R. unfold dump_seq.
    assert (Nf : match fields fs with [] => false | _ => true end = true) by (destruct W as (_ & Nn & _); destruct fs; [contradiction|reflexivity]).
    rewrite Nf, andb_true_r. set (force := f || ends_80 (e_header e)).
    assert (St : exists v1 e1 ch1 m1, (if force then set_contents_seq (fields fs) false force (VSeq t e ch m nc) else (VSeq t e ch m nc, Ok tt)) = (v1, Ok tt) /\
       v1 = VSeq t e1 ch1 m1 nc /\ rep (join q f) n (SSeq c fs) t (ADict la) v1).
    { destruct force eqn:Ef.
      - destruct (set_contents_ok q n true t la e ch m nc R) as (l' & x & Es & _ & R'). rewrite Es. eexists _, _, _, _. split; [reflexivity|].
        split; [reflexivity|]. eapply rep_weaken; [| |exact R']; cbn [join]; auto.
      - unfold force in Ef. apply orb_false_iff in Ef as [-> _]. cbn [join]. eexists _, _, _, _. split; [reflexivity|]. split; [reflexivity|auto]. }
    destruct St as (v1 & e1 & ch1 & m1 & Es & -> & R1). rewrite Es.
    destruct (contents_ok _ _ _ _ _ _ _ _ R1) as (e2 & ch2 & m2 & x & Ex & M2 & Ec & R2 & _).
    destruct (finish_rep _ _ _ _ _ _ _ _ x Ec M2 R2) as (e3 & d & Ed & M3 & R3 & En).
    destruct ch1 as [l1|].
    - assert (Ms : missing (fields fs) l1 = false).
      { apply rep_seq_eq in R1 as (la' & t' & e' & ch' & m' & nc' & [= <-] & [= <- <- <- <- <-] & _ & _ & _ & _ & _ & R5). eapply missing_ok; eauto. }
      rewrite Ms, Ex, Ed. eexists _, _, _, _. split; [reflexivity|]. split; auto. split; auto. intros Q. apply En. rewrite acc_join. destruct Q as [-> | ->]; auto using orb_true_r.
    - cbn [contents_seq] in Ex. injection Ex as <- <- <- Ex. rewrite Ex, Ed. eexists _, _, _, _. split; [reflexivity|]. split; auto. split; auto.
      intros Q. apply En. rewrite acc_join. destruct Q as [-> | ->]; auto using orb_true_r.
  Qed.
End Seq.
