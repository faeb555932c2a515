(* The methods of a SequenceOf or SetOf meet the contract of ContRep if those of the
   element class do. *)
Require Import Verif.Base Verif.BaseFacts Verif.IntModel Verif.IntSpec Verif.IntProofs
  Verif.ParserModel Verif.ParserSpec Verif.ParserProofs Verif.ParserFacts Verif.Text Verif.CodecModel Verif.TagSpec Verif.TagProofs
  Verif.PrimModel Verif.PrimSpec Verif.PrimProofs Verif.PrimSet Verif.PrimDump Verif.PrimLoad Verif.HistSpec Verif.PrimHist
  Verif.PrimRead Verif.PrimSide Verif.ContModel Verif.ContSpec Verif.ContBase Verif.ContRep Verif.ContPrim Verif.ContSeq Verif.ContSeq2.
Require Import Sorting.Permutation Sorting.Sorted.

(* ---- sorting ---- *)
Lemma bytes_leb_iff a : forall b, bytes_leb a b = true <-> bytes_le a b.
Proof.
  induction a as [|x a IH]; intros [|y b]; cbn; try tauto; try (split; [discriminate|contradiction]).
  rewrite orb_true_iff, andb_true_iff, Z.ltb_lt, Z.eqb_eq, IH. tauto.
Qed.
Lemma insert_perm x l : Permutation (x :: l) (insert_bytes x l).
Proof.
  induction l as [|y l IH]; cbn; auto. destruct (bytes_leb y x); auto. eapply perm_trans; [apply perm_swap|]. now constructor.
Qed.
Lemma insert_sorted x l : StronglySorted bytes_le l -> StronglySorted bytes_le (insert_bytes x l).
Proof.
  induction 1 as [|y l H IH F]; cbn; [constructor; [constructor|constructor]|]. destruct (bytes_leb y x) eqn:E.
  - constructor; auto. apply bytes_leb_iff in E. eapply Permutation_Forall; [apply insert_perm|]. constructor; auto.
  - assert (L : bytes_le x y).
    { destruct (bytes_le_total x y) as [L|L]; auto. apply bytes_leb_iff in L. congruence. }
    constructor; [constructor; auto|]. constructor; auto. eapply Forall_impl; [|exact F]. intros z Hz. eapply bytes_le_trans; eauto.
Qed.
Lemma sort_both l : forall acc, StronglySorted bytes_le acc ->
  StronglySorted bytes_le (fold_left (fun s x => insert_bytes x s) l acc) /\ Permutation (l ++ acc) (fold_left (fun s x => insert_bytes x s) l acc).
Proof.
  induction l as [|x l IH]; intros acc H; cbn; auto. destruct (IH (insert_bytes x acc) (insert_sorted x acc H)) as [A B]. split; auto.
  eapply perm_trans; [|exact B]. eapply perm_trans; [apply Permutation_middle|]. apply Permutation_app_head. apply insert_perm.
Qed.
Lemma sort_perm l : Permutation l (sort_bytes l).
Proof. destruct (sort_both l [] (SSorted_nil _)) as [_ H]. now rewrite app_nil_r in H. Qed.
Lemma sort_sorted l : StronglySorted bytes_le (sort_bytes l).
Proof. apply (sort_both l [] (SSorted_nil _)). Qed.

Lemma update_end {A} (l : list A) x y : update (l ++ [x]) (length l) y = l ++ [y].
Proof. apply update_mid. Qed.

Lemma ents_list_kept s la l l' d : length l = length l' ->
  (forall i v v', nth_error l i = Some v -> nth_error l' i = Some v' -> keptc v v') -> ents_list s la l d -> ents_list s la l' d.
Proof.
  intros L K (Ld & H). split; [congruence|]. intros i a v' Ha Hv'.
  destruct (nth_error_ex l i) as (v & Hv). { rewrite L. apply nth_error_Some. congruence. }
  destruct (H i a v Ha Hv) as (ne & Hne & Lz & E). destruct (K i v v' Hv Hv' Lz) as (Lz' & Kd & Kh).
  exists ne. split; auto. split; auto. unfold ent_ok in *. rewrite Kd. destruct (dictlike v); auto. destruct E. auto.
Qed.

Section Elts.
  Variable c : pcls.
  Variable s : spec.
  Variable sorted : bool.
  Definition LS : spec := if sorted then SSetOf c s else SSeqOf c s.
  Hypothesis W : wf LS.
  Hypothesis C : contract s.
  Notation T0 := (stags s no_params).

  Lemma W_parts : cls_ok c /\ wf s /\ taggable s no_params /\ class_explicit s = [].
  Proof. unfold LS in W. destruct sorted; exact W. Qed.
  Lemma W_s : wf s. Proof. apply W_parts. Qed.
  Lemma T0_ok : tagging_ok T0.
  Proof. apply stags_ok; apply W_parts. Qed.
  Lemma LS_tags p : stags LS p = tags_of c p.
  Proof. unfold LS. destruct sorted; reflexivity. Qed.
  Lemma LS_methods : methods LS = list_ops c (methods s) [] sorted.
  Proof. unfold LS. destruct W_parts as (_ & _ & _ & E). destruct sorted; cbn [methods]; now rewrite E. Qed.
  Lemma LS_encodes t la d : encodes LS t (AList la) d <-> exists x, enc_elts sorted s la x /\ d = cbytes t x.
  Proof. unfold LS. destruct sorted; [apply encodes_setof|apply encodes_seqof]. Qed.
  Lemma LS_sim_of la lb : all2 (sim s) la lb -> sim LS (AList la) (AList lb).
  Proof. unfold LS. destruct sorted; cbn; auto. intros H. exists la. auto. Qed.
  Lemma LS_taggable p : taggable LS p -> params_ok p /\ (p_implicit p = None \/ k_explicit c = []).
  Proof. unfold LS. intros (H & K & _). split; auto. destruct sorted; cbn in K; tauto. Qed.

  Lemma rep_list_eq q n t a v : rep q n LS t a v <-> exists la t' e ch m nc, a = AList la /\ v = VList t' e ch m nc /\
      t' = t /\ e_method e = 1 /\
      (m = false -> e_contents e <> None) /\
      (acc q = true -> flagged q v = false -> exists x, has_hdr t e x /\ enc_elts sorted s la x) /\
      (n = true -> match nc, ch with None, _ => True | Some d, Some l => ents_list s la l d | Some _, None => False end) /\
      match ch with
      | Some l => all2 (erep q n s) la l
      | None => m = false /\ exists x l, e_contents e = Some x /\ list_children x = Ok l /\ all2 (erep (low q) true s) la l
      end.
  Proof.
    split.
    - intros R. assert (R' : rep_list q n sorted s (fun a v => erep q n s a v) (fun a v => erep (low q) true s a v) t a v) by (unfold LS in R; destruct sorted; exact R).
      unfold rep_list in R'. destruct a as [| | |la| |]; try contradiction.
      destruct v as [| | | |t' e ch m nc|]; try contradiction. exists la, t', e, ch, m, nc. split; auto.
    - intros (la & t' & e & ch & m & nc & -> & -> & R).
      assert (R' : rep_list q n sorted s (fun a v => erep q n s a v) (fun a v => erep (low q) true s a v) t (AList la) (VList t' e ch m nc)) by exact R.
      unfold LS. destruct sorted; exact R'.
  Qed.

  Lemma fits_elts la : fits LS (AList la) -> exists ds, all2 (der s T0) la ds.
  Proof. intros (t & d & Ht & D). unfold LS in D. destruct sorted; cbn in D; destruct D as (ds & D); [destruct D as (es & D & _)|destruct D as (D & _)]; eauto. Qed.

  Lemma elt_ok a i : ber_info max_budget i -> der s T0 a (encoding_of i) ->
    exists a', sim s a a' /\ erep Own true s a' (VLazy i).
  Proof.
    intros B D. destruct W_parts as (_ & Ws & T & _). destruct (K_build _ C no_params None i a T I B D) as (v & a' & Ev & S1 & R).
    exists a'. split; auto. apply erep_cases. left. exists i, v. split; auto. split; auto. split; auto.
    intros _. eapply encodes_sim; eauto. apply der_encodes; auto. apply T0_ok.
  Qed.

  (* elements found one after another *)
  Lemma list_found (P : aval -> bytes -> Prop) md :
    (forall a y, P a y -> exists i, ber_info max_budget i /\ encoding_of i = y /\ exists a', sim s a a' /\ erep md true s a' (VLazy i)) ->
    forall la ds, all2 P la ds -> forall n pre, (length (concat ds) < n)%nat ->
    exists vs la', list_loop n (pre ++ concat ds) (len pre) = Ok vs /\ all2 (sim s) la la' /\ all2 (erep md true s) la' vs.
  Proof.
    intros F. induction la as [|a la IH]; intros [|d ds]; cbn [all2]; try tauto.
    - intros _ [|n] pre L; cbn in L; [lia|]. cbn [list_loop concat]. rewrite app_nil_r, Z.ltb_irrefl. exists [], []. cbn. auto.
    - intros [D1 D2] [|n] pre L; cbn in L; [lia|]. cbn [concat]. cbn [list_loop].
      destruct (F _ _ D1) as (i & B & Ei & a' & S1 & R1). subst d. pose proof (encoding_pos i B) as Lp.
      replace (len pre <? len (pre ++ encoding_of i ++ concat ds)) with true by (rewrite !len_app; pose proof (len_nonneg (concat ds)); lia).
      rewrite (parse_complete i pre (concat ds) B). cbn [bind].
      rewrite app_length in L. unfold len in Lp.
      destruct (IH ds D2 n (pre ++ encoding_of i)) as (vs & la' & El & S2 & R2); [lia|]. rewrite <- app_assoc, len_app in El. rewrite El. cbn [bind].
      exists (VLazy i :: vs), (a' :: la'). cbn. auto.
  Qed.
  Lemma list_loop_ok : forall la ds, all2 (der s T0) la ds -> forall n pre, (length (concat ds) < n)%nat ->
    exists vs la', list_loop n (pre ++ concat ds) (len pre) = Ok vs /\ all2 (sim s) la la' /\ all2 (erep Own true s) la' vs.
  Proof.
    apply list_found. intros a y D. destruct (der_info s no_params _ _ W_s D) as (i & B & _ & Ei & _). exists i. split; auto. split; auto.
    apply elt_ok; auto. now rewrite Ei.
  Qed.

  Lemma encs_der la ds : all2 (der s T0) la ds -> all2 (encodes s T0) la ds.
  Proof. apply all2_impl. intros a d _ D. apply der_encodes; auto using W_s, T0_ok. Qed.

  Lemma fits_list la x : fits LS (AList la) -> enc_elts sorted s la x ->
    exists l la', list_children x = Ok l /\ sim LS (AList la) (AList la') /\ all2 (erep Own true s) la' l /\ enc_elts sorted s la' x.
  Proof.
    intros F (ds & es & En & -> & K). destruct (fits_elts la F) as (ds' & D).
    assert (ds' = ds).
    { eapply all2_fun; [|exact (encs_der _ _ D)|exact En]. intros a y y' _ H1 H2. exact (encodes_fun _ _ _ _ _ W_s H1 H2). }
    subst ds'.
    assert (exists m, Permutation la m /\ all2 (der s T0) m es /\ (sorted = false -> m = la)) as (m & P & D' & Em).
    { destruct sorted; [|subst es; eauto]. destruct K as [K _]. destruct (all2_perm_r _ _ _ K _ D) as (m & P & D'). exists m. split; auto. split; auto. discriminate. }
    destruct (list_loop_ok m es D' (S (length (concat es))) []) as (vs & la' & El & S1 & R); [lia|]. exists vs, la'. split; [exact El|].
    split; [|split; auto].
    - unfold LS. destruct sorted; cbn; [exists m; auto|]. now rewrite <- (Em eq_refl).
    - assert (En' : all2 (encodes s T0) la' es).
      { eapply all2_trans; [|eapply all2_sym; [|exact S1]; intros a b _ H; exact H|exact (encs_der _ _ D')].
        intros a b y _ H1 H2. cbn beta in H1. exact (encodes_sim _ W_s _ _ _ _ H1 H2). }
      exists es, es. split; auto. split; auto. destruct sorted; auto. destruct K. auto.
  Qed.

  (* "if self.children is None: self._parse_children()" *)
  Lemma ensure_list_ok q n t la e ch m nc : rep q n LS t (AList la) (VList t e ch m nc) ->
    exists l, ensure_list (VList t e ch m nc) = (VList t e (Some l) m nc, Ok l) /\
      all2 (erep q n s) la l /\ (ch = Some l \/ ch = None) /\ rep q n LS t (AList la) (VList t e (Some l) m nc).
  Proof.
    intros R. pose proof R as R0. apply rep_list_eq in R as (la' & t' & e' & ch' & m' & nc' & [= <-] & [= <- <- <- <- <-] & _ & Em & R2 & R3 & R4 & R5).
    destruct ch as [l|].
    - exists l. cbn [ensure_list]. auto.
    - destruct R5 as (-> & x & l & Hx & El & R5). exists l. cbn [ensure_list]. unfold list_flat. rewrite Hx.
      unfold list_children in El. rewrite El. split; [reflexivity|]. assert (R6 : all2 (erep q n s) la l).
      { eapply all2_impl; [|exact R5]. intros a v _. apply erep_weaken; auto. apply le_low_self. }
      split; auto. split; auto. apply rep_list_eq. exists la, t, e, (Some l), false, nc. do 3 (split; [reflexivity|]).
      split; auto. split; [intros _; rewrite Hx; discriminate|]. split; [intros Q _; apply R3; auto; now apply not_flagged|]. split; auto.
      intros N. specialize (R4 N). destruct nc; auto. contradiction.
  Qed.

  Lemma built_elt_ok q n a v : erep q n s a v ->
    exists b, built_elt (methods s) v = Ok b /\ rep q n s T0 a b /\ (is_lazy v = false -> b = v) /\ is_lazy b = false.
  Proof.
    intros R. apply erep_cases in R as [(i & b & -> & B & En & Eb & Fr & _)|R].
    - exists b. cbn. split; auto. split; [eapply rep_weaken; [apply le_low_self| |exact Fr]; auto|]. split; [discriminate|]. eapply rep_lazy; eauto.
    - exists v. pose proof (rep_lazy _ _ _ _ _ _ R) as Lz. destruct v; try discriminate; cbn; auto 10.
  Qed.

  Lemma dump_elts_ok q n force : forall la vs, all2 (erep q n s) la vs ->
    exists vs' ds, dump_elts (methods s) force vs = (vs', Ok ds) /\ all2 (erep (join q force) n s) la vs' /\
      existsb mutated vs' = false /\ all2 keptc vs vs' /\ (acc q || force = true -> all2 (encodes s T0) la ds).
  Proof.
    induction la as [|a la IH]; intros [|v vs]; cbn [all2]; try tauto.
    - intros _. exists [], []. cbn. auto 10.
    - intros [H1 H2]. destruct (built_elt_ok _ _ _ _ H1) as (b & Eb & R & Kb & Lb).
      destruct (K_dump _ C q n T0 a b force T0_ok R) as (v1 & d & Ed & K & M & R1 & En).
      destruct (IH vs H2) as (vs' & ds & Es & R2 & M2 & K2 & En2).
      exists (v1 :: vs'), (d :: ds). cbn [dump_elts]. rewrite Eb, Ed, Es. cbn [bind]. split; auto.
      assert (R1' : rep (join q force) n s T0 a v1) by exact R1.
      split; [cbn; split; [apply erep_cases; auto|auto]|]. split; [cbn; now rewrite M|].
      split; [cbn; split; [|auto]|].
      + intros L. rewrite (Kb L) in K. split; auto. eapply rep_lazy; eauto.
      + intros Q. cbn. split; [apply En; apply orb_true_iff in Q; tauto|auto].
  Qed.

  Lemma set_contents_list_ok q n force t la e ch m nc : rep q n LS t (AList la) (VList t e ch m nc) ->
    exists l' x, set_contents_list (methods s) sorted force (VList t e ch m nc) =
        (VList t (Enc 1 None (Some x) [] (e_indef e)) (Some l') false nc, Ok tt) /\
      existsb mutated l' = false /\
      rep (join q force) n LS t (AList la) (VList t (Enc 1 None (Some x) [] (e_indef e)) (Some l') false nc).
  Proof.
    intros R. destruct (ensure_list_ok _ _ _ _ _ _ _ _ R) as (l & El & H & _ & R').
    destruct (dump_elts_ok q n force la l H) as (l' & ds & Ed & R1 & M & K & En).
    exists l', (concat (if sorted then sort_bytes ds else ds)). unfold set_contents_list. rewrite El. cbn iota beta. rewrite Ed.
    apply rep_list_eq in R' as (la' & t' & e' & ch' & m' & nc' & [= <-] & [= <- <- <- <- <-] & _ & Em & R2 & R3 & R4 & R5).
    rewrite Em. split; auto. split; auto. apply rep_list_eq.
    eexists la, t, _, (Some l'), false, nc. do 3 (split; [reflexivity|]). split; [reflexivity|].
    split; [intros _; cbn; discriminate|]. split.
    - intros Q _. rewrite acc_join in Q. eexists. split; [split; [reflexivity|now left]|]. exists ds, (if sorted then sort_bytes ds else ds). split; auto. split; auto.
      destruct sorted; auto. split; [apply sort_perm|apply sort_sorted].
    - split; [|exact R1]. intros N. specialize (R4 N). destruct nc as [d|]; auto.
      eapply ents_list_kept; [|apply (all2_nth_rel _ _ _ K)|exact R4]. now apply all2_length in K.
  Qed.

  (* .contents *)
  Lemma contents_list_ok q n t la e ch m nc : rep q n LS t (AList la) (VList t e ch m nc) ->
    exists e' ch' m' x, contents_list (methods s) sorted (VList t e ch m nc) = (VList t e' ch' m' nc, Ok (Some x)) /\
      mutated (VList t e' ch' m' nc) = false /\ e_contents e' = Some x /\
      rep q n LS t (AList la) (VList t e' ch' m' nc) /\
      (acc q = true -> has_hdr t e' x /\ enc_elts sorted s la x).
  Proof.
    intros R. destruct (mutated (VList t e ch m nc)) eqn:M.
    - destruct ch as [l|].
      + destruct (set_contents_list_ok _ _ false _ _ _ _ _ _ R) as (l' & x & Es & Ml & R'). cbn [join] in R'.
        eexists _, _, _, x. unfold contents_list. rewrite M, Es. cbn [e_contents]. split; [reflexivity|]. split; [exact Ml|]. split; [reflexivity|].
        split; auto. intros Q. apply rep_list_eq in R' as (la' & t' & e' & ch' & m' & nc' & [= <-] & [= <- <- <- <- <-] & _ & Em & R2 & R3 & _).
        destruct (R3 Q) as (x' & Hx & Ex); [apply not_flagged; exact Ml|]. assert (x' = x) by (destruct Hx as [Hx _]; cbn in Hx; congruence). subst x'. auto.
      + apply rep_list_eq in R as (la' & t' & e' & ch' & m' & nc' & [= <-] & [= <- <- <- <- <-] & _ & Em & R2 & R3 & R4 & R5).
        destruct R5 as (-> & _). discriminate M.
    - pose proof R as R0. apply rep_list_eq in R as (la' & t' & e' & ch' & m' & nc' & [= <-] & [= <- <- <- <- <-] & _ & Em & R2 & R3 & R4 & R5).
      destruct (e_contents e) as [x|] eqn:Ex; [|specialize (R2 (mutated_own _ M)); congruence]. exists e, ch, m, x.
      split. { unfold contents_list. destruct ch; [rewrite M|]; now rewrite Ex. }
      split; auto. split; auto. split; auto. intros Q. destruct (R3 Q (not_flagged _ _ M)) as (x' & Hx & Hf).
      assert (x' = x) by (destruct Hx as [Hx _]; congruence). subst x'. auto.
  Qed.

  Lemma rep_list_enc q n t la e e' ch m nc : e_method e' = 1 -> e_contents e' = e_contents e ->
    (forall x, has_hdr t e x -> has_hdr t e' x) ->
    rep q n LS t (AList la) (VList t e ch m nc) -> rep q n LS t (AList la) (VList t e' ch m nc).
  Proof.
    intros Em Ec Hh R. apply rep_list_eq in R as (la' & t' & e0 & ch' & m' & nc' & [= <-] & [= <- <- <- <- <-] & _ & _ & R2 & R3 & R4 & R5).
    apply rep_list_eq. exists la, t, e', ch, m, nc. do 3 (split; [reflexivity|]). split; auto. split; [intros M; rewrite Ec; now apply R2|].
    split; [intros Q M; destruct (R3 Q M) as (x & Hx & En); eauto|]. split; auto. destruct ch; auto.
    destruct R5 as (-> & x & l & Hx & El & R5). split; auto. exists x, l. split; [congruence|auto].
  Qed.

  Lemma finish_list_rep q n t la e ch m nc x : e_contents e = Some x -> mutated (VList t e ch m nc) = false ->
    rep q n LS t (AList la) (VList t e ch m nc) -> 
    exists e' d, finish_dump t e (Some x) = (e', Ok d) /\ mutated (VList t e' ch m nc) = false /\
      rep q n LS t (AList la) (VList t e' ch m nc) /\
      (acc q = true -> encodes LS t (AList la) d).
  Proof.
    intros Ec M R. pose proof R as R0.
    apply rep_list_eq in R as (la' & t' & e0 & ch' & m' & nc' & [= <-] & [= <- <- <- <- <-] & _ & Em & R2 & R3 & R4 & R5).
    destruct (finish_any t e x Ec) as (e' & d & Ed & Em' & Ec'). exists e', d. split; auto. split; [exact M|].
    assert (HH : forall y, has_hdr t e y -> has_hdr t e' y).
    { intros y Hy. assert (y = x) by (destruct Hy as [Hy _]; congruence). subst y.
      destruct (finish_ok t e x Em Hy) as (e2 & E2 & _ & H2). rewrite Ed in E2. now injection E2 as -> _. }
    split; [apply rep_list_enc with (e := e); [congruence|congruence|exact HH|exact R0]|].
    intros Q. destruct (R3 Q (not_flagged _ _ M)) as (y & Hy & En). assert (y = x) by (destruct Hy as [Hy _]; congruence). subst y.
    destruct (finish_ok t e x Em Hy) as (e2 & E2 & _ & H2). rewrite Ed in E2. injection E2 as _ ->. apply LS_encodes. eauto.
  Qed.

  Lemma dump_list_ok q n t la e ch m nc f : rep q n LS t (AList la) (VList t e ch m nc) ->
    exists e' ch' m' d, dump_list (methods s) sorted f (VList t e ch m nc) = (VList t e' ch' m' nc, Ok d) /\
      mutated (VList t e' ch' m' nc) = false /\ rep (join q f) n LS t (AList la) (VList t e' ch' m' nc) /\
      (acc q = true \/ f = true -> encodes LS t (AList la) d).
  Proof.
    intros R. unfold dump_list. set (force := f || ends_80 (e_header e)).
    assert (St : exists e1 ch1 m1, (if force then set_contents_list (methods s) sorted true (VList t e ch m nc) else (VList t e ch m nc, Ok tt)) = (VList t e1 ch1 m1 nc, Ok tt) /\
       rep (join q f) n LS t (AList la) (VList t e1 ch1 m1 nc)).
    { destruct force eqn:Ef.
      - destruct (set_contents_list_ok q n true t la e ch m nc R) as (l' & x & Es & _ & R'). rewrite Es. eexists _, _, _. split; [reflexivity|].
        eapply rep_weaken; [| |exact R']; cbn [join]; auto.
      - unfold force in Ef. apply orb_false_iff in Ef as [-> _]. cbn [join]. eexists _, _, _. split; [reflexivity|auto]. }
    destruct St as (e1 & ch1 & m1 & Es & R1). rewrite Es.
    destruct (contents_list_ok _ _ _ _ _ _ _ _ R1) as (e2 & ch2 & m2 & x & Ex & M2 & Ec & R2 & _).
    destruct (finish_list_rep _ _ _ _ _ _ _ _ x Ec M2 R2) as (e3 & d & Ed & M3 & R3 & En).
    rewrite Ex, Ed. eexists _, _, _, _. split; [reflexivity|]. split; auto. split; auto. intros Q. apply En. rewrite acc_join. destruct Q as [-> | ->]; auto using orb_true_r.
  Qed.

  (* ---- natives ---- *)
  Lemma natives_list_ok q n : forall la vs k, all2 (erep q n s) la vs ->
    exists vs' ns, natives_list (methods s) k vs = (vs', ns, Ok tt) /\ all2 (erep q n s) la vs' /\ existsb mutated vs' = false /\ length ns = length vs' /\
      forall i a v, nth_error la i = Some a -> nth_error vs' i = Some v ->
        exists ne, nth_error ns i = Some ne /\ is_lazy v = false /\ (n = true -> ent_ok (shows s a) (k + i) v ne).
  Proof.
    induction la as [|a la IH]; intros [|v vs] k; cbn [all2]; try tauto.
    - intros _. exists [], []. cbn. split; auto. split; auto. split; auto. split; auto. intros i a v H. destruct i; discriminate.
    - intros [H1 H2]. destruct (built_elt_ok _ _ _ _ H1) as (b & Eb & R & Kb & Lb).
      destruct (IH vs (Datatypes.S k) H2) as (vs' & ns & Es & R2 & M2 & L2 & N2).
      destruct (K_native _ C _ _ _ _ _ T0_ok R) as (v1 & x & Ea & R1 & K & M1 & Dd & Sh).
      exists (v1 :: vs'), (entry k v1 x :: ns). cbn [natives_list]. rewrite Eb, Ea, Es. split; auto.
      split; [cbn; split; auto; apply erep_cases; auto|]. split; [cbn; now rewrite M1|]. split; [cbn; auto|].
      intros i a' w. destruct i as [|i]; cbn [nth_error].
      + intros X1 X2. injection X1 as <-. injection X2 as <-. exists (entry k v1 x). rewrite Nat.add_0_r. split; auto. split; [eapply rep_lazy; eauto|].
        intros N. unfold ent_ok, entry. rewrite Dd. destruct (has_dict v1); auto. exists x. auto.
      + intros X1 X2. rewrite <- Nat.add_succ_comm. eapply N2; eauto.
  Qed.

  Lemma build_elts_ok q : forall la vs, all2 (erep q true s) la vs ->
    exists vs', build_elts (methods s) vs = Ok vs' /\ all2 (erep q true s) la vs'.
  Proof.
    induction la as [|a la IH]; intros [|v vs]; cbn [all2]; try tauto.
    - intros _. exists []. cbn. auto.
    - intros [H1 H2]. destruct (IH vs H2) as (vs' & Es & R2).
      assert (exists v1, match v with VLazy _ => do b <- built_elt (methods s) v; match b with VSeq _ _ _ _ _ | VList _ _ _ _ _ =>
         match x_parse (methods s) true b with (b', Ok tt) => Ok b' | (_, Err x) => Err x end | _ => Ok b end | _ => Ok v end = Ok v1 /\ erep q true s a v1) as (v1 & E1 & R1).
      { pose proof H1 as H0. apply erep_cases in H1 as [(i & b & -> & B & En & Eb & Fr & _ & Fp)|R].
        - assert (Wk : forall w, rep (low q) true s T0 a w -> erep q true s a w).
          { intros w Rw. apply erep_cases. right. eapply rep_weaken; [apply le_low_self| |exact Rw]. auto. }
          cbn [built_elt]. rewrite Eb. cbn [bind]. destruct b; try (eexists; split; [reflexivity|]; auto; fail);
            (destruct Fp as (b' & Ep & Rb & _); rewrite Ep; exists b'; split; auto).
        - pose proof (rep_lazy _ _ _ _ _ _ R). exists v. split; [destruct v; auto; discriminate|auto]. }
      exists (v1 :: vs'). cbn [build_elts]. rewrite E1. cbn [bind]. rewrite Es. cbn. auto.
  Qed.

  Lemma parse_list_ok q t la e ch m nc x l : e_contents e = Some x -> list_children x = Ok l -> all2 (erep q true s) la l ->
    exists l', parse_list (methods s) true (VList t e ch m nc) = (VList t e (Some l') m nc, Ok tt) /\ all2 (erep q true s) la l'.
  Proof.
    intros Hx El R. destruct (build_elts_ok q la l R) as (l' & Eb & R'). exists l'. split; auto.
    unfold parse_list, list_flat. unfold list_children in El. rewrite Hx, El. now rewrite Eb.
  Qed.

  Lemma native_list_ok q n t la e ch m nc : rep q n LS t (AList la) (VList t e ch m nc) ->
    exists v' x, native_list (methods s) sorted (VList t e ch m nc) = (v', Ok x) /\ rep q n LS t (AList la) v' /\
      mutated v' = false /\ has_dict v' = true /\ (n = true -> shows LS (AList la) x).
  Proof.
    intros R. destruct (contents_list_ok _ _ _ _ _ _ _ _ R) as (e1 & ch1 & m1 & x & Ex & M1 & Ec & R1 & Hq).
    unfold native_list. rewrite Ex. destruct nc as [d|].
    - eexists _, _. split; [reflexivity|]. split; auto. split; auto. split; [reflexivity|]. intros ->. apply (cached_shows _ _ _ _ _ R1). reflexivity.
    - pose proof R1 as R0. apply rep_list_eq in R1 as (la' & t' & e' & ch' & m' & nc' & [= <-] & [= <- <- <- <- <-] & _ & Em & R2 & R3 & R4 & R5).
      assert (exists l, (match ch1 with None => parse_list (methods s) true (VList t e1 ch1 m1 None) | Some _ => (VList t e1 ch1 m1 None, Ok tt) end)
         = (VList t e1 (Some l) m1 None, Ok tt) /\ all2 (erep q n s) la l) as (l & El & Rl).
      { destruct ch1 as [l|]; [eauto|]. destruct R5 as (-> & x' & l & Hx & El & R5).
        destruct (parse_list_ok (low q) t la e1 None false None x' l Hx El R5) as (l' & Ep & Rl). exists l'. split; auto.
        eapply all2_impl; [|exact Rl]. intros. eapply erep_weaken; [apply le_low_self| |eassumption]; auto. }
      rewrite El. destruct (natives_list_ok q n la l 0 Rl) as (l' & ns & En & R' & M' & L' & N'). rewrite En.
      assert (Mm : m1 = false) by (destruct m1; auto; destruct ch1; discriminate M1). subst m1.
      assert (RR : rep q n LS t (AList la) (VList t e1 (Some l') false (Some ns))).
      { apply rep_list_eq. exists la, t, e1, (Some l'), false, (Some ns). do 3 (split; [reflexivity|]). split; auto. split; [intros _; congruence|].
        split; [intros Q _; exists x; now apply Hq|]. split; auto. intros N. split; auto.
        intros i a v X1 X2. destruct (N' i a v X1 X2) as (ne & Y1 & Y2 & Y3). exists ne. auto. }
      eexists _, _. split; [reflexivity|]. split; auto. split; [exact M'|]. split; [reflexivity|]. intros ->. apply (cached_shows _ _ _ _ _ RR). reflexivity.
  Qed.

  Lemma fresh_list_ok q t e la x l : e_method e = 1 -> e_contents e = Some x -> (acc q = true -> has_hdr t e x /\ enc_elts sorted s la x) ->
    list_children x = Ok l -> all2 (erep (low q) true s) la l ->
    fresh (methods LS) (rep q true LS t (AList la)) (VList t e None false None).
  Proof.
    intros Em Ec Hq El Rl.
    assert (RR : forall ch, (ch = None \/ exists l, ch = Some l /\ all2 (erep (low q) true s) la l) -> rep q true LS t (AList la) (VList t e ch false None)).
    { intros ch0 H0. apply rep_list_eq. exists la, t, e, ch0, false, None. do 3 (split; [reflexivity|]). split; auto. split; [intros _; congruence|].
      split; [intros Q _; exists x; auto|]. split; auto. destruct H0 as [->|(l0 & -> & H0)].
      - split; auto. exists x, l. auto.
      - eapply all2_impl; [|exact H0]. intros a v _. apply erep_weaken; auto. apply le_low_self. }
    split; [apply RR; now left|]. split; [reflexivity|].
    destruct (parse_list_ok (low q) t la e None false None x l Ec El Rl) as (l' & Ep & Rl').
    exists (VList t e (Some l') false None). split; [rewrite LS_methods; exact Ep|]. split; [|reflexivity]. apply RR. right. eauto.
  Qed.

  (* ---- copies ---- *)
  Lemma copy_list_ok q t t' n la e ch m nc : acc q = true -> fits LS (AList la) -> rep q n LS t (AList la) (VList t e ch m nc) ->
    exists v' la', copy_list (methods s) sorted t' (VList t e ch m nc) = Ok v' /\ sim LS (AList la) (AList la') /\
      rep Own (negb (has_dict (VList t e ch m nc))) LS t' (AList la') v' /\ has_dict v' = has_dict (VList t e ch m nc).
  Proof.
    intros Aq F R. destruct (contents_list_ok _ _ _ _ _ _ _ _ R) as (e1 & ch1 & m1 & x & Ex & M1 & Ec & R1 & Hq).
    destruct (Hq Aq) as [Hx En]. destruct (fits_list la x F En) as (l & la' & El & S1 & Rl & En').
    unfold copy_list. rewrite Ex. eexists _, la'. split; [reflexivity|]. split; auto.
    assert (HD : forall n nc', (nc' = None \/ n = false) -> rep Own n LS t' (AList la') (VList t' (Enc 1 None (Some x) [] false) None false nc')).
    { intros n0 nc' Hn. apply rep_list_eq. eexists la', t', _, None, false, nc'. do 4 (split; [reflexivity|]). split; [intros _; discriminate|].
      assert (Hh : has_hdr t' (Enc 1 None (Some x) [] false) x) by (split; [reflexivity|now left]).
      split; [intros _ _; exists x; auto|]. split; [intros ->; destruct Hn as [->|Hn]; [auto|discriminate]|]. split; auto. exists x, l. auto. }
    destruct nc as [d|]; cbn [snap_list cached_native has_dict negb]; split; auto.
  Qed.

  (* ---- construction ---- *)
  Lemma make_elt_ok i a : fits s a -> given s (negb (is_choice s)) (denotes s) i a ->
    exists v a', make_elt (methods s) [] i = Ok v /\ sim s a a' /\ rep Own true s T0 a' v /\ has_dict v = false.
  Proof.
    intros F G. destruct W_parts as (_ & Ws & T & Ee). unfold given in G.
    assert (D0 : forall j, negb (is_choice s) = true /\ denotes s j a ->
      exists v a', (if x_choice (methods s) then Err ValueError else x_make (methods s) no_params None j) = Ok v /\ sim s a a' /\ rep Own true s T0 a' v /\ has_dict v = false).
    { intros j [N D]. rewrite x_choice_is. apply negb_true_iff in N. rewrite N. exact (K_make _ C no_params j a T D F). }
    destruct i as [| | | | |p b]; try (apply D0; exact G). destruct G as [Tp D].
    destruct (K_make _ C p b a Tp D F) as (v & a1 & Ev & S1 & R & Hd). cbn [make_elt]. rewrite Ev. cbn [bind].
    rewrite (rep_tagging _ _ _ _ _ _ R).
    assert (RT : exists v' a', x_retag (methods s) (Params [] None false) v = Ok v' /\ sim s a a' /\ rep Own true s T0 a' v' /\ has_dict v' = false).
    { destruct (K_retag s C no_params Own true (stags s p) a1 v eq_refl T (stags_ok _ _ Ws Tp) (fits_sim _ _ _ Ws S1 F) R) as (v' & a' & Er & S2 & R' & Hd').
      rewrite Hd in *. exists v', a'. split; [exact Er|]. split; [eapply sim_trans; eauto|auto]. }
    destruct (list_eq_dec _ (t_explicit (stags s p)) []) as [Ex|Ex]; [|exact RT]. destruct (t_implicit (stags s p)) eqn:Ei; [exact RT|].
    exists v, a1. split; [reflexivity|]. split; auto. split; auto. replace T0 with (stags s p); auto.
    destruct Tp as (Hp & Hi & _). destruct (params_shape p Hp) as [(c0 & t0 & -> & _)|[(y & -> & _)| ->]]; auto.
    - cbn in Hi. destruct Hi as [Hi|[Hi Hc]]; [discriminate|]. destruct s; try discriminate.
    - exfalso. destruct s; cbn in Ex; unfold tags_of in Ex; cbn in Ex; apply app_eq_nil in Ex as [_ Ex]; discriminate.
  Qed.

  Lemma set_all_ok t : forall li la ch m vs la0, all2 (given s (negb (is_choice s)) (denotes s)) li la -> (forall a, In a la -> fits s a) ->
    (ch = None /\ m = false /\ vs = [] /\ la0 = [] \/ ch = Some vs /\ m = true) -> all2 (erep Own true s) la0 vs ->
    exists ch' m' vs' la1, set_all (methods s) [] (length vs) li (VList t no_enc ch m None) = Ok (VList t no_enc ch' m' None) /\
      (ch' = None /\ m' = false /\ vs' = [] /\ la1 = [] \/ ch' = Some vs' /\ m' = true) /\
      (exists lb, la1 = la0 ++ lb /\ all2 (sim s) la lb) /\ all2 (erep Own true s) la1 vs'.
  Proof.
    induction li as [|i li IH]; intros [|a la] ch m vs la0; cbn [all2]; try tauto.
    - intros _ _ H R. exists ch, m, vs, la0. split; [reflexivity|]. split; auto. split; auto. exists []. rewrite app_nil_r. cbn. auto.
    - intros [G1 G2] F H R. destruct (make_elt_ok i a (F a (or_introl eq_refl)) G1) as (v & a' & Ev & S1 & R1 & Hd).
      cbn [set_all]. unfold set_list.
      assert (En : ensure_list (VList t no_enc ch m None) = (VList t no_enc (Some vs) m None, Ok vs)).
      { destruct H as [(-> & -> & -> & ->)|[-> ->]]; reflexivity. }
      rewrite En, Ev. rewrite Nat.ltb_irrefl, Nat.eqb_refl.
      destruct (IH la (Some (vs ++ [v])) true (vs ++ [v]) (la0 ++ [a'])) as (ch' & m' & vs' & la1 & K1 & K2 & (lb & K3 & K4) & K5); auto.
      { intros b Hb. apply F. now right. }
      { apply all2_app; auto. cbn. split; auto. apply erep_cases. auto. }
      rewrite app_length in K1. cbn in K1. rewrite Nat.add_1_r in K1. exists ch', m', vs', la1. split; [exact K1|]. split; auto. split; auto.
      exists (a' :: lb). split; [rewrite K3, <- app_assoc; reflexivity|]. cbn. auto.
  Qed.

  Lemma fits_in la : fits LS (AList la) -> forall a, In a la -> fits s a.
  Proof.
    intros F a Ha. destruct (fits_elts la F) as (ds & D). apply In_nth_error in Ha as (k & Hk). destruct (all2_nth _ _ _ _ _ D Hk) as (d & _ & Dd).
    exact (der_fits _ _ _ _ T0_ok Dd).
  Qed.

  Lemma make_list_ok p i la : taggable LS p -> denotes LS i (AList la) -> fits LS (AList la) ->
    exists v la', make_list c (methods s) [] sorted p None i = Ok v /\ all2 (sim s) la la' /\ rep Own true LS (tags_of c p) (AList la') v /\ has_dict v = false.
  Proof.
    intros T D F. assert (D' : match i with AList li => all2 (given s (negb (is_choice s)) (denotes s)) li la | _ => False end)
      by (unfold LS in D; destruct sorted; cbn in D; destruct i; auto).
    destruct i as [| | |li| |]; try contradiction. set (t := tags_of c p).
    destruct (set_all_ok t li la None false [] []) as (ch' & m' & vs' & la1 & K1 & K2 & (lb & K3 & K4) & K5); auto; [apply fits_in; auto|cbn; auto|].
    cbn in K3. subst la1. exists (match contents_list (methods s) sorted (VList t no_enc ch' m' None) with (v2, Ok (Some _)) => v2 | (v2, _) => fst (set_contents_list (methods s) sorted false v2) end), lb.
    unfold make_list. rewrite (init_tags c p) by apply T. cbn [bind]. fold t. cbn [length] in K1. rewrite K1. cbn [bind].
    assert (R : rep Own true LS t (AList lb) (VList t no_enc (Some vs') true None)).
    { apply rep_list_eq. exists lb, t, no_enc, (Some vs'), true, None. do 4 (split; [reflexivity|]). split; [discriminate|]. split; [discriminate|]. split; auto. }
    destruct K2 as [(-> & -> & -> & ->)|[-> ->]].
    - destruct (set_contents_list_ok Own true false t [] no_enc (Some []) true None R) as (l' & x & Es & _ & R').
      cbn in Es. cbn [contents_list no_enc e_contents]. unfold set_contents_list in *. cbn in *. injection Es as <- <-.
      split; [reflexivity|]. split; [exact K4|]. split; [exact R'|reflexivity].
    - destruct (contents_list_ok _ _ _ _ _ _ _ _ R) as (e1 & ch1 & m1 & x & Ex & M1 & Ec & R1 & Hq). rewrite Ex. split; [reflexivity|].
      split; [exact K4|]. split; auto.
  Qed.

  Lemma build_list_found q p dflt i j hd tl la l : taggable LS p ->
    let t := tags_of c p in
    ((has_explicit c p = false /\ p_explicit p = [] /\ j = i /\ hd = i_header i /\ tl = i_trailer i) \/
     (has_explicit c p = true /\ t = Tagging (k_class c) (k_tag c) false (t_explicit t) /\
        peel (rev (t_explicit t)) i (i_header i) (i_trailer i) = Ok (j, hd, tl))) ->
    i_class j = t_class t -> i_method j = 1 -> i_tag j = t_tag t ->
    list_children (i_contents j) = Ok l -> all2 (erep (low q) true s) la l ->
    (acc q = true -> hd = full_header t 1 (i_contents j) /\ tl = [] /\ enc_elts sorted s la (i_contents j)) ->
    (forall d, dflt = Some d -> exists v, make_list c (methods s) [] sorted p dflt ANone = Ok v) ->
    exists v, build_list c (methods s) [] sorted p dflt i = Ok v /\ fresh (methods LS) (rep q true LS t (AList la)) v.
  Proof.
    intros T t Sh J1 J2 J3 El Rl Hq Mk. set (x := i_contents j) in *. destruct (LS_taggable p T) as [Hp Hi].
    assert (FR : fresh (methods LS) (rep q true LS t (AList la)) (VList t (Enc 1 (Some hd) (Some x) tl false) None false None)).
    { apply (fresh_list_ok q t _ la x l); auto. intros Q. destruct (Hq Q) as (-> & -> & En). split; auto. split; [reflexivity|right; auto]. }
    destruct Sh as [(He & Pe & -> & -> & ->)|(He & Sh & P)].
    - assert (Ck : check_tags c t i = true) by (unfold check_tags; rewrite J1, J2, J3, !Z.eqb_refl; reflexivity).
      unfold build_list, build_with. rewrite He. unfold plain_list. rewrite (init_tags c p Hp). cbn [bind]. fold t. rewrite Ck. cbn [place_header e_method e_contents e_indef].
      eexists. split; [reflexivity|]. auto.
    - unfold build_list, build_with. rewrite He.
      assert (Pr : (do _ <- make_list c (methods s) [] sorted p dflt ANone; Ok tt) = Ok tt).
      { destruct dflt as [d|]; [destruct (Mk d eq_refl) as (v & Ev); now rewrite Ev|]. unfold make_list. now rewrite (init_tags c p Hp). }
      rewrite Pr. cbn [bind]. rewrite (init_tags c p Hp). cbn [bind]. fold t in P, Sh. fold t. rewrite P. cbn [bind].
      unfold plain_list. change (init_tagging c (Params [] None true)) with (Ok (Tagging (k_class c) (k_tag c) false [])). cbn [bind].
      rewrite Sh in J1, J3. cbn in J1, J3.
      assert (Ck : check_tags c (Tagging (k_class c) (k_tag c) false []) j = true) by (unfold check_tags; cbn [t_class t_tag]; rewrite J1, J2, J3, !Z.eqb_refl; reflexivity).
      rewrite Ck. cbn [bind]. unfold place_explicit. cbn [place_header e_method e_contents e_indef]. unfold with_explicit. cbn [t_class t_tag t_implicit]. rewrite <- Sh.
      eexists. split; [reflexivity|]. auto.
  Qed.

  Lemma build_list_ok p dflt i la : taggable LS p -> ber_info max_budget i ->
    der LS (tags_of c p) (AList la) (encoding_of i) -> 
    (forall d, dflt = Some d -> exists v, make_list c (methods s) [] sorted p dflt ANone = Ok v) ->
    exists v la', build_list c (methods s) [] sorted p dflt i = Ok v /\ sim LS (AList la) (AList la') /\
      fresh (methods LS) (rep Own true LS (tags_of c p) (AList la')) v.
  Proof.
    intros T B D Mk. pose proof (stags_ok _ _ W T) as Ht. rewrite LS_tags in Ht.
    pose proof (der_fits LS _ _ _ Ht D) as F.
    assert (exists x, der_constructed (tags_of c p) x (encoding_of i) /\ enc_elts sorted s la x) as (x & Dc & En).
    { unfold LS in D. unfold enc_elts. destruct sorted; cbn in D.
      - destruct D as (ds & es & D & P & K & Dc). exists (concat es). split; auto. exists ds, es. split; auto using encs_der.
      - destruct D as (ds & D & Dc). exists (concat ds). split; auto. exists ds, ds. split; auto using encs_der. }
    destruct (fits_list la _ F En) as (l & la' & El & S1 & Rl & En'). destruct (LS_taggable p T) as [Hp Hi].
    destruct (build_cases c p x i Hp Hi Ht Dc B) as (Ti & [(He & Ex & Pe & I1 & I2 & I3 & I4 & I5)|(He & Sh & j & P & J1 & J2 & J3 & J4 & J5)]).
    - destruct (build_list_found Own p dflt i i (i_header i) (i_trailer i) la' l T) as (v & Ev & Fr); auto.
      + left. auto.
      + now rewrite I4.
      + intros _. rewrite I4. auto.
      + exists v, la'. auto.
    - destruct (build_list_found Own p dflt i j (full_header (tags_of c p) 1 x) [] la' l T) as (v & Ev & Fr); auto.
      + right. rewrite Ti. auto.
      + now rewrite Sh.
      + now rewrite Sh.
      + now rewrite J4.
      + intros _. rewrite J4. auto.
      + exists v, la'. auto.
  Qed.

  Lemma kept_list t e ch m nc : forall e' ch' m' nc', (nc = None \/ nc' <> None) -> kept (VList t e ch m nc) (VList t e' ch' m' nc').
  Proof. intros e' ch' m' nc' H. split; [reflexivity|]. cbn. destruct nc, nc'; auto. destruct H; congruence. Qed.

  Lemma contract_list : contract LS.
  Proof.
    assert (INV : forall q n t a v, rep q n LS t a v -> exists la e ch m nc, a = AList la /\ v = VList t e ch m nc).
    { intros q n t a v R. apply rep_list_eq in R as (la & t' & e & ch & m & nc & -> & -> & -> & _). eauto 10. }
    assert (ND : forall i a, denotes LS i a -> exists la, a = AList la).
    { intros i a D. unfold LS in D. destruct sorted; cbn in D; destruct i, a; try contradiction; eauto. }
    constructor; rewrite ?LS_methods; cbn [list_ops x_make x_build x_contents x_dump x_native x_retag x_copy].
    - intros p i a T D F. destruct (ND i a D) as [la ->].
      destruct (make_list_ok p i la T D F) as (v & la' & Ev & S1 & R & Hd). exists v, (AList la'). rewrite LS_tags. split; auto. split; [now apply LS_sim_of|auto].
    - intros p dflt i a T Df B D. assert (exists la, a = AList la) as [la ->] by (unfold LS in D; destruct sorted; cbn in D; destruct a; try contradiction; eauto).
      rewrite LS_tags in *. destruct (build_list_ok p dflt i la T B D) as (v & la' & Ev & S1 & Fr).
      { intros d ->. destruct Df as (_ & _ & _ & ad & D1 & D2). destruct (ND d ad D1) as [la0 ->].
        destruct (make_list_ok p d la0 T D1 D2) as (v & _ & Ev & _).
        exists v. rewrite <- Ev. pose proof (make_default LS p d) as Md. rewrite LS_methods in Md. apply Md. unfold LS. destruct sorted; reflexivity. }
      exists v, (AList la'). split; auto. split; auto. rewrite <- LS_methods. exact Fr.
    - intros q n t a v Ht R. destruct (INV _ _ _ _ _ R) as (la & e & ch & m & nc & -> & ->).
      destruct (contents_list_ok _ _ _ _ _ _ _ _ R) as (e' & ch' & m' & x & Ex & M & Ec & R' & _).
      exists (VList t e' ch' m' nc), x. split; [exact Ex|]. split; auto. split; [|auto]. apply kept_list. destruct nc; auto. right; discriminate.
    - intros q n t a v f Ht R. destruct (INV _ _ _ _ _ R) as (la & e & ch & m & nc & -> & ->).
      destruct (dump_list_ok _ _ _ _ _ _ _ _ f R) as (e' & ch' & m' & d & Ed & M & R' & En).
      exists (VList t e' ch' m' nc), d. split; [exact Ed|]. split; [apply kept_list; destruct nc; auto; right; discriminate|]. split; auto.
    - intros q n t a v Ht R. destruct (INV _ _ _ _ _ R) as (la & e & ch & m & nc & -> & ->).
      destruct (native_list_ok _ _ _ _ _ _ _ _ R) as (v' & x & Ex & R' & M & Hd & Sh). exists v', x. split; [exact Ex|]. split; auto.
      destruct (INV _ _ _ _ _ R') as (la0 & e' & ch' & m' & nc' & [= <-] & ->). split; [|split; auto].
      apply kept_list. right. cbn in Hd. destruct nc'; discriminate.
    - intros p q n t a v Aq T Ht F R. destruct (INV _ _ _ _ _ R) as (la & e & ch & m & nc & -> & ->).
      destruct (copy_list_ok q t (tags_of c p) n la e ch m nc Aq F R) as (v' & la' & Ev & S1 & R' & Hd). exists v', (AList la').
      rewrite LS_tags. split; auto. rewrite (init_tags c p (proj1 T)). exact Ev.
    - intros q n t a v Aq Ht F R. destruct (INV _ _ _ _ _ R) as (la & e & ch & m & nc & -> & ->).
      destruct (copy_list_ok q t t n la e ch m nc Aq F R) as (v' & la' & Ev & S1 & R' & Hd). exists v', (AList la'). split; [exact Ev|]. auto.
  Qed.
End Elts.
