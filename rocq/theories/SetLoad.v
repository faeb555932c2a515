(* Sets with named members that were loaded: the members are found in whatever order they
   come, and once read the object follows its value. *)
Require Import Verif.Base Verif.BaseFacts Verif.IntModel Verif.IntSpec Verif.IntProofs
  Verif.ParserModel Verif.ParserSpec Verif.ParserProofs Verif.ParserFacts Verif.Text Verif.CodecModel Verif.TagSpec Verif.TagProofs
  Verif.PrimModel Verif.PrimSpec Verif.PrimProofs Verif.PrimSet Verif.PrimDump Verif.PrimLoad Verif.HistSpec Verif.PrimHist
  Verif.PrimRead Verif.PrimSide Verif.ContModel Verif.ContSpec Verif.ContBase Verif.ContRep Verif.ContPrim Verif.ContSeq Verif.ContSeq2 Verif.ContList
  Verif.ContChoice Verif.ContPath Verif.ContHistSpec Verif.ContHist Verif.ContHist2 Verif.ContFinal Verif.BerSpec Verif.BerProofs Verif.BerFinal Verif.SetSpec Verif.SetProofs.
Require Import Sorting.Permutation Sorting.Sorted.

Lemma one_id f : wf (snd f) -> taggable (snd f) (f_params (fst f)) -> is_choice (snd f) = false -> class_explicit (snd f) = [] ->
  ids f = [lead f] /\ field_id (f_params (fst f)) (methods (snd f)) = Some (lead f).
Proof.
  intros Wf (Hp & _) Nc Ce. unfold ids, lead, ftags.
  assert (E : outer_ids (snd f) (f_params (fst f)) = [match rev (t_explicit (stags (snd f) (f_params (fst f)))) with
     | ct :: _ => ct | [] => (t_class (stags (snd f) (f_params (fst f))), t_tag (stags (snd f) (f_params (fst f)))) end]).
  { destruct (snd f); cbn [is_choice] in Nc; try discriminate; cbn [outer_ids]; destruct (rev _); reflexivity. }
  rewrite E. split; auto. unfold field_id.
  assert (X : forall k, class_explicit (snd f) = k_explicit k -> stags (snd f) (f_params (fst f)) = tags_of k (f_params (fst f)) ->
     x_id (methods (snd f)) = Some (k_class k, k_tag k) ->
     match p_explicit (f_params (fst f)) with x :: _ => Some x | [] => match p_implicit (f_params (fst f)) with Some x => Some x | None => x_id (methods (snd f)) end end =
     Some match rev (t_explicit (stags (snd f) (f_params (fst f)))) with
     | ct :: _ => ct | [] => (t_class (stags (snd f) (f_params (fst f))), t_tag (stags (snd f) (f_params (fst f)))) end).
  { intros k Hk -> Hx. rewrite Hx. rewrite Ce in Hk. unfold tags_of. rewrite <- Hk.
    destruct (params_shape _ Hp) as [(c0 & t0 & -> & H1 & H2)|[(y & -> & H1 & H2)| ->]]; cbn; reflexivity. }
  destruct (snd f) as [k cl|cl fs|cl fs|cl s|cl s|ex alts]; cbn in Nc; try discriminate; apply (X cl); auto.
Qed.

Lemma some_led (fs : list (fld * spec)) : forall ys, length fs = length ys -> filter some_octets ys = map snd (filter filled (combine fs ys)).
Proof. induction fs as [|f l IH]; intros [|y ys] L; cbn; try discriminate; auto. injection L as L. unfold filled at 1. cbn. destruct y; cbn; now rewrite IH. Qed.

Lemma enc_all_sim fs : (forall f, In f fs -> wf (snd f)) -> forall la lb ys, all3 simf fs la lb -> all3 enc_field fs la ys -> all3 enc_field fs lb ys.
Proof.
  induction fs as [|f fs IH]; intros W [|na la] [|nb lb] [|y ys]; cbn; try tauto. intros [S1 S2] [H1 H2].
  split; [eapply enc_field_sim; eauto; apply W; now left|eapply IH; eauto; intros; apply W; now right].
Qed.

(* the last octet of a header *)
Lemma last_app (l m : bytes) d : m <> [] -> last (l ++ m) d = last m d.
Proof. intros N. induction l as [|x l IH]; auto. cbn [app]. rewrite <- IH. destruct (l ++ m) eqn:E; auto. apply app_eq_nil in E as [_ E]. contradiction. Qed.
Lemma last_digit l d : l <> [] -> bytes_ok l -> last l d = be_value l mod 256.
Proof.
  intros N B. destruct (exists_last N) as (k & z & ->). rewrite last_last, be_value_app. unfold bytes_ok in B. apply Forall_app in B as [_ B]. inversion B as [|? ? Bz _]; subst.
  change (len [z]) with 1. replace (be_value [z]) with z by (unfold be_value; cbn; rewrite ?Z.mul_1_r, ?Z.add_0_r; reflexivity). rewrite Z.pow_1_r, Z.add_comm, Z.mod_add by lia. rewrite Z.mod_small; auto.
Qed.
Lemma last_header cl m tg x : last (dump_header cl m tg x) 0 = len x mod 256.
Proof.
  pose proof (len_nonneg x) as P. unfold dump_header. cbn zeta. destruct (len x <=? 127) eqn:E.
  - rewrite last_last. rewrite Z.mod_small; lia.
  - destruct (int_to_bytes_unsigned_ok (len x) P) as (l & -> & Bl & N & Vl & _).
    rewrite last_app by discriminate. rewrite last_app by auto. rewrite last_digit by auto. now rewrite Vl.
Qed.
Lemma last_wrap x : forall ex h, h <> [] -> last (wrap ex h x) 0 = last h 0.
Proof.
  unfold wrap. induction ex as [|ct ex IH]; intros h N; cbn [fold_left]; auto. rewrite IH; [now apply last_app|]. intros E. apply app_eq_nil in E as [_ E]. contradiction.
Qed.
Lemma ends_80_header t m x : ends_80 (Some (full_header t m x)) = (len x mod 256 =? 128).
Proof.
  unfold ends_80. pose proof (full_header_pos t m x) as N. destruct (full_header t m x) as [|z l] eqn:E; [contradiction|]. rewrite <- E.
  unfold full_header. rewrite last_wrap by apply dump_header_pos. now rewrite last_header.
Qed.

Section Load.
  Variable c : pcls.
  Variable fs : list (fld * spec).
  Hypothesis W : wf (SSeq c fs).
  Hypothesis PM : plain_members fs.
  Hypothesis AP : apart fs.
  Let C : forall f, In f fs -> contract (snd f) := fun f Hf => contract_all _ (wf_wf c fs W f Hf).
  Notation SQ := (SSeq c fs).
  Notation ST := (SSet c fs).
  Notation incl l := (forall f, In f l -> In f fs).

  Lemma known f : In f fs -> ids f = [lead f] /\ field_id (f_params (fst f)) (methods (snd f)) = Some (lead f).
  Proof. intros Hf. destruct (wf_tags c fs f W Hf) as (Wf & T & _). destruct (member_plain fs PM f Hf). now apply one_id. Qed.

  Lemma find_none l n i : incl l -> ~ In (i_class i, i_tag i) (map lead l) -> find_field (fields l) n i = None.
  Proof.
    revert n. induction l as [|f l IH]; intros n S N; cbn [fields map find_field]; auto. fold (fields l).
    rewrite IH; [|intros; apply S; now right|intros H; apply N; now right]. unfold fmeth. cbn [fst snd].
    destruct (known f (S f (or_introl eq_refl))) as [_ ->]. unfold same_id. destruct (lead f) as [cl tg] eqn:E.
    destruct ((cl =? i_class i) && (tg =? i_tag i)) eqn:X; auto. apply andb_true_iff in X as [X Y]. apply Z.eqb_eq in X, Y. exfalso. apply N. left. congruence.
  Qed.
  Lemma find_some l : incl l -> NoDup (map lead l) -> forall n k f i, nth_error l k = Some f -> lead f = (i_class i, i_tag i) ->
    find_field (fields l) n i = Some (n + k)%nat.
  Proof.
    induction l as [|g l IH]; intros S N n [|k] f i Hk E; try discriminate; cbn [nth_error] in Hk; inversion N as [|? ? N1 N2]; subst;
      cbn [fields map find_field]; fold (fields l).
    - injection Hk as ->. rewrite find_none; [|intros; apply S; now right|rewrite <- E; exact N1].
      destruct (known f (S f (or_introl eq_refl))) as [_ ->]. unfold same_id. rewrite E, !Z.eqb_refl. cbn. f_equal. lia.
    - rewrite (IH (fun x Hx => S x (or_intror Hx)) N2 (Datatypes.S n) k f i Hk E). f_equal. lia.
  Qed.

  Section Found.
  Variable P : fld * spec -> text * aval -> bytes -> Prop.
  Variable md : mode.
  Hypothesis F : found_in fs P md.
  Variable la : list (text * aval).
  Variable ys : list bytes.
  Hypothesis A : all3 P fs la ys.

  Definition got (fd : list (option info)) (done : list piece) : Prop :=
    length fd = length fs /\
    forall k f y, nth_error fs k = Some f -> nth_error ys k = Some y -> exists o, nth_error fd k = Some o /\
      (In (f, y) done -> exists i, o = Some i /\ ber_info max_budget i /\ encoding_of i = y) /\ (~ In (f, y) done -> o = None).

  Lemma lead_apart j k f g : nth_error fs j = Some f -> nth_error fs k = Some g -> lead f = lead g -> j = k.
  Proof.
    intros Hj Hk E. apply (NoDup_nth_error (map lead fs)); [exact AP| |].
    - apply nth_error_Some. erewrite map_nth_error by exact Hj. discriminate.
    - erewrite map_nth_error by exact Hj. erewrite map_nth_error by exact Hk. congruence.
  Qed.

  Lemma piece_at f y : In (f, y) (combine fs ys) -> exists k na, nth_error fs k = Some f /\ nth_error ys k = Some y /\ nth_error la k = Some na /\ P f na y.
  Proof.
    clear - A. revert la ys A. induction fs as [|g l IH]; intros [|na l1] [|z l2]; cbn [all3 combine In]; try tauto. intros [H1 H2] [E|H].
    - injection E as -> ->. exists 0%nat, na. auto.
    - destruct (IH _ _ H2 H) as (k & nb & K). exists (S k), nb. auto.
  Qed.

  Lemma set_loop_ok rest : forall done fd n pre, (forall x, In x rest -> In x (combine fs ys) /\ snd x <> []) -> got fd done ->
    (length (concat (map snd rest)) < n)%nat ->
    exists fd', set_loop (fields fs) n (pre ++ concat (map snd rest)) (len pre) fd = Ok fd' /\ got fd' (rest ++ done).
  Proof.
    induction rest as [|[f y] rest IH]; intros done fd n pre Hr G L; cbn [map concat snd] in *.
    - destruct n as [|n]; [cbn in L; lia|]. cbn [set_loop]. rewrite app_nil_r, Z.ltb_irrefl. exists fd. auto.
    - destruct n as [|n]; [lia|]. destruct (Hr _ (or_introl eq_refl)) as [Hin Ny]. cbn [snd] in Ny.
      destruct (piece_at _ _ Hin) as (k & na & Hk & Hy & Hn & Hp). pose proof (nth_error_In _ _ Hk) as Inf.
      destruct (proj2 F f na y Inf Hp Ny) as (i & Bi & Ei & Ki & _). subst y.
      cbn [set_loop]. pose proof (encoding_pos i Bi) as Pi.
      assert (Lt : (len pre <? len (pre ++ encoding_of i ++ concat (map snd rest))) = true).
      { apply Z.ltb_lt. rewrite !len_app. pose proof (len_nonneg (concat (map snd rest))). lia. }
      rewrite Lt, parse_complete by auto. cbn [bind]. destruct (known f Inf) as [Eid _]. rewrite Eid in Ki. destruct Ki as [Ki|[]].
      rewrite (find_some fs (fun x Hx => Hx) AP 0 k f i Hk Ki). cbn [Nat.add].
      destruct (IH ((f, encoding_of i) :: done) (update fd k (Some i)) n (pre ++ encoding_of i)) as (fd' & E & G').
      { intros x Hx. apply Hr. now right. }
      { destruct G as [Lf G]. split; [now rewrite update_length|]. intros j g z Hj Hz. destruct (Nat.eq_dec k j) as [<-|Nj].
        - assert (g = f) by congruence. subst g. assert (z = encoding_of i) by congruence. subst z.
          destruct (G k f _ Hk Hy) as (o & Ho & _). exists (Some i). split; [eapply nth_update_same; eauto|]. split; [eauto|]. intros N. exfalso. apply N. now left.
        - destruct (G j g z Hj Hz) as (o & Ho & H1 & H2). exists o. split; [rewrite nth_update_other; auto|]. split.
          + intros [X|X]; auto. injection X as X _. subst g. exfalso. apply Nj. eapply lead_apart; eauto.
          + intros N. apply H2. intros X. apply N. now right. }
      { rewrite app_length in L. unfold len in Pi. lia. }
      rewrite <- app_assoc, len_app in E. rewrite E. exists fd'. split; auto. destruct G' as [G1 G2]. split; auto. intros j g z Hj Hz.
      destruct (G2 j g z Hj Hz) as (o & Ho & H1 & H2). exists o. split; auto. split.
      + intros X. apply H1. apply in_or_app. cbn in X. destruct X as [X|X]; [right; left; auto|]. apply in_app_or in X as [X|X]; auto. right. now right.
      + intros X. apply H2. intros Y. apply X. cbn. apply in_app_or in Y as [Y|[Y|Y]]; auto; right; apply in_or_app; auto.
  Qed.

  Lemma fill_ok l : incl l -> forall lb zs fd, all3 P l lb zs -> length fd = length l ->
    (forall k y o, nth_error zs k = Some y -> nth_error fd k = Some o ->
       (y <> [] -> exists i, o = Some i /\ ber_info max_budget i /\ encoding_of i = y) /\ (y = [] -> o = None)) ->
    exists vs lb', set_fill (fields l) fd = Ok vs /\ all3 simf l lb lb' /\ all3 (crep md true) l lb' vs.
  Proof.
    induction l as [|f l IH]; intros S [|na lb] [|y zs] [|o fd]; cbn [all3 length]; try tauto; try discriminate.
    - intros _ _ _. exists [], []. cbn. auto.
    - intros [H1 H2] L H. injection L as L. assert (Hf : In f fs) by (apply S; now left).
      destruct (IH (fun g Hg => S g (or_intror Hg)) lb zs fd H2 L) as (vs & lb' & E & S1 & R1).
      { intros k z o' Hz Ho. exact (H (Datatypes.S k) z o' Hz Ho). }
      destruct (H 0%nat y o eq_refl eq_refl) as [K1 K2]. cbn [fields map set_fill]. fold (fields l). fold (fmeth f).
      assert (exists v na', match o with Some i => Ok (VLazy i) | None => absent_child (fmeth f) end = Ok v /\ simf f na na' /\ crep md true f na' v) as (v & na' & Ev & Sv & Rv).
      { destruct y as [|b y].
        - rewrite K2 by auto. destruct (proj1 F f na Hf H1) as (_ & v & na' & K). eauto.
        - destruct K1 as (i & -> & Bi & Ei); [discriminate|]. destruct (proj2 F f na _ Hf H1) as (j & Bj & Ej & _ & na' & Sj & Rj); [discriminate|].
          assert (j = i) by (apply same_info0; auto; congruence). subst j. eauto. }
      rewrite Ev. cbn [bind]. rewrite E. cbn [bind]. exists (v :: vs), (na' :: lb'). cbn. auto.
  Qed.

  Lemma set_children_ok zs : Permutation (filter filled (combine fs ys)) zs ->
    exists l la', set_children (fields fs) (concat (map snd zs)) = Ok l /\ all3 simf fs la la' /\ all3 (crep md true) fs la' l.
  Proof.
    intros Pm. pose proof (all3_length _ _ _ _ A) as [L1 L2]. unfold set_children.
    destruct (set_loop_ok zs [] (map (fun _ => None) (fields fs)) (S (length (concat (map snd zs)))) []) as (fd & E & G).
    - intros x Hx. apply (Permutation_in _ (Permutation_sym Pm)) in Hx. apply filter_In in Hx as [H1 H2]. split; auto. unfold filled in H2. destruct (snd x); discriminate.
    - unfold fields. split; [now rewrite !map_length|]. intros k f y Hk Hy. exists None. split; [|split; [intros []|auto]].
      rewrite map_map. now erewrite map_nth_error by exact Hk.
    - lia.
    - cbn [app] in E. change (len (@nil Z)) with 0 in E. rewrite E. cbn [bind]. rewrite app_nil_r in G. destruct G as [Lf G].
      apply (fill_ok fs (fun f Hf => Hf) la ys fd A Lf). intros k y o Hy Ho.
      assert (exists f, nth_error fs k = Some f) as [f Hf] by (apply nth_error_ex; rewrite L2; apply nth_error_Some; congruence).
      destruct (G k f y Hf Hy) as (o' & Ho' & H1 & H2). assert (o' = o) by congruence. subst o'.
      assert (Hc : In (f, y) (combine fs ys)).
      { clear - Hf Hy. revert fs ys Hf Hy. induction k as [|k IH]; intros [|g l] [|z m]; try discriminate; cbn; [intros [= ->] [= ->]; auto|]. intros. right. eapply IH; eauto. }
      split.
      + intros N. apply H1. apply (Permutation_in _ Pm). apply filter_In. split; auto. unfold filled. cbn. destruct y; [contradiction|reflexivity].
      + intros ->. apply H2. intros X. apply (Permutation_in _ (Permutation_sym Pm)) in X. apply filter_In in X as [_ X]. discriminate X.
  Qed.
  End Found.

  (* the sequence that behaves alike *)
  Lemma other_enc md t e x la : e_method e = 1 -> e_contents e = Some x -> (acc md = true -> has_hdr t e x /\ enc_set fs la x) ->
    exists e', alike e e' /\ e_contents e' <> None /\ (acc md = true -> exists y, has_hdr t e' y /\ enc_fields fs la y).
  Proof.
    intros Me Ec H. destruct (acc md) eqn:Q.
    - destruct (H eq_refl) as (Hh & ys & zs & Hy & Pz & _ & Ex).
      assert (Lx : len (concat ys) = len x).
      { rewrite Ex, <- (concat_perm_len _ _ (Permutation_map snd Pz)). pose proof (all3_length _ _ _ _ Hy) as [_ Ll]. now rewrite filled_len. }
      exists (Enc 1 (e_header e) (Some (concat ys)) (e_trailer e) (e_indef e)). split; [|split].
      + unfold alike. cbn. rewrite Ec. auto 10.
      + discriminate.
      + intros _. exists (concat ys). split; [|exists ys; auto]. eapply has_hdr_len; [| | |exact Lx|exact Hh]; reflexivity.
    - exists e. split; [|split; [congruence|discriminate]]. unfold alike. rewrite Ec. auto 10.
  Qed.

  Lemma rep_other md t e' la l nc : e_method e' = 1 -> e_contents e' <> None -> all3 (crep md true) fs la l ->
    (acc md = true -> exists y, has_hdr t e' y /\ enc_fields fs la y) ->
    match nc with None => True | Some d => ents_seq fs la l d end -> rep md true SQ t (ADict la) (VSeq t e' (Some l) false nc).
  Proof.
    intros Me Ec R H N. apply rep_seq_eq. exists la, t, e', (Some l), false, nc. do 3 (split; [reflexivity|]). split; [exact Me|]. split; [intros _; exact Ec|].
    split; [intros Q _; auto|]. split; [intros _; destruct nc; auto|]. exact R.
  Qed.

  Section Ready.
  Variable md : mode.
  Variable t : tagging.
  Variable e : enc.
  Variable x : bytes.
  Variable la : list (text * aval).
  Variable l : list value.
  Hypothesis Ht : tagging_ok t.
  Hypothesis Me : e_method e = 1.
  Hypothesis Ec : e_contents e = Some x.
  Hypothesis El : set_children (fields fs) x = Ok l.
  Hypothesis Rl : all3 (crep md true) fs la l.
  Hypothesis He : acc md = true -> has_hdr t e x /\ enc_set fs la x.
  Notation v0 := (VSeq t e None false None).

  Lemma first_read : exists l' ns e', native_seq (fields fs) true v0 = (VSeq t e (Some l') false (Some ns), Ok (cached_native (VSeq t e (Some l') false (Some ns)))) /\
    alike e e' /\ awake l' /\ rep md true SQ t (ADict la) (VSeq t e' (Some l') false (Some ns)).
  Proof.
    destruct (other_enc md t e x la Me Ec He) as (e' & Al & Ne & Hh).
    destruct (build_all_ok fs md fs (fun f Hf => Hf) la l Rl) as (l1 & Eb & R1).
    destruct (natives_ok c fs W C md true fs (fun f Hf => Hf) la l1 0 R1) as (l2 & ns & En & R2 & M2 & L2 & N2).
    exists l2, ns, e'. split; [|split; [auto|split]].
    - unfold native_seq, contents_seq. cbn [mutated orb]. rewrite Ec. unfold parse_seq, parse_flat. rewrite Ec, El, Ec. cbn [andb]. rewrite Eb, En. reflexivity.
    - unfold awake. rewrite Forall_forall. intros w Hw. apply In_nth_error in Hw as (i & Hi). pose proof (all3_length _ _ _ _ R2) as [La Lv].
      assert (Hl : (i < length l2)%nat) by (apply nth_error_Some; congruence).
      destruct (nth_error_ex fs i) as [f Hf]; [lia|]. destruct (nth_error_ex la i) as [na Hn]; [lia|]. destruct (N2 i f na w Hf Hn Hi) as (_ & _ & Lz & _). exact Lz.
    - destruct Al as (_ & Me' & _). apply rep_other; auto. apply ents_of_from; auto. intros i f na v H1 H2 H3.
      destruct (N2 i f na v H1 H2 H3) as (ne & K1 & K2 & K3). exists ne. auto.
  Qed.

  Lemma then_follows q : orderly fs -> mode_of q = md -> set_follows c fs q t (ADict la) (fst (perform ST ARead v0)).
  Proof.
    intros O Q. destruct first_read as (l' & ns & e' & E & Al & Aw & R). rewrite ST_step by discriminate. rewrite E. cbn [reply fst]. rewrite <- Q in R.
    eapply set_follows_ok; eauto. exists e, e', l', false, (Some ns). do 4 (split; auto). intros A _. rewrite Q in A. exists x. auto.
  Qed.

  Lemma at_first i r y : exists u, rep md true SQ t (ADict la) u /\ snd (through (i :: r) y ST v0) = snd (through (i :: r) y SQ u).
  Proof.
    destruct (other_enc md t e x la Me Ec He) as (e' & Al & Ne & Hh). exists (VSeq t e' (Some l) false None).
    split; [destruct Al as (_ & Me' & _); now apply rep_other|]. rewrite !through_step by discriminate.
    change (x_get (methods ST) i v0) with (get_seq (fields fs) true i v0).
    change (x_get (methods SQ) i (VSeq t e' (Some l) false None)) with (get_seq (fields fs) false i (VSeq t e' (Some l) false None)).
    unfold get_seq, ensure, parse_flat. rewrite Ec, El. destruct (nth_error l i) as [w|]; auto.
    assert (G : forall k, inner ST i (VSeq t e (Some k) false None) = inner SQ i (VSeq t e' (Some k) false None)) by reflexivity.
    destruct (nth_error (fields fs) i) as [fo|].
    - destruct (built fo w) as [b|z]; [|destruct w; reflexivity].
      assert (K : snd (match inner ST i (VSeq t e (Some (update l i b)) false None) with
         | Some (s', w0) => let '(w', y0) := through r y s' w0 in (put_inner i w' (VSeq t e (Some (update l i b)) false None), y0)
         | None => (VSeq t e (Some (update l i b)) false None, Err TypeError) end) =
        snd (match inner SQ i (VSeq t e' (Some (update l i b)) false None) with
         | Some (s', w0) => let '(w', y0) := through r y s' w0 in (put_inner i w' (VSeq t e' (Some (update l i b)) false None), y0)
         | None => (VSeq t e' (Some (update l i b)) false None, Err TypeError) end)).
      { rewrite G. destruct (inner SQ i _) as [[s' w0]|]; auto. now destruct (through r y s' w0). }
      destruct w; exact K.
    - assert (K : snd (match inner ST i (VSeq t e (Some l) false None) with
         | Some (s', w0) => let '(w', y0) := through r y s' w0 in (put_inner i w' (VSeq t e (Some l) false None), y0)
         | None => (VSeq t e (Some l) false None, Err TypeError) end) =
        snd (match inner SQ i (VSeq t e' (Some l) false None) with
         | Some (s', w0) => let '(w', y0) := through r y s' w0 in (put_inner i w' (VSeq t e' (Some l) false None), y0)
         | None => (VSeq t e' (Some l) false None, Err TypeError) end)).
      { rewrite G. destruct (inner SQ i _) as [[s' w0]|]; auto. now destruct (through r y s' w0). }
      destruct w; try exact K. reflexivity.
  Qed.

  Lemma shows_first : set_shows c fs (acc md) t (ADict la) v0.
  Proof.
    intros [|i r] s' t' b Si.
    - apply sits_here in Si as (-> & -> & ->). cbn [through]. rewrite !ST_step by discriminate. split; [|split].
      + destruct first_read as (l' & ns & e' & E & _ & _ & R). rewrite E. cbn [reply snd]. eexists. split; [reflexivity|].
        apply (cached_shows SQ _ _ _ _ R eq_refl).
      + intros f N. contradiction.
      + unfold len_seq, ensure, parse_flat. rewrite Ec, El. cbn [reply snd]. pose proof (all3_length _ _ _ _ Rl) as [L1 L2]. unfold len. do 2 f_equal. rewrite <- L1, <- L2. reflexivity.
    - assert (X : forall y, exists w q', wf s' /\ tagging_ok t' /\ rep q' true s' t' b w /\ acc q' = acc md /\ snd (through (i :: r) y ST v0) = snd (perform s' y w)).
      { intros y. destruct (at_first i r y) as (u & Ru & Eu). destruct (reach_at _ _ _ _ _ _ _ Si _ _ _ W Ht Ru) as (q' & w & W' & T' & Rw & A & Er).
        exists w, q'. rewrite Eu, Er. auto. }
      split; [|split].
      + destruct (X ARead) as (w & q' & W' & T' & Rw & A & ->). destruct (K_native s' (contract_all s' W') _ _ _ _ _ T' Rw) as (w' & y & En & _ & _ & _ & _ & Sh).
        exists y. rewrite perform_step by (eapply rep_void; eauto). rewrite En. split; auto.
      + intros f _. destruct (X (ADump f)) as (w & q' & W' & T' & Rw & A & ->). destruct (K_dump s' (contract_all s' W') _ _ _ _ _ f T' Rw) as (w' & d & Ed & _ & _ & _ & De).
        exists d. rewrite perform_step by (eapply rep_void; eauto). rewrite Ed. split; auto. intros G Ld.
        apply (proj1 (encodes_der_both s' W' t' T')); auto. apply De. rewrite A. apply orb_true_iff in G as [G|G]; auto.
      + destruct (X ALen) as (w & q' & W' & T' & Rw & A & E). pose proof (len_answer _ _ _ _ _ _ W' Rw). destruct b; auto; now rewrite E.
  Qed.
  End Ready.

  Lemma build_set p i j hd tl : taggable SQ p ->
    let t := tags_of c p in
    ((has_explicit c p = false /\ p_explicit p = [] /\ j = i /\ hd = i_header i /\ tl = i_trailer i) \/
     (has_explicit c p = true /\ t = Tagging (k_class c) (k_tag c) false (t_explicit t) /\
        peel (rev (t_explicit t)) i (i_header i) (i_trailer i) = Ok (j, hd, tl))) ->
    i_class j = t_class t -> i_method j = 1 -> i_tag j = t_tag t ->
    build_seq c (fields fs) true p None i = Ok (VSeq t (Enc 1 (Some hd) (Some (i_contents j)) tl false) None false None).
  Proof.
    intros T t Sh J1 J2 J3. destruct Sh as [(He & Pe & -> & -> & ->)|(He & Sh & P)].
    - assert (Ck : check_tags c t i = true) by (unfold check_tags; rewrite J1, J2, J3, !Z.eqb_refl; reflexivity).
      unfold build_seq, build_with. rewrite He. unfold plain_seq. rewrite (init_tags c p (proj1 T)). cbn [bind]. destruct T as ((Np & _) & _). rewrite Np.
      fold t. cbn [bind]. rewrite Ck. reflexivity.
    - unfold build_seq, build_with. rewrite He.
      assert (Pr : (do _ <- make_seq c (fields fs) true p None ANone; Ok tt) = Ok tt) by (unfold make_seq; now rewrite (init_tags c p (proj1 T))).
      rewrite Pr. cbn [bind]. rewrite (init_tags c p (proj1 T)). cbn [bind]. fold t in P, Sh. fold t. rewrite P. cbn [bind].
      unfold plain_seq. cbn [p_no_explicit]. change (init_tagging c (Params [] None true)) with (Ok (Tagging (k_class c) (k_tag c) false [])). cbn [bind].
      rewrite Sh in J1, J3. cbn in J1, J3.
      assert (Ck : check_tags c (Tagging (k_class c) (k_tag c) false []) j = true) by (unfold check_tags; cbn [t_class t_tag]; rewrite J1, J2, J3, !Z.eqb_refl; reflexivity).
      rewrite Ck. cbn [bind]. unfold place_explicit. cbn [place_header e_method e_contents e_indef]. unfold with_explicit. cbn [t_class t_tag t_implicit]. rewrite <- Sh.
      reflexivity.
  Qed.

  Lemma load_info p i r strict : ber_info max_budget i -> (strict = true -> r = []) ->
    cload ST p (encoding_of i ++ r) strict = build_seq c (fields fs) true p None i.
  Proof.
    intros B Hr. unfold cload. rewrite parse__0_complete by auto. cbn [bind].
    replace (strict && negb (len (encoding_of i) =? len (encoding_of i ++ r))) with false; [reflexivity|].
    destruct strict; auto. rewrite Hr, app_nil_r, Z.eqb_refl by auto. reflexivity.
  Qed.

  Theorem set_load_ber p a d r strict : orderly fs -> taggable SQ p -> ber_set fs (tags_of c p) a d -> (strict = true -> r = []) ->
    exists v b, cload ST p (d ++ r) strict = Ok v /\ sim SQ a b /\ set_shows c fs false (tags_of c p) b v /\
      set_follows c fs Lost (tags_of c p) b (fst (perform ST ARead v)).
  Proof.
    intros O T H Hr. destruct a as [| |la| | |]; try contradiction. cbn [ber_set] in H. destruct H as (i & B & -> & H).
    pose proof (tok SQ p W T) as Ht. cbn [stags] in Ht.
    assert (Hi : p_implicit p = None \/ k_explicit c = []) by (destruct T as (_ & [Hi|[Hi _]] & _); auto).
    destruct (ber_cases c p _ i (proj1 T) Hi B H) as (j & hd & tl & Bj & (J1 & J2 & J3 & ys & zs & Ay & Pz & Ej) & Sh).
    pose proof (all3_length _ _ _ _ Ay) as [L1 L2]. rewrite (some_led fs ys L2) in Pz.
    apply Permutation_sym, Permutation_map_inv in Pz as (ws & -> & Pw).
    assert (F : found_in fs ber_field Stale) by (apply (ber_found c fs W); intros f Hf; apply loads_all; eapply wf_wf; eauto).
    destruct (set_children_ok ber_field Stale F la ys Ay ws Pw) as (l & la' & El & S1 & Rl). rewrite <- Ej in El.
    exists (VSeq (tags_of c p) (Enc 1 (Some hd) (Some (i_contents j)) tl false) None false None), (ADict la').
    split; [rewrite load_info by auto; now apply build_set|]. split; [now apply sim_seq|].
    split; [eapply (shows_first Stale)|eapply (then_follows Stale)]; eauto; try reflexivity; discriminate.
  Qed.

  Theorem set_load_der p a d r strict : orderly fs -> taggable SQ p -> der_set fs (tags_of c p) a d -> (strict = true -> r = []) ->
    exists v b, cload ST p (d ++ r) strict = Ok v /\ sim SQ a b /\ set_shows c fs true (tags_of c p) b v /\
      set_follows c fs Clean (tags_of c p) b (fst (perform ST ARead v)) /\
      exists x, der_constructed (tags_of c p) x d /\ (len x mod 256 <> 128 -> snd (perform ST (ADump false) v) = Ok (RDump d)).
  Proof.
    intros O T H Hr. destruct a as [| |la| | |]; try contradiction. cbn [der_set] in H. destruct H as (ys & zs & Ay & Pz & Sz & D).
    pose proof (tok SQ p W T) as Ht. cbn [stags] in Ht.
    destruct (constructed_ber _ (fun _ => True) _ _ D Logic.I) as (i & B & -> & _).
    assert (Hi : p_implicit p = None \/ k_explicit c = []) by (destruct T as (_ & [Hi|[Hi _]] & _); auto).
    rewrite <- filled_led in Pz. apply Permutation_sym, Permutation_map_inv in Pz as (ws & -> & Pw).
    replace (map snd (map led ws)) with (map snd ws) in D by (rewrite map_map; apply map_ext; reflexivity). set (x := concat (map snd ws)) in *.
    destruct (set_children_ok der_field Own (der_found c fs W C) la ys Ay ws Pw) as (l & la' & El & S1 & Rl). fold x in El.
    destruct (build_cases c p x i (proj1 T) Hi Ht D B) as (Ti & Cs).
    assert (Bd : build_seq c (fields fs) true p None i = Ok (VSeq (tags_of c p) (Enc 1 (Some (full_header (tags_of c p) 1 x)) (Some x) [] false) None false None)).
    { destruct Cs as [(He & Ex & Pe & I1 & I2 & I3 & I4 & I5)|(He & Sh & j & P & J1 & J2 & J3 & J4 & J5)].
      - rewrite (build_set p i i (i_header i) (i_trailer i)); auto; [|left; auto]. now rewrite I4, I5, Ti.
      - rewrite (build_set p i j (full_header (tags_of c p) 1 x) []); auto; [|right; rewrite Ti; auto|now rewrite Sh|now rewrite Sh]. now rewrite J4. }
    exists (VSeq (tags_of c p) (Enc 1 (Some (full_header (tags_of c p) 1 x)) (Some x) [] false) None false None), (ADict la').
    assert (He : acc Own = true -> has_hdr (tags_of c p) (Enc 1 (Some (full_header (tags_of c p) 1 x)) (Some x) [] false) x /\ enc_set fs la' x).
    { intros _. split; [split; [reflexivity|right; auto]|].
      assert (Ey : all3 enc_field fs la ys) by (eapply der_enc_field; eauto). 
      exists ys, ws. split; [eapply enc_all_sim; eauto; exact (wf_wf c fs W)|]. auto. }
    split; [rewrite load_info by auto; exact Bd|]. split; [now apply sim_seq|].
    split; [eapply (shows_first Own); eauto; reflexivity|]. split; [eapply (then_follows Own); eauto; reflexivity|].
    exists x. split; auto. intros N. rewrite ST_step by discriminate.
    unfold dump_seq. cbn [e_header e_contents orb]. rewrite ends_80_header. assert (Nb : (len x mod 256 =? 128) = false) by lia. rewrite Nb. cbn [andb].
    unfold finish_dump. cbn [e_header e_contents]. rewrite ends_80_header, Nb. cbn [e_trailer reply snd bind].
    destruct (der_constructed_bytes _ _ _ Ht D) as [E _]. rewrite E, app_nil_r. reflexivity.
  Qed.
End Load.
