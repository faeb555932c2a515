(* Dumping a structured value that was loaded and not changed: what was read is kept. *)
Require Import Verif.Base Verif.BaseFacts Verif.IntModel Verif.IntSpec Verif.IntProofs
  Verif.ParserModel Verif.ParserSpec Verif.ParserProofs Verif.ParserFacts Verif.Text
  Verif.TagSpec Verif.TagProofs Verif.ChunkSpec Verif.ChunkProofs
  Verif.PrimModel Verif.PrimSpec Verif.PrimProofs Verif.PrimSet Verif.PrimDump Verif.PrimLoad Verif.HistSpec Verif.PrimHist
  Verif.PrimRead Verif.PrimSide Verif.PrimMore Verif.ContModel Verif.ContSpec Verif.ContBase Verif.ContRep Verif.ContPrim Verif.ContSeq Verif.ContSeq2
  Verif.ContList Verif.ContChoice Verif.ContPath Verif.ContHistSpec Verif.ContHist Verif.ContHist2 Verif.ContFinal Verif.BerSpec Verif.BerProofs Verif.BerFinal.

(* the class attributes of the structures that have contents of their own *)
Definition own_class (s : spec) : option pcls :=
  match s with
  | SSeq c _ | SSet c _ | SSeqOf c _ | SSetOf c _ => Some c
  | SPrim _ _ | SChoice _ _ => None
  end.
(* the header octets an object holds *)
Definition header_of (v : value) : option bytes :=
  match v with
  | VPrim o => e_header (o_enc o)
  | VSeq _ e _ _ _ | VList _ e _ _ _ | VChoice _ e _ _ => e_header e
  | VVoid | VLazy _ => None
  end.
(* no header the dump of an object rests on ends in 0x80, that octet is taken for an
   indefinite length *)
Fixpoint settled (v : value) : bool :=
  negb (ends_80 (header_of v)) && match v with VChoice _ _ _ (Some w) => settled w | _ => true end.

(* an object just loaded: contents not yet looked into *)
Definition fresh (b : bool) (v : value) (hd x tl : bytes) : Prop :=
  exists t e, e_header e = Some hd /\ e_contents e = Some x /\ e_trailer e = tl /\
    v = if b then VSeq t e None false None else VList t e None false None.
Definition fieldful (s : spec) : bool := match s with SSeq _ _ | SSet _ _ => true | _ => false end.

Definition fresh_from (b : bool) (c : pcls) (p : params) (i : info) (v : value) : Prop :=
  exists t, init_tagging c p = Ok t /\
    ((has_explicit c p = false /\ fresh b v (i_header i) (i_contents i) (i_trailer i)) \/
     (has_explicit c p = true /\ exists j hd tl, peel (rev (t_explicit t)) i (i_header i) (i_trailer i) = Ok (j, hd, tl) /\
        fresh b v hd (i_contents j) tl)).

Lemma build_fresh s c p i v : own_class s = Some c -> x_build (methods s) p None i = Ok v -> fresh_from (fieldful s) c p i v.
Proof.
  assert (SQ : forall c fs b, x_build (seq_ops c fs b) p None i = Ok v -> fresh_from true c p i v).
  { clear. intros c fs b H. cbn [seq_ops x_build] in H. unfold build_seq, build_with in H. unfold fresh_from. destruct (has_explicit c p).
    - apply bind_ok in H as (? & _ & H). destruct (init_tagging c p) as [t|] eqn:Hi; [|discriminate]. cbn [bind] in H. exists t. split; auto. right. split; auto.
      apply bind_ok in H as ([[j hd] tl] & Hp & H). exists j, hd, tl. cbn [p_no_explicit] in H. unfold plain_seq in H.
      apply bind_ok in H as (w & Hw & H). apply bind_ok in Hw as (t2 & _ & Hw). cbn [bind] in Hw. destruct (check_tags c t2 j); [|discriminate].
      injection Hw as <-. injection H as <-. split; auto. exists (with_explicit t2 (t_explicit t)). eexists. cbn. split; [|split; [|split; [|reflexivity]]]; reflexivity.
    - unfold plain_seq in H. destruct (init_tagging c p) as [t|] eqn:Hi; [|discriminate]. cbn [bind] in H.
      destruct (p_no_explicit p); cbn [bind] in H; (destruct (check_tags c t i); [|discriminate]); injection H as <-; exists t; split; auto; left; split; auto; exists t; eexists; cbn;
        (split; [|split; [|split; [|reflexivity]]]); reflexivity. }
  assert (LQ : forall c o e b, x_build (list_ops c o e b) p None i = Ok v -> fresh_from false c p i v).
  { clear. intros c o ex b H. cbn [list_ops x_build] in H. unfold build_list, build_with in H. unfold fresh_from. destruct (has_explicit c p).
    - apply bind_ok in H as (? & _ & H). destruct (init_tagging c p) as [t|] eqn:Hi; [|discriminate]. cbn [bind] in H. exists t. split; auto. right. split; auto.
      apply bind_ok in H as ([[j hd] tl] & Hp & H). exists j, hd, tl. unfold plain_list in H.
      apply bind_ok in H as (w & Hw & H). apply bind_ok in Hw as (t2 & _ & Hw). cbn [bind] in Hw. destruct (check_tags c t2 j); [|discriminate].
      injection Hw as <-. injection H as <-. split; auto. exists (with_explicit t2 (t_explicit t)). eexists. cbn. split; [|split; [|split; [|reflexivity]]]; reflexivity.
    - unfold plain_list in H. destruct (init_tagging c p) as [t|] eqn:Hi; [|discriminate]. cbn [bind] in H.
      (destruct (check_tags c t i); [|discriminate]); injection H as <-; exists t; split; auto; left; split; auto; exists t; eexists; cbn;
        (split; [|split; [|split; [|reflexivity]]]); reflexivity. }
  intros Hc H. destruct s; try discriminate; injection Hc as <-; cbn [methods fieldful] in *; eauto.
Qed.

Lemma finish_keep t e x : e_contents e = Some x -> ends_80 (e_header e) = false -> forall h, e_header e = Some h ->
  finish_dump t e (e_contents e) = (e, Ok (h ++ x ++ e_trailer e)).
Proof. intros E E8 h Eh. unfold finish_dump. rewrite E, (ends_80_none _ E8), Eh. reflexivity. Qed.

Lemma fresh_dump s v hd x tl : own_class s <> None -> fresh (fieldful s) v hd x tl -> ends_80 (Some hd) = false ->
  header_of v = Some hd /\ x_dump (methods s) false v = (v, Ok (hd ++ x ++ tl)).
Proof.
  intros Hc (t & e & E1 & E2 & E3 & ->) H8. rewrite <- E1 in H8 |- *.
  split; [destruct (fieldful s); reflexivity|].
  destruct s; try (exfalso; now apply Hc); cbn [fieldful methods seq_ops list_ops x_dump dump_seq dump_list];
    rewrite H8; cbn [orb andb contents_list]; rewrite (finish_keep t e x E2 H8 hd E1), E3; reflexivity.
Qed.

(* a structure of any class, loaded from any octets, dumps as the octets read, without
   what the wrappers held after the value *)
Theorem container_load_dump s c p d strict v : own_class s = Some c -> bytes_ok d -> cload s p d strict = Ok v ->
  exists i t rest, ber_info max_budget i /\ d = encoding_of i ++ rest /\ (strict = true -> rest = []) /\
    init_tagging c p = Ok t /\
    (ends_80 (header_of v) = false -> exists x, x_dump (methods s) false v = (v, Ok x) /\ len x <= len (encoding_of i) /\
      (x = encoding_of i <-> exact_ber max_budget (length (t_explicit t)) (encoding_of i))).
Proof.
  intros Hc B H. unfold cload in H. apply bind_ok in H as ([i e] & Hp & H).
  apply parse__0 in Hp as (Bi & (rest & Er) & Ee); auto.
  destruct (strict && negb (e =? len d)) eqn:Es; [discriminate|].
  assert (Bc : bytes_ok (i_contents i)) by (eapply contents_bytes; eauto).
  assert (Hs : strict = true -> rest = []).
  { intros ->. cbn [andb] in Es. rewrite negb_false_iff, Z.eqb_eq in Es. rewrite Er, len_app in Es.
    destruct rest; auto. rewrite len_cons in Es. pose proof (len_nonneg rest). lia. }
  destruct (build_fresh s c p i v Hc H) as (t & Hi & Sh).
  assert (Nc : own_class s <> None) by congruence.
  exists i, t, rest. split; auto. split; auto. split; auto. split; auto. intros E8.
  assert (Hh : forall hd x tl, fresh (fieldful s) v hd x tl -> x_dump (methods s) false v = (v, Ok (hd ++ x ++ tl))).
  { intros hd x tl F. apply fresh_dump; auto. destruct F as (t' & e' & E1 & _ & _ & ->). rewrite <- E1. destruct (fieldful s); exact E8. }
  destruct Sh as [(He & F)|(He & j & hd & tl & Hq & F)]; rewrite (Hh _ _ _ F).
  - exists (encoding_of i). split; auto. split; [lia|]. split; auto. intros _.
    rewrite (has_explicit_false _ _ _ Hi He). econstructor. exact Bi.
  - change (i_header i) with ([] ++ i_header i) in Hq. rewrite <- (app_nil_r (i_trailer i)) in Hq.
    apply peel_exact in Hq as (Bj & x & Ex & Lx & Iff); auto. cbn [app] in Ex. rewrite app_nil_r in Ex.
    rewrite rev_length in Iff. exists x. rewrite Ex. auto.
Qed.

(* ---- BER encodings of values, with choices inside choices ---- *)
Lemma within_exact ex Q : forall i P T j hd tl, ber_info max_budget i -> within ex Q i ->
  peel ex i (P ++ i_header i) (i_trailer i ++ T) = Ok (j, hd, tl) -> hd ++ i_contents j ++ tl = P ++ encoding_of i ++ T.
Proof.
  induction ex as [|[c t] ex IH]; intros i P T j hd tl B H E; cbn [within peel] in *.
  - injection E as <- <- <-. unfold encoding_of. now rewrite <- !app_assoc.
  - destruct H as (E1 & E2 & E3 & j' & Bj & Ej & H). rewrite E1, E2, E3, !Z.eqb_refl in E. cbn [negb] in E.
    pose proof (parse__0_complete j' [] Bj) as Q0. rewrite app_nil_r in Q0. rewrite Ej, Q0 in E. cbn [bind] in E.
    apply IH in E; auto. rewrite E. unfold encoding_of at 2. rewrite Ej, <- !app_assoc. reflexivity.
Qed.

Lemma within_exact0 ex Q i j hd tl : ber_info max_budget i -> within ex Q i ->
  peel ex i (i_header i) (i_trailer i) = Ok (j, hd, tl) -> hd ++ i_contents j ++ tl = encoding_of i.
Proof.
  intros B H E. pose proof (within_exact ex Q i [] [] j hd tl B H) as K. cbn [app] in K. rewrite !app_nil_r in K. auto.
Qed.

Lemma settled_header v : settled v = true -> ends_80 (header_of v) = false.
Proof. destruct v; cbn [settled]; intros S; apply andb_prop in S as [S _]; now apply negb_true_iff in S. Qed.

Definition keeps (s : spec) : Prop := forall p i a v, taggable s p -> ber_info max_budget i -> ber_of s (stags s p) a i ->
  x_build (methods s) p None i = Ok v -> settled v = true -> x_dump (methods s) false v = (v, Ok (encoding_of i)).

Lemma keeps_own s c : own_class s = Some c -> (forall p, t_explicit (stags s p) = t_explicit (tags_of c p)) ->
  (forall p a i, ber_of s (stags s p) a i -> exists Q, within (rev (t_explicit (tags_of c p))) Q i) -> wf s -> keeps s.
Proof.
  intros Hc Ht Hw W p i a v T B H E S. destruct (build_fresh s c p i v Hc E) as (t & Hi & Sh).
  assert (Nc : own_class s <> None) by congruence.
  assert (E8 : ends_80 (header_of v) = false).
  { apply settled_header. exact S. }
  assert (Hh : forall hd x tl, fresh (fieldful s) v hd x tl -> x_dump (methods s) false v = (v, Ok (hd ++ x ++ tl))).
  { intros hd x tl F. apply fresh_dump; auto. destruct F as (t' & e' & E1 & _ & _ & ->). rewrite <- E1. destruct (fieldful s); exact E8. }
  destruct (Hw p a i H) as (Q & HQ).
  destruct Sh as [(He & F)|(He & j & hd & tl & Hq & F)]; rewrite (Hh _ _ _ F); auto.
  f_equal. f_equal. eapply within_exact0; eauto. rewrite (init_tags c p (proj1 T)) in Hi. injection Hi as <-. exact Hq.
Qed.

Lemma prim_within k c p a i : ber_info max_budget i -> ber_of (SPrim k c) (stags (SPrim k c) p) a i ->
  exists Q, within (rev (t_explicit (tags_of c p))) Q i.
Proof.
  intros B H. assert (D : forall a, der (SPrim k c) (stags (SPrim k c) p) a (encoding_of i) -> exists Q, within (rev (t_explicit (tags_of c p))) Q i).
  { clear a H. intros a H. cbn [der stags] in H. destruct a as [|v| | | |]; try contradiction. destruct H as (_ & x & _ & inner & D1 & D2).
    destruct (tlv_info _ _ _ _ _ D1) as (h & Bj & Ej). rewrite <- Ej in D2.
    destruct (wrapped_within (t_explicit (tags_of c p)) (fun _ => True) _ _ Bj Logic.I D2) as (i' & Bi & E & Hi).
    assert (i' = i) by (apply same_info0; auto). subst i'. eauto. }
  cbn [ber_of] in H. destruct k; try (destruct a; try contradiction; destruct H as (_ & _ & H); eauto; fail).
  destruct a as [|[]| | | |]; try contradiction; try (destruct H as (_ & _ & H); eauto; fail). eauto.
Qed.

Lemma keeps_prim k c : keeps (SPrim k c).
Proof.
  intros p i a v T B H E S. destruct (prim_within k c p a i B H) as (Q & HQ). cbn [methods prim_ops x_build] in E.
  apply bind_ok in E as (o & E & Ev). injection Ev as <-. pose proof (settled_header _ S) as E8. cbn [header_of] in E8.
  cbn [methods prim_ops x_dump on_prim]. unfold dump. rewrite E8. cbn [orb]. unfold base_dump. rewrite (ends_80_none _ E8).
  unfold build in E. destruct (has_explicit c p).
  - rewrite (init_tags c p (proj1 T)) in E. cbn [bind] in E. apply bind_ok in E as ([[j hd] tl] & Hq & E). apply bind_ok in E as (o' & Hb & E).
    apply build_plain_contents in Hb as (E1 & _ & _). injection E as <-. cbn [o_enc e_header e_contents e_trailer]. unfold contents in E1. rewrite E1.
    f_equal. f_equal. eapply within_exact0; eauto.
  - unfold build_plain in E. apply bind_ok in E as (t & Hi & E).
    destruct (negb _) in E; [discriminate|]. destruct (negb _ && _) in E; [discriminate|]. destruct (negb _ && _) in E; [discriminate|].
    injection E as <-. cbn [o_enc e_header e_contents e_trailer]. reflexivity.
Qed.

Lemma no_trailer i : ber_info max_budget i -> ends_80 (Some (i_header i)) = false -> i_trailer i = [].
Proof.
  intros B. unfold ber_info in B. remember (i_header i) as h eqn:Eh. clear Eh. destruct B as [|n c t h x _ _]; auto.
  cbn [ends_80]. destruct (h ++ [128]) eqn:E; [destruct h; discriminate|]. rewrite <- E, last_last. discriminate.
Qed.

Lemma keeps_choice ex alts : wf (SChoice ex alts) -> (forall f, In f alts -> keeps (snd f)) -> keeps (SChoice ex alts).
Proof.
  intros W K p i a v T B H E S. destruct (choice_params ex alts W p T) as (Hp & Ni & Et & Cx).
  cbn [ber_of stags t_explicit] in H. destruct a as [| | | |n b|]; try contradiction.
  assert (PC : forall p' j v, init_choice ex p' = Ok (Tagging 0 0 false []) -> ber_info max_budget j -> i_trailer j = [] ->
     some (fun f => fname f = n /\ ber_of (snd f) (ftags f) b j) alts -> plain_choice ex (fields alts) p' j = Ok v ->
     exists f w k, v = VChoice (Tagging 0 0 false []) (Enc 1 (Some []) (Some (encoding_of j)) [] false) (Some k) (Some w) /\
       nth_error alts k = Some f /\ (settled w = true -> x_dump (methods (snd f)) false w = (w, Ok (encoding_of j)))).
  { clear - W K. intros p' j v Ei Bj Tj H E. apply some_ex in H as (f & Hf & En & H). destruct (wf_alt _ _ _ W Hf) as (Wf & Tf & Nc & Ce & Tk).
    pose proof (ber_ids _ Wf _ _ _ Bj H) as Ij. destruct (alt_of_ok ex alts W f _ _ Hf Ij) as (k & Ek & Hk).
    unfold plain_choice in E. rewrite Ei in E. cbn [bind t_explicit validate] in E. rewrite Ek in E. cbn [bind] in E.
    assert (Ec : i_header j ++ i_contents j = encoding_of j) by (unfold encoding_of; rewrite Tj, app_nil_r; reflexivity).
    cbn [parse_choice] in E. rewrite (meth_nth alts _ _ Hk) in E. unfold fmeth in E. cbn [e_contents] in E. rewrite Ec in E.
    pose proof (parse__0_complete j [] Bj) as Q. rewrite app_nil_r in Q. rewrite Q in E. cbn [bind] in E.
    destruct (x_build (methods (snd f)) (f_params (fst f)) None j) as [w|] eqn:Ew; [|discriminate]. cbn [place_header e_method e_contents e_indef] in E. rewrite Tj in E.
    injection E as <-. exists f, w, k. split; auto. split; auto. intros Sw. exact (K f Hf _ j b w Tf Bj H Ew Sw). }
  assert (He : has_explicit (choice_cls ex) p = match ex ++ p_explicit p with [] => false | _ => true end).
  { unfold has_explicit. destruct Hp as (Np & _). rewrite Np. cbn. destruct ex, (p_explicit p); reflexivity. }
  cbn [methods choice_ops x_build x_dump] in E |- *. change (map (fun fs : fld * spec => (fst fs, methods (snd fs))) alts) with (fields alts) in *.
  unfold build_choice in E. rewrite He in E.
  destruct Cx as [Cx|(x & Cx)]; rewrite Cx in *.
  - cbn [rev within] in H. destruct H as (Tj & H).
    destruct (PC p i v) as (f & w & k & -> & Hk & D); auto.
    { rewrite Et. cbn [stags]. now rewrite Cx. }
    apply andb_prop in S as [_ S].
    cbn [dump_choice e_header ends_80 orb choice_with parse_choice]. rewrite (meth_nth alts _ _ Hk). unfold fmeth. rewrite D by auto. reflexivity.
  - destruct x as [xc xt]. cbn [rev app within] in H. destruct H as (X1 & X2 & X3 & j & Bj & Ej & Tj & H).
    apply bind_ok in E as (? & _ & E). rewrite Et in E. cbn [bind stags t_explicit] in E. rewrite Cx in E. cbn [rev app peel] in E.
    rewrite X1, X2, X3, !Z.eqb_refl in E. cbn [negb] in E.
    pose proof (parse__0_complete j [] Bj) as Q0. rewrite app_nil_r in Q0. rewrite Ej, Q0 in E. cbn [bind] in E.
    apply bind_ok in E as (u & Eu & E). destruct (PC (Params [] None true) j u) as (f & w & k & -> & Hk & D); auto.
    unfold place_explicit in E. cbn [place_header with_explicit] in E. injection E as <-.
    apply andb_prop in S as [S8 S]. cbn [header_of e_header] in S8. apply negb_true_iff in S8.
    cbn [dump_choice e_header]. rewrite S8. cbn [orb choice_with parse_choice]. rewrite (meth_nth alts _ _ Hk). unfold fmeth. rewrite D by auto.
    cbn [e_method e_header e_contents e_trailer e_indef]. assert (Ei : encoding_of i = i_header i ++ encoding_of j) by (unfold encoding_of at 1; now rewrite Ej, (no_trailer i B S8), app_nil_r).
    rewrite Ei. reflexivity.
Qed.

Theorem keeps_all s : wf s -> keeps s.
Proof.
  induction s as [k c|c fs IH|c fs IH|c s IH|c s IH|ex alts IH] using spec_rect'; intros W.
  - apply keeps_prim.
  - apply (keeps_own _ c); auto. intros p a i H. cbn [ber_of stags] in H. destruct a; try contradiction. eauto.
  - intros p i a v _ _ H. contradiction.
  - apply (keeps_own _ c); auto. intros p a i H. cbn [ber_of stags] in H. destruct a; try contradiction. eauto.
  - apply (keeps_own _ c); auto. intros p a i H. cbn [ber_of stags] in H. destruct a; try contradiction. eauto.
  - apply keeps_choice; auto. rewrite Forall_forall in IH. intros f Hf. apply IH; auto. apply (wf_alt _ _ _ W Hf).
Qed.

Theorem ber_kept s p a d r strict v : wf s -> taggable s p -> ber_encodes s (stags s p) a d -> cload s p (d ++ r) strict = Ok v ->
  settled v = true -> x_dump (methods s) false v = (v, Ok d).
Proof.
  intros W T (i & B & -> & H) E S. unfold cload in E. rewrite parse__0_complete in E by auto. cbn [bind] in E.
  destruct (strict && negb (len (encoding_of i) =? len (encoding_of i ++ r))); [discriminate|]. eapply keeps_all; eauto.
Qed.
