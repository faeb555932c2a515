(* What follows for programs that load structured values from BER. *)
Require Import Verif.Base Verif.BaseFacts Verif.IntModel Verif.IntSpec Verif.IntProofs
  Verif.ParserModel Verif.ParserSpec Verif.ParserProofs Verif.ParserFacts Verif.Text
  Verif.TagSpec Verif.TagProofs Verif.ChunkSpec Verif.ChunkProofs
  Verif.PrimModel Verif.PrimSpec Verif.PrimProofs Verif.PrimSet Verif.PrimDump Verif.PrimLoad Verif.HistSpec Verif.PrimHist
  Verif.PrimRead Verif.PrimSide Verif.ContModel Verif.ContSpec Verif.ContBase Verif.ContRep Verif.ContPrim Verif.ContSeq Verif.ContSeq2
  Verif.ContList Verif.ContChoice Verif.ContPath Verif.ContHistSpec Verif.ContHist Verif.ContHist2 Verif.ContFinal Verif.BerSpec Verif.BerProofs.
Require Import Sorting.Permutation Sorting.Sorted.

Lemma load_rep s p a d r strict : wf s -> taggable s p -> ber_encodes s (stags s p) a d -> (strict = true -> r = []) ->
  exists v a', cload s p (d ++ r) strict = Ok v /\ sim s a a' /\ rep Stale true s (stags s p) a' v.
Proof.
  intros W T (i & B & -> & H) Hr. destruct (loads_all s W p None i a T I B H) as (v & a' & E & S & (R & _)).
  exists v, a'. split; auto. unfold cload. rewrite parse__0_complete by auto. cbn [bind].
  replace (strict && negb (len (encoding_of i) =? len (encoding_of i ++ r))) with false; auto.
  destruct strict; auto. rewrite Hr, app_nil_r, Z.eqb_refl by auto. reflexivity.
Qed.

Lemma forced_dump_rep s t a v d q n : wf s -> tagging_ok t -> rep q n s t a v -> der s t a d -> snd (x_dump (methods s) true v) = Ok d.
Proof.
  intros W T R D. destruct (K_dump s (contract_all s W) _ _ _ _ _ true T R) as (v' & d' & E & _ & _ & _ & En). rewrite E. cbn.
  f_equal. eapply encodes_fun; [exact W|apply En; auto|now apply der_encodes].
Qed.

Theorem ber_load s p a d r strict : wf s -> taggable s p -> ber_encodes s (stags s p) a d -> (strict = true -> r = []) ->
  exists v a', cload s p (d ++ r) strict = Ok v /\ sim s a a' /\ follows_from Lost s (stags s p) a' v.
Proof.
  intros W T H Hr. destruct (load_rep s p a d r strict W T H Hr) as (v & a' & E & S & R). exists v, a'. split; auto. split; auto.
  apply (follows_from_ok Lost); auto. now apply tok.
Qed.

(* the DER encoding can be had from any BER encoding, whatever was read in between *)
Theorem ber_normal s p a d e : wf s -> taggable s p -> ber_encodes s (stags s p) a d -> der s (stags s p) a e ->
  exists v, cload s p d true = Ok v /\ forall h, forallb (fun x => reading (snd x)) h = true ->
    snd (x_dump (methods s) true (after s h v)) = Ok e /\
    exists x, snd (x_native (methods s) (after s h v)) = Ok x /\ exists a', sim s a a' /\ shows s a' x.
Proof.
  intros W T H D. pose proof (tok s p W T) as Ht. destruct (load_rep s p a d [] true W T H) as (v & a' & E & S & R); auto. rewrite app_nil_r in E.
  exists v. split; auto. intros h Hh.
  destruct (history_ok s _ W Ht h a' Lost true v (reading_safe s h a' Hh) R) as (b & L & Rb). apply reading_leads in L; auto. subst b.
  rewrite (reading_stores h Hh) in Rb. cbn in Rb.
  split; [eapply forced_dump_rep; eauto; eapply der_sim; eauto|].
  destruct (K_native s (contract_all s W) _ _ _ _ _ Ht Rb) as (v' & x & En & _ & _ & _ & _ & Sh). exists x. rewrite En. split; auto. exists a'. auto.
Qed.

(* an encoding stands for one value only *)
Theorem ber_unambiguous s p a b d : wf s -> taggable s p -> ber_encodes s (stags s p) a d -> ber_encodes s (stags s p) b d -> sim s a b.
Proof.
  intros W T Ha Hb. destruct (load_rep s p a d [] true W T Ha) as (v & a' & E & S & R); auto. destruct (load_rep s p b d [] true W T Hb) as (v' & b' & E' & S' & R'); auto.
  rewrite E in E'. injection E' as <-. pose proof (rep_fun s _ _ _ _ _ _ _ _ _ R R') as Q.
  eapply sim_trans; [exact W|exact S|]. eapply sim_trans; [exact W|exact Q|]. now apply sim_sym.
Qed.

(* ---- DER is BER ---- *)
Lemma wrapped_within ex (Q : info -> Prop) : forall d j, ber_info max_budget j -> Q j -> der_wrapped ex (encoding_of j) d ->
  exists i, ber_info max_budget i /\ d = encoding_of i /\ within (rev ex) Q i.
Proof.
  induction ex as [|[c t] ex IH] using rev_ind; intros d j B H D.
  - cbn in D. exists j. auto.
  - apply der_wrapped_snoc in D as (mid & D1 & D2). destruct (IH mid j B H D1) as (i & Bi & -> & Hi).
    destruct (tlv_info _ _ _ _ _ D2) as (h & Bk & Ek). eexists. split; [exact Bk|]. split; [auto|].
    rewrite rev_unit. cbn [within i_class i_method i_tag i_contents]. split; auto. split; auto. split; auto. exists i. auto.
Qed.

Lemma constructed_ber t (X : bytes -> Prop) x d : der_constructed t x d -> X x -> one_of (within (rev (t_explicit t)) (ber_constructed t X)) d.
Proof.
  intros (inner & D1 & D2) H. destruct (tlv_info _ _ _ _ _ D1) as (h & Bj & Ej). rewrite <- Ej in D2.
  destruct (wrapped_within (t_explicit t) (ber_constructed t X) d _ Bj) with (2 := D2) as (i & Bi & -> & Hi).
  - unfold ber_constructed. cbn. auto.
  - exists i. auto.
Qed.

Theorem der_is_ber s : wf s -> forall p a d, taggable s p -> der s (stags s p) a d -> ber_encodes s (stags s p) a d.
Proof.
  induction s as [k c|c fs IH|c fs IH|c s IH|c s IH|ex alts IH] using spec_rect'; intros W p a d T D.
  - destruct (der_info _ p _ _ W D) as (i0 & B0 & _ & E0 & _).
    cbn [der] in D. destruct a as [|v| | | |]; try contradiction. destruct D as (Hv & x & Dx & Do).
    assert (k = KNull \/ k <> KNull) as [->|Nk] by (destruct k; auto; right; discriminate).
    + destruct v; try contradiction. exists i0. split; auto. split; auto. cbn [ber_of der]. split; auto. exists x. rewrite E0. auto.
    + assert (Bx : bytes_ok x).
      { pose proof W as (Hk & Hc). destruct (make_good k c p _ v Hk (init_tags c p (proj1 T)) (stags_ok _ _ W T) Hv) as (o1 & c1 & _ & _ & _ & _ & _ & _ & D1 & B1 & _).
        now rewrite (der_value_unique k None v x c1). }
      destruct Do as (inner & D1 & D2). destruct (tlv_info _ _ _ _ _ D1) as (h & Bj & Ej). rewrite <- Ej in D2.
      destruct (wrapped_within (t_explicit (tags_of c p)) (ber_prim k c (tags_of c p) v) d _ Bj) with (2 := D2) as (i & Bi & -> & Hi).
      * unfold ber_prim. cbn. split; auto. split; auto. left. split; auto. split; auto.
      * exists i. split; auto. split; auto. cbn [ber_of stags]. destruct k; auto; contradiction.
  - cbn [der stags] in D. destruct a as [| |la| | |]; try contradiction. destruct D as (ys & Dc & Dy).
    refine (constructed_ber _ _ _ _ Dc _). exists ys. split; auto. revert Dy. apply all3_impl. intros f na y Hf H.
    destruct (wf_tags c fs f W Hf) as (Wf & Tf & Tk). rewrite Forall_forall in IH.
    apply encf_cases in H as (E & H). split; auto.
    destruct H as [(X & Y & ->)|[(X & Y & H1)|[(X & H1)|(dv & w & X & H1 & H1')]]].
    + left. rewrite X. auto.
    + right. exact (IH f Hf Wf _ _ _ Tf H1).
    + right. exact (IH f Hf Wf _ _ _ Tf H1).
    + destruct H1' as [((ad & D1 & D2) & ->)|(_ & ->)].
      * left. split; auto. rewrite X. exists ad. split; auto. eapply der_inj; eauto using contract_all.
      * right. exact (IH f Hf Wf _ _ _ Tf H1).
  - contradiction.
  - cbn [der stags] in D. destruct a as [| | |la| |]; try contradiction. destruct D as (ds & Da & Dc).
    refine (constructed_ber _ _ _ _ Dc _). exists ds. split; auto. revert Da. apply all2_impl. intros a y _ H.
    destruct (W_parts c s false W) as (_ & Ws & Ts & _). exact (IH Ws _ _ _ Ts H).
  - cbn [der stags] in D. destruct a as [| | |la| |]; try contradiction. destruct D as (ds & es & Da & P & _ & Dc).
    destruct (W_parts c s true W) as (_ & Ws & Ts & _).
    assert (exists lb, Permutation la lb /\ all2 (der s (stags s no_params)) lb es) as (lb & Pl & Db).
    { assert (G : forall (la : list aval) ds, all2 (der s (stags s no_params)) la ds -> all2 (fun d a => der s (stags s no_params) a d) ds la).
      { clear. induction la as [|a la IH]; intros [|d ds]; cbn; try tauto. intros [H K]. auto. }
      destruct (all2_perm _ _ _ P _ (G _ _ Da)) as (lb & Pl & Db). exists lb. split; auto.
      clear - Db. revert lb Db. induction es as [|d es IH]; intros [|a lb]; cbn; try tauto. intros [H K]. auto. }
    refine (constructed_ber _ _ _ _ Dc _). exists es, lb. split; auto. split; auto. revert Db. apply all2_impl. intros a y _ H.
    exact (IH Ws _ _ _ Ts H).
  - cbn [der stags t_explicit] in D. destruct a as [| | | |n b|]; try contradiction. destruct D as (w & Dw & D).
    apply some_ex in D as (f & Hf & En & D). destruct (wf_alt _ _ _ W Hf) as (Wf & Tf & _). rewrite Forall_forall in IH.
    destruct (IH f Hf Wf _ _ _ Tf D) as (j & Bj & -> & Hj). destruct (der_info _ _ _ _ Wf D) as (j' & Bj' & Tj & Ej & _).
    assert (j' = j) by (apply same_info0; auto). subst j'.
    destruct (wrapped_within (ex ++ p_explicit p) (fun j => i_trailer j = [] /\ some (fun f => fname f = n /\ ber_of (snd f) (ftags f) b j) alts) d _ Bj) with (2 := Dw) as (i & Bi & -> & Hi).
    + split; auto. apply some_ex. exists f. auto.
    + exists i. split; auto.
Qed.
