(* Reading a loaded structure, whatever it was loaded from and whether the reads succeed
   or not, does not change what dump() returns. *)
Require Import Verif.Base Verif.BaseFacts Verif.ParserModel Verif.ParserSpec Verif.ParserProofs Verif.ParserFacts Verif.Text
  Verif.TagSpec Verif.TagProofs
  Verif.PrimModel Verif.PrimSpec Verif.PrimProofs Verif.PrimDump Verif.PrimMore Verif.ContModel Verif.ContSpec Verif.ContBase Verif.ContRep Verif.ContPath Verif.ContHistSpec Verif.ContPrim Verif.ContSeq Verif.ContSeq2 Verif.ContList Verif.ContChoice Verif.ContHist Verif.ContHist2 Verif.ContFinal
  Verif.BerSpec Verif.BerProofs Verif.BerFinal Verif.BerKeep.

(* no field has a default of a structured type *)
Fixpoint flat_defaults (s : spec) : bool :=
  match s with
  | SPrim _ _ => true
  | SSeq _ fs | SSet _ fs =>
      forallb (fun f => flat_defaults (snd f) &&
                 match f_pres (fst f), snd f with Default _, SPrim _ _ => true | Default _, _ => false | _, _ => true end) fs
  | SSeqOf _ s' | SSetOf _ s' => flat_defaults s'
  | SChoice _ alts => forallb (fun f => flat_defaults (snd f)) alts
  end.

Definition calm (v : value) : Prop := mutated v = false.
Definition calms (l : list value) : Prop := existsb mutated l = false.
(* what reading may do to an object *)
Definition step (v v' : value) : Prop := (calm v -> calm v') /\ (v' = VVoid -> v = VVoid).
Lemma step_refl v : step v v.
Proof. split; auto. Qed.
Lemma step_trans u v w : step u v -> step v w -> step u w.
Proof. intros [A B] [C D]. split; auto. Qed.

Lemma calms_cons v l : calms (v :: l) <-> calm v /\ calms l.
Proof. unfold calms, calm. cbn. now rewrite orb_false_iff. Qed.
Lemma calms_nth l i v : calms l -> nth_error l i = Some v -> calm v.
Proof.
  revert i. induction l as [|y l IH]; intros i H E; [destruct i; discriminate|]. apply calms_cons in H as [Hv Hl].
  destruct i; cbn in E; [injection E as <-; auto|eauto].
Qed.
Lemma calms_update l i v : calms l -> calm v -> calms (update l i v).
Proof.
  revert i. induction l as [|y l IH]; intros i H E; auto. apply calms_cons in H as [Hv Hl].
  destruct i; cbn [update]; apply calms_cons; auto.
Qed.

Lemma steps_refl l : Forall2 step l l.
Proof. induction l; constructor; auto using step_refl. Qed.
Lemma steps_calms l l' : Forall2 step l l' -> calms l -> calms l'.
Proof. induction 1 as [|v v' l l' [A _] _ IH]; auto. rewrite !calms_cons. tauto. Qed.
Lemma steps_missing fs : forall l l', Forall2 step l l' -> missing fs l = false -> missing fs l' = false.
Proof.
  induction fs as [|[f o] fs IH]; intros l l' H; [auto|]. destruct H as [|v v' l l' [_ S] H]; auto. cbn [missing].
  destruct (f_pres f); eauto. destruct v; try discriminate; destruct v'; try discriminate; eauto; now discriminate S.
Qed.
Lemma steps_update l i x b : nth_error l i = Some x -> step x b -> Forall2 step l (update l i b).
Proof.
  revert i. induction l as [|y l IH]; intros i E S; [destruct i; discriminate|]. destruct i; cbn in E |- *.
  - injection E as ->. constructor; auto using steps_refl.
  - constructor; auto using step_refl.
Qed.

Record still (o : ops) : Prop := {
  T_build : forall p i v, x_build o p None i = Ok v -> calm v /\ v <> VVoid;
  T_contents : forall v, step v (fst (x_contents o v));
  T_dump : forall f v, step v (fst (x_dump o f v));
  T_parse : forall r v, step v (fst (x_parse o r v));
  T_native : forall v, step v (fst (x_native o v));
  T_get : forall i v, step v (fst (x_get o i v));
  T_len : forall v, step v (fst (x_len o v)) }.

(* the class of a field *)
Definition kid (fo : fld * ops) : Prop :=
  still (snd fo) /\
  match f_pres (fst fo) with
  | Default d =>
      (forall p dflt a v, x_make (snd fo) p dflt a = Ok v -> calm v /\ v <> VVoid) /\
      (forall p v v', x_retag (snd fo) p v = Ok v' -> calm v') /\
      forall p dflt i v, x_build (snd fo) p dflt i = Ok v -> calm v /\ v <> VVoid
  | _ => True
  end.

Section Fields.
  Variable c : pcls.
  Variable fs : list (fld * ops).
  Variable is_set : bool.
  Hypothesis K : Forall kid fs.

  Lemma built_step fo v b : kid fo -> built fo v = Ok b -> step v b.
  Proof.
    intros [S D] H. destruct fo as [f o]. cbn [built snd fst] in *. destruct v; try (injection H as <-; apply step_refl).
    assert (calm b /\ b <> VVoid) as [A B].
    { unfold default_of in H. destruct (f_pres f); try (now apply (T_build _ S) in H). destruct D as (_ & _ & D). eauto. }
    split; auto. intros ->. now destruct B.
  Qed.

  Lemma absent_calm fo v : kid fo -> absent_child fo = Ok v -> calm v /\ (f_pres (fst fo) = Required -> False) /\ (v = VVoid -> f_pres (fst fo) = Optional).
  Proof.
    intros [S D] H. destruct fo as [f o]. cbn [absent_child snd fst] in *. destruct (f_pres f) eqn:E; try discriminate.
    - injection H as <-. split; [reflexivity|]. split; [discriminate|auto].
    - destruct D as (D & _). destruct (D _ _ _ _ H) as [A B]. split; auto. split; [discriminate|]. intros ->. now destruct B.
  Qed.

  Lemma absents_calm : forall l vs, Forall kid l -> absent_children l = Ok vs -> calms vs /\ missing l vs = false.
  Proof.
    induction l as [|fo l IH]; intros vs Kl H; cbn [absent_children] in H.
    - injection H as <-. split; reflexivity.
    - inversion Kl as [|? ? K1 K2]; subst. apply bind_ok in H as (v & Hv & H). apply bind_ok in H as (vs' & Hs & H). injection H as <-.
      destruct (absent_calm fo v K1 Hv) as (A & B & C). destruct (IH vs' K2 Hs) as [A' B']. split; [apply calms_cons; auto|].
      destruct fo as [f o]. cbn [missing fst] in *. destruct (f_pres f); auto. now destruct B.
  Qed.

  Lemma loop_calm : forall n cont l parts ptr vs, Forall kid l -> seq_loop n cont l parts ptr = Ok vs -> calms vs /\ missing l vs = false.
  Proof.
    induction n as [|n IH]; intros cont l parts ptr vs Kl H; cbn [seq_loop] in H; [discriminate|]. destruct parts as [i|].
    - destruct l as [|fo l].
      + apply bind_ok in H as (vs' & Hs & H). injection H as <-. destruct (IH _ _ _ _ _ Kl Hs) as [A B]. split; [apply calms_cons; split; [reflexivity|auto]|reflexivity].
      + inversion Kl as [|? ? K1 K2]; subst. destruct (takes fo i).
        * apply bind_ok in H as (vs' & Hs & H). injection H as <-. destruct (IH _ _ _ _ _ K2 Hs) as [A B]. split; [apply calms_cons; split; [reflexivity|auto]|].
          destruct fo as [f o]. cbn [missing]. destruct (f_pres f); auto.
        * apply bind_ok in H as (v & Hv & H). apply bind_ok in H as (vs' & Hs & H). injection H as <-. destruct (IH _ _ _ _ _ K2 Hs) as [A B].
          destruct (absent_calm fo v K1 Hv) as (A' & B' & C'). split; [apply calms_cons; auto|].
          destruct fo as [f o]. cbn [missing fst] in *. destruct (f_pres f); auto. now destruct B'.
    - destruct (ptr <? len cont); [|now apply absents_calm]. apply bind_ok in H as ([i ptr'] & _ & H). eauto.
  Qed.

  Lemma fill_calm : forall l found vs, Forall kid l -> set_fill l found = Ok vs -> calms vs /\ missing l vs = false.
  Proof.
    induction l as [|fo l IH]; intros found vs Kl H; cbn [set_fill] in H.
    - injection H as <-. split; reflexivity.
    - inversion Kl as [|? ? K1 K2]; subst. destruct found as [|x xs]; [injection H as <-; split; [reflexivity|destruct fo; reflexivity]|].
      apply bind_ok in H as (v & Hv & H). apply bind_ok in H as (vs' & Hs & H). injection H as <-. destruct (IH _ _ K2 Hs) as [A B].
      destruct x as [i|].
      + injection Hv as <-. split; [apply calms_cons; split; [reflexivity|auto]|]. destruct fo as [f o]. cbn [missing]. destruct (f_pres f); auto.
      + destruct (absent_calm fo v K1 Hv) as (A' & B' & C'). split; [apply calms_cons; auto|].
        destruct fo as [f o]. cbn [missing fst] in *. destruct (f_pres f); auto. now destruct B'.
  Qed.

  Lemma children_calm cont vs : (if is_set then set_children fs cont else seq_children fs cont) = Ok vs -> calms vs /\ missing fs vs = false.
  Proof.
    destruct is_set; intros H.
    - unfold set_children in H. apply bind_ok in H as (found & _ & H). eapply fill_calm; eauto.
    - unfold seq_children in H. eapply loop_calm; eauto.
  Qed.

  Lemma init_calm : forall l vs, Forall kid l -> init_children l = Ok vs -> calms vs.
  Proof.
    induction l as [|[f o] l IH]; intros vs Kl H; cbn [init_children] in H.
    - injection H as <-. reflexivity.
    - inversion Kl as [|? ? K1 K2]; subst. apply bind_ok in H as (v & Hv & H). apply bind_ok in H as (vs' & Hs & H). injection H as <-.
      apply calms_cons. split; eauto. destruct K1 as [_ D]. cbn [fst snd] in D. destruct (f_pres f) eqn:E; try (injection Hv as <-; reflexivity).
      destruct D as (D1 & D2 & _). unfold make_value in Hv. rewrite E in Hv.
      assert (exists w, calm w /\ fix_tagging o (f_params f) w = Ok v) as (w & Cw & Hw).
      { destruct (x_choice o); cbn [bind] in Hv; [discriminate|]. apply bind_ok in Hv as (w & Hw & Hv). exists w. split; auto. now apply D1 in Hw. }
      unfold fix_tagging in Hw. destruct (_ || _) in Hw; [eauto|injection Hw as <-; auto].
  Qed.

  (* a sequence object with the encoding e that was only read *)
  Definition seen (e : enc) (v : value) : Prop :=
    (exists x, e_contents e = Some x) /\ (e_header e <> None /\ ends_80 (e_header e) = false) /\
    exists t ch nc, v = VSeq t e ch false nc /\ match ch with Some l => calms l /\ missing fs l = false | None => True end.
  (* reading: it stays so *)
  Definition reads (v v' : value) : Prop := step v v' /\ forall e, seen e v -> seen e v'.
  Lemma reads_refl v : reads v v.
  Proof. split; auto using step_refl. Qed.
  Lemma reads_trans u v w : reads u v -> reads v w -> reads u w.
  Proof. intros [A B] [C D]. split; [eapply step_trans; eauto|auto]. Qed.

  Lemma calm_kids t e ch m nc l : calm (VSeq t e ch m nc) -> calms l -> calm (VSeq t e (Some l) m nc).
  Proof. unfold calm, calms. cbn. intros A B. apply orb_false_iff in A as [A _]. now rewrite A, B. Qed.
  Lemma calm_none t e ch m nc : calm (VSeq t e ch m nc) -> calm (VSeq t e None m nc).
  Proof. unfold calm. cbn. intros A. apply orb_false_iff in A as [A _]. now rewrite A. Qed.
  Lemma seen_none t e e' ch m nc nc' : seen e' (VSeq t e ch m nc) -> seen e' (VSeq t e None m nc').
  Proof. intros (A & B & t' & ch' & nc0 & E & H). injection E as -> -> -> -> ->. split; auto. split; auto. exists t', None, nc'. auto. Qed.
  Lemma seen_kids t e e' ch m nc nc' l : seen e' (VSeq t e ch m nc) -> calms l -> missing fs l = false -> seen e' (VSeq t e (Some l) m nc').
  Proof. intros (A & B & t' & ch' & nc0 & E & H). injection E as -> -> -> -> ->. split; auto. split; auto. exists t', (Some l), nc'. auto. Qed.
  Lemma seen_contents t e e' ch m nc : seen e' (VSeq t e ch m nc) -> e_contents e <> None.
  Proof. intros ((x & A) & B & t' & ch' & nc' & E & H). injection E as -> -> -> -> ->. congruence. Qed.

  Lemma flat_reads v : reads v (fst (parse_flat fs is_set v)).
  Proof.
    destruct v as [| |o|t e ch m nc|t e ch m nc|t e k w]; try apply reads_refl. cbn [parse_flat].
    destruct (e_contents e) as [x|] eqn:Ec.
    - destruct (if is_set then _ else _) as [l|y] eqn:El; cbn [fst].
      + apply children_calm in El as [A B]. split; [split; [intros; eapply calm_kids; eauto|discriminate]|]. intros e' S. eapply seen_kids; eauto.
      + split; [split; [intros; eapply calm_none; eauto|discriminate]|]. intros e' S. eapply seen_none; eauto.
    - assert (fs = [] \/ fs <> []) as [E|N] by (destruct fs; [now left|right; discriminate]); [rewrite E; apply reads_refl|].
      assert (E : (match fs with [] => (VSeq t e ch m nc, Ok tt) | _ => match init_children fs with Ok l => (VSeq t e (Some l) m nc, Ok tt) | Err x => (VSeq t e ch m nc, Err x) end end)
         = match init_children fs with Ok l => (VSeq t e (Some l) m nc, Ok tt) | Err x => (VSeq t e ch m nc, Err x) end) by (destruct fs; [contradiction|reflexivity]).
      rewrite E. destruct (init_children fs) as [l|y] eqn:El; cbn [fst]; [|apply reads_refl].
      apply init_calm in El; auto. split; [split; [intros; eapply calm_kids; eauto|discriminate]|]. intros e' S. now apply seen_contents in S.
  Qed.

  Lemma ensure_reads v v' r : ensure fs is_set v = (v', r) -> reads v v' /\ match r with Ok l => exists t e m nc, v' = VSeq t e (Some l) m nc | Err _ => True end.
  Proof.
    intros H. unfold ensure in H. pose proof (flat_reads v) as F.
    destruct v as [| |o|t e [l|] m nc|t e ch m nc|t e k w];
      try (injection H as <- <-; split; [apply reads_refl|eauto 10]; fail);
      destruct (parse_flat fs is_set _) as [v1 x] eqn:E; cbn [fst] in F;
      destruct v1 as [| | |t1 e1 [l1|] m1 nc1| |]; destruct x as [[]|]; injection H as <- <-; split; eauto 10.
  Qed.

  Lemma seq_calms t e l m nc : calm (VSeq t e (Some l) m nc) -> calms l.
  Proof. unfold calm, calms. cbn. intros A. now apply orb_false_iff in A as [_ A]. Qed.
  Lemma seen_seq t e e' l m nc : seen e' (VSeq t e (Some l) m nc) -> calms l /\ missing fs l = false.
  Proof. intros (A & B & t' & ch' & nc0 & E & H). injection E as -> -> <- -> ->. exact H. Qed.

  Lemma kids_reads t e l m nc l' nc' : Forall2 step l l' -> reads (VSeq t e (Some l) m nc) (VSeq t e (Some l') m nc').
  Proof.
    intros H. split.
    - split; [|discriminate]. intros A. apply (calm_kids t e (Some l) m nc'); [exact A|]. eapply steps_calms; eauto. eapply seq_calms; eauto.
    - intros e' S. destruct (seen_seq _ _ _ _ _ _ S) as [A B]. eapply seen_kids; [exact S|eapply steps_calms; eauto|eapply steps_missing; eauto].
  Qed.

  Lemma child_dump_step o f v : still o -> step v (fst (child_dump o f v)).
  Proof. intros S. destruct v; try apply (T_dump o S); apply step_refl. Qed.
  Lemma child_native_step o v : still o -> step v (fst (child_native o v)).
  Proof. intros S. destruct v; try apply (T_native o S); apply step_refl. Qed.

  Lemma build_all_steps : forall l vs vs', Forall kid l -> build_all l vs = Ok vs' -> Forall2 step vs vs'.
  Proof.
    intros l vs. revert l. induction vs as [|v vs IH]; intros l vs' Kl H; cbn [build_all] in H; [injection H as <-; constructor|].
    destruct l as [|fo l].
    - destruct v; try discriminate; apply bind_ok in H as (r & Hr & H); injection H as <-; constructor; eauto using step_refl.
    - inversion Kl as [|? ? K1 K2]; subst. apply bind_ok in H as (v1 & Hv & H). apply bind_ok in H as (r & Hr & H). injection H as <-.
      constructor; [|eauto]. destruct v; try (injection Hv as <-; apply step_refl). apply bind_ok in Hv as (b & Hb & Hv).
      apply built_step in Hb; auto. pose proof (T_parse _ (proj1 K1) true b) as P.
      destruct b; try (injection Hv as <-; exact Hb);
        destruct (x_parse (snd fo) true _) as [b' [[]|]]; try discriminate; injection Hv as <-; eapply step_trans; eauto.
  Qed.

  Lemma parse_reads r v : reads v (fst (parse_seq fs is_set r v)).
  Proof.
    unfold parse_seq. pose proof (flat_reads v) as F. destruct (parse_flat fs is_set v) as [v1 x]. cbn [fst] in F.
    destruct v1 as [| | |t e [l|] m nc| |]; auto. destruct x as [[]|]; auto. destruct (_ && _); auto.
    destruct (build_all fs l) as [l'|y] eqn:E; cbn [fst].
    - eapply reads_trans; [exact F|]. apply kids_reads. eapply build_all_steps; eauto.
    - eapply reads_trans; [exact F|]. split; [split; [apply calm_none|discriminate]|]. intros e'. apply seen_none.
  Qed.

  Lemma dump_fields_steps f : forall l vs, Forall kid l -> Forall2 step vs (fst (dump_fields f l vs)).
  Proof.
    induction l as [|fo l IH]; intros vs Kl; cbn [dump_fields]; [apply steps_refl|]. inversion Kl as [|? ? K1 K2]; subst.
    destruct vs as [|v vs]; [constructor|].
    assert (S : step v (fst (match v with
              | VLazy i => if f then match built fo v with Ok b => child_dump (snd fo) f b | Err e => (v, Err e) end
                           else (v, Ok (i_header i ++ i_contents i ++ i_trailer i))
              | _ => child_dump (snd fo) f v end))).
    { destruct v; try (apply child_dump_step, K1). destruct f; [|apply step_refl].
      destruct (built fo (VLazy i)) as [b|y] eqn:E; [|apply step_refl]. apply built_step in E; auto. eapply step_trans; [exact E|]. apply child_dump_step, K1. }
    destruct (match v with VLazy _ => _ | _ => _ end) as [v1 x]. cbn [fst] in S. destruct x as [b|y]; cbn [fst]; [|constructor; auto using steps_refl].
    destruct (is_default fo b) as [dflt|y]; cbn [fst]; [|constructor; auto using steps_refl].
    specialize (IH vs K2). destruct (dump_fields f l vs) as [vr' y]. cbn [fst] in *. constructor; auto.
  Qed.
  Lemma dump_members_steps f : forall vs l, Forall kid l -> Forall2 step vs (fst (dump_members f l vs)).
  Proof.
    induction vs as [|v vs IH]; intros l Kl; destruct l as [|fo l]; cbn [dump_members]; try apply steps_refl.
    inversion Kl as [|? ? K1 K2]; subst.
    assert (S : step v (fst (match v with VLazy _ => (v, Err AttributeError) | _ => child_dump (snd fo) f v end))).
    { destruct v; try (apply child_dump_step, K1). apply step_refl. }
    destruct (match v with VLazy _ => _ | _ => _ end) as [v1 x]. cbn [fst] in S. destruct x as [b|y]; cbn [fst]; [|constructor; auto using steps_refl].
    destruct (is_default fo b) as [dflt|y]; cbn [fst]; [|constructor; auto using steps_refl].
    specialize (IH l K2). destruct (dump_members f l vs) as [vr' y]. cbn [fst] in *. constructor; auto.
  Qed.

  Lemma set_contents_step f v : step v (fst (set_contents_seq fs is_set f v)).
  Proof.
    unfold set_contents_seq. destruct (ensure fs is_set v) as [v1 r] eqn:E. apply ensure_reads in E as [[R _] H]. destruct r as [l|y].
    2:{ destruct v1; exact R. }
    destruct H as (t & e & m & nc & ->).
    assert (S : Forall2 step l (fst (if is_set then let '(l', y) := dump_members f fs l in (l', do ms <- y; sort_members ms) else dump_fields f fs l))).
    { destruct is_set; [|now apply dump_fields_steps]. pose proof (dump_members_steps f l fs K) as D. destruct (dump_members f fs l). exact D. }
    destruct (if is_set then _ else _) as [l' x]. cbn [fst] in S. eapply step_trans; [exact R|]. destruct x; cbn [fst].
    - split; [|discriminate]. intros A. apply seq_calms in A. unfold calm. cbn. eapply steps_calms; eauto.
    - apply (kids_reads t e l m nc l' nc S).
  Qed.

  Lemma contents_reads v : reads v (fst (contents_seq fs is_set v)).
  Proof.
    destruct v as [| |o|t e [l|] m nc|t e ch m nc|t e k w]; try apply reads_refl. unfold contents_seq.
    destruct (mutated _) eqn:M; [|apply reads_refl]. pose proof (set_contents_step false (VSeq t e (Some l) m nc)) as [_ S].
    assert (A : reads (VSeq t e (Some l) m nc) (fst (set_contents_seq fs is_set false (VSeq t e (Some l) m nc)))).
    { split; [split; [|exact S]; intros A; unfold calm in A; congruence|]. intros e' Se. exfalso.
      pose proof (seen_seq _ _ _ _ _ _ Se) as [A _]. destruct Se as (_ & _ & t' & ch' & nc' & E & _). injection E as -> -> <- -> ->.
      unfold calms in A. cbn in M. congruence. }
    destruct (set_contents_seq fs is_set false _) as [v' [[]|]]; destruct v'; exact A.
  Qed.

  Lemma dump_step f v : step v (fst (dump_seq fs is_set f v)).
  Proof.
    destruct v as [| |o|t e ch m nc|t e ch m nc|t e k w]; try apply step_refl. unfold dump_seq.
    set (f' := (f || ends_80 (e_header e)) && _).
    assert (S : step (VSeq t e ch m nc) (fst (if f' then set_contents_seq fs is_set f' (VSeq t e ch m nc) else (VSeq t e ch m nc, Ok tt)))).
    { destruct f'; [apply set_contents_step|apply step_refl]. }
    destruct (if f' then _ else _) as [v1 x]. cbn [fst] in S. destruct x as [u|y]; [|exact S].
    destruct v1 as [| | |t1 e1 [l1|] m1 nc1| |]; try exact S.
    - destruct (missing fs l1); [exact S|]. pose proof (contents_reads (VSeq t1 e1 (Some l1) m1 nc1)) as [C _].
      destruct (contents_seq fs is_set _) as [v2 r]. cbn [fst] in C. pose proof (step_trans _ _ _ S C) as SC.
      destruct v2 as [| | |t2 e2 ch2 m2 nc2| |]; destruct r as [b|y]; try exact SC. destruct (finish_dump t2 e2 b) as [e3 r3]. split; [exact (proj1 SC)|discriminate].
    - destruct (finish_dump t1 e1 (e_contents e1)) as [e3 r3]. split; [exact (proj1 S)|discriminate].
  Qed.
  Lemma finish_seen t e : (exists x, e_contents e = Some x) -> e_header e <> None -> ends_80 (e_header e) = false ->
    exists b, finish_dump t e (e_contents e) = (e, Ok b).
  Proof.
    intros (x & Ec) Nh E8. unfold finish_dump. rewrite Ec, E8. destruct (e_header e) as [h|] eqn:Eh; [|contradiction]. eauto.
  Qed.
  Lemma seen_dump e v : seen e v -> exists h x, e_header e = Some h /\ e_contents e = Some x /\ dump_seq fs is_set false v = (v, Ok (h ++ x ++ e_trailer e)).
  Proof.
    intros ((x & Ec) & (Nh & E8) & t & ch & nc & -> & H). destruct (e_header e) as [h|] eqn:Eh; [|contradiction]. exists h, x. split; auto. split; auto.
    cbn [dump_seq]. rewrite Eh, E8. cbn [orb andb]. rewrite <- Eh in E8. pose proof (finish_keep t e x Ec E8 h Eh) as Fi. destruct ch as [l|]; [|now rewrite Fi].
    destruct H as [A B]. rewrite B. cbn [contents_seq mutated orb]. unfold calms in A. rewrite A. now rewrite Fi.
  Qed.
  Lemma dump_reads v : reads v (fst (dump_seq fs is_set false v)).
  Proof.
    split; [apply dump_step|]. intros e S. destruct (seen_dump e v S) as (h & x & _ & _ & E). rewrite E. exact S.
  Qed.

  Lemma natives_steps : forall l n vs, Forall kid l -> Forall2 step vs (fst (fst (natives n l vs))).
  Proof.
    intros l n vs. revert l n. induction vs as [|v vs IH]; intros l n Kl; destruct l as [|fo l]; cbn [natives]; try apply steps_refl.
    inversion Kl as [|? ? K1 K2]; subst. destruct (built fo v) as [b|y] eqn:E; [|apply steps_refl]. apply built_step in E; auto.
    pose proof (child_native_step (snd fo) b (proj1 K1)) as S. destruct (child_native (snd fo) b) as [v1 [a|y]]; cbn [fst] in S.
    - specialize (IH l (Datatypes.S n) K2). destruct (natives (Datatypes.S n) l vs) as [[vr' ns] x]. cbn [fst] in *. constructor; auto. eapply step_trans; eauto.
    - cbn [fst]. constructor; [eapply step_trans; eauto|apply steps_refl].
  Qed.

  Lemma native_reads v : reads v (fst (native_seq fs is_set v)).
  Proof.
    unfold native_seq. pose proof (contents_reads v) as C. destruct (contents_seq fs is_set v) as [v1 r]. cbn [fst] in C.
    destruct r as [[x|]|y]; try exact C. destruct v1 as [| | |t e ch m [nc|]| |]; try exact C.
    assert (P : reads v (fst (match ch with None => parse_seq fs is_set true (VSeq t e ch m None) | Some _ => (VSeq t e ch m None, Ok tt) end))).
    { destruct ch; [exact C|]. eapply reads_trans; [exact C|]. apply parse_reads. }
    destruct (match ch with None => _ | _ => _ end) as [v2 x2]. cbn [fst] in P.
    destruct v2 as [| | |t2 e2 [l|] m2 nc2| |]; destruct x2 as [u|y]; try exact P.
    pose proof (natives_steps fs 0 l K) as N. destruct (natives 0 fs l) as [[l' ns] y]. cbn [fst] in N.
    destruct y as [u'|z]; cbn [fst]; (eapply reads_trans; [exact P|]); now apply kids_reads.
  Qed.

  Lemma get_reads i v : reads v (fst (get_seq fs is_set i v)).
  Proof.
    unfold get_seq. destruct (ensure fs is_set v) as [v1 r] eqn:E. apply ensure_reads in E as [R H]. destruct r as [l|y]; [|destruct v1; exact R].
    destruct H as (t & e & m & nc & ->). destruct (nth_error l i) as [x|] eqn:El; [|exact R]. destruct (nth_error fs i) as [fo|] eqn:Ef.
    - assert (K1 : kid fo) by (rewrite Forall_forall in K; apply K; eapply nth_error_In; eauto).
      destruct (built fo x) as [b|y] eqn:Eb; [|destruct x; exact R]. apply built_step in Eb; auto.
      assert (G : reads v (VSeq t e (Some (update l i b)) m nc)) by (eapply reads_trans; [exact R|]; apply kids_reads; eapply steps_update; eauto).
      destruct x; exact G.
    - destruct x; exact R.
  Qed.
  Lemma len_reads v : reads v (fst (len_seq fs is_set v)).
  Proof. unfold len_seq. destruct (ensure fs is_set v) as [v1 r] eqn:E. apply ensure_reads in E as [R H]. destruct r; exact R. Qed.

  Lemma seq_still : still (seq_ops c fs is_set).
  Proof.
    split; intros; try apply contents_reads; try apply dump_step; try apply parse_reads; try apply native_reads; try apply get_reads; try apply len_reads.
    cbn [seq_ops x_build] in H. unfold build_seq, build_with in H.
    assert (P : forall p j w, plain_seq c fs is_set None p j = Ok w -> calm w /\ exists t e, w = VSeq t e None false None).
    { clear. intros p j w H. unfold plain_seq in H. apply bind_ok in H as (t & _ & H). cbn [bind] in H. destruct (check_tags c t j); [|discriminate].
      injection H as <-. split; [reflexivity|eauto]. }
    destruct (has_explicit c p).
    - apply bind_ok in H as (? & _ & H). apply bind_ok in H as (t & _ & H). apply bind_ok in H as ([[j hd] tl] & _ & H). cbn [p_no_explicit] in H.
      apply bind_ok in H as (w & Hw & H). apply P in Hw as (_ & t' & e & ->). injection H as <-. split; [reflexivity|discriminate].
    - assert (H' : plain_seq c fs is_set None p i = Ok v) by (destruct (p_no_explicit p); exact H).
      apply P in H' as (A & t & e & ->). split; [exact A|discriminate].
  Qed.
End Fields.

Section Elements.
  Variable c : pcls.
  Variable o : ops.
  Variable ex : list (Z * Z).
  Variable sorted : bool.
  Hypothesis S : still o.

  Definition seen_list (e : enc) (v : value) : Prop :=
    (exists x, e_contents e = Some x) /\ (e_header e <> None /\ ends_80 (e_header e) = false) /\
    exists t ch nc, v = VList t e ch false nc /\ match ch with Some l => calms l | None => True end.
  Definition reads_list (v v' : value) : Prop := step v v' /\ forall e, seen_list e v -> seen_list e v'.
  Lemma lreads_refl v : reads_list v v.
  Proof. split; auto using step_refl. Qed.
  Lemma lreads_trans u v w : reads_list u v -> reads_list v w -> reads_list u w.
  Proof. intros [A B] [C D]. split; [eapply step_trans; eauto|auto]. Qed.

  Lemma lkids_reads t e ch m nc l' nc' : match ch with Some l => Forall2 step l l' | None => calms l' end ->
    reads_list (VList t e ch m nc) (VList t e (Some l') m nc').
  Proof.
    intros H. assert (L : match ch with Some l => calms l | None => True end -> calms l') by (destruct ch; auto; now apply steps_calms). split.
    - split; [|discriminate]. unfold calm. cbn. intros A. apply orb_false_iff in A as [-> A]. cbn. apply L. destruct ch; auto.
    - intros e' (A & B & t1 & ch1 & nc1 & E & C). injection E as <- <- <- -> <-. split; auto. split; auto. exists t, (Some l'), nc'. auto.
  Qed.
  Lemma lnone_reads t e ch m nc nc' : reads_list (VList t e ch m nc) (VList t e None m nc').
  Proof.
    split; [split; [|discriminate]|].
    - unfold calm. cbn. intros A. apply orb_false_iff in A as [-> _]. reflexivity.
    - intros e' (A & B & t1 & ch1 & nc1 & E & C). injection E as <- <- <- -> <-. split; auto. split; auto. exists t, None, nc'. auto.
  Qed.

  Lemma built_elt_step v b : built_elt o v = Ok b -> step v b.
  Proof.
    intros H. destruct v; try (injection H as <-; apply step_refl). cbn in H. apply (T_build _ S) in H as [A B]. split; auto. intros ->. now destruct B.
  Qed.
  Lemma list_loop_calm : forall n x ptr l, list_loop n x ptr = Ok l -> calms l.
  Proof.
    induction n as [|n IH]; intros x ptr l H; cbn [list_loop] in H; [discriminate|]. destruct (ptr <? len x); [|injection H as <-; reflexivity].
    apply bind_ok in H as ([i ptr'] & _ & H). apply bind_ok in H as (vs & Hs & H). injection H as <-. apply calms_cons. split; [reflexivity|eauto].
  Qed.
  Lemma lflat_reads v : reads_list v (fst (list_flat v)).
  Proof.
    destruct v as [| |ob|t e ch m nc|t e ch m nc|t e k w]; try apply lreads_refl. cbn [list_flat].
    destruct (match e_contents e with None => _ | _ => _ end) as [l|y] eqn:El; cbn [fst]; [|apply lnone_reads].
    assert (C : calms l) by (destruct (e_contents e); [eapply list_loop_calm; eauto|injection El as <-; reflexivity]).
    eapply lreads_trans; [apply (lnone_reads t e ch m nc nc)|]. now apply (lkids_reads t e None).
  Qed.
  Lemma lensure_reads v v' r : ensure_list v = (v', r) -> reads_list v v' /\ match r with Ok l => exists t e m nc, v' = VList t e (Some l) m nc | Err _ => True end.
  Proof.
    intros H. unfold ensure_list in H. pose proof (lflat_reads v) as F.
    destruct v as [| |ob|t e ch m nc|t e [l|] m nc|t e k w];
      try (injection H as <- <-; split; [apply lreads_refl|eauto 10]; fail);
      destruct (list_flat _) as [v1 x] eqn:E; cbn [fst] in F;
      destruct v1 as [| | | |t1 e1 [l1|] m1 nc1|]; destruct x as [[]|]; injection H as <- <-; split; eauto 10.
  Qed.
  Lemma build_elts_steps : forall vs vs', build_elts o vs = Ok vs' -> Forall2 step vs vs'.
  Proof.
    induction vs as [|v vs IH]; intros vs' H; cbn [build_elts] in H; [injection H as <-; constructor|].
    apply bind_ok in H as (v1 & Hv & H). apply bind_ok in H as (r & Hr & H). injection H as <-.
    constructor; [|eauto]. destruct v; try (injection Hv as <-; apply step_refl). apply bind_ok in Hv as (b & Hb & Hv).
    apply built_elt_step in Hb; auto. pose proof (T_parse _ S true b) as P.
    destruct b; try (injection Hv as <-; exact Hb);
      destruct (x_parse o true _) as [b' [[]|]]; try discriminate; injection Hv as <-; eapply step_trans; eauto.
  Qed.
  Lemma lparse_reads r v : reads_list v (fst (parse_list o r v)).
  Proof.
    unfold parse_list. pose proof (lflat_reads v) as F. destruct (list_flat v) as [v1 x]. cbn [fst] in F.
    destruct v1 as [| | | |t e [l|] m nc|]; auto. destruct x as [[]|]; auto. destruct r; auto.
    destruct (build_elts o l) as [l'|y] eqn:E; cbn [fst]; (eapply lreads_trans; [exact F|]).
    - apply (lkids_reads t e (Some l)). now apply build_elts_steps.
    - apply lnone_reads.
  Qed.
  Lemma dump_elts_steps f : forall vs, Forall2 step vs (fst (dump_elts o f vs)).
  Proof.
    induction vs as [|v vs IH]; cbn [dump_elts]; [constructor|]. destruct (built_elt o v) as [b|y] eqn:E; [|apply steps_refl].
    apply built_elt_step in E. pose proof (T_dump _ S f b) as D. destruct (x_dump o f b) as [v1 [d|y]]; cbn [fst] in D.
    - destruct (dump_elts o f vs) as [r' y]. cbn [fst] in *. constructor; auto. eapply step_trans; eauto.
    - cbn [fst]. constructor; [eapply step_trans; eauto|apply steps_refl].
  Qed.
  Lemma lset_contents_step f v : step v (fst (set_contents_list o sorted f v)).
  Proof.
    unfold set_contents_list. destruct (ensure_list v) as [v1 r] eqn:E. apply lensure_reads in E as [[R _] H]. destruct r as [l|y].
    2:{ destruct v1; exact R. }
    destruct H as (t & e & m & nc & ->). pose proof (dump_elts_steps f l) as D. destruct (dump_elts o f l) as [l' x]. cbn [fst] in D.
    eapply step_trans; [exact R|]. destruct x; cbn [fst].
    - split; [|discriminate]. unfold calm. cbn. intros A. apply orb_false_iff in A as [_ A]. eapply steps_calms; eauto.
    - apply (lkids_reads t e (Some l) m nc l' nc D).
  Qed.
  Lemma lcontents_reads v : reads_list v (fst (contents_list o sorted v)).
  Proof.
    destruct v as [| |ob|t e ch m nc|t e [l|] m nc|t e k w]; try apply lreads_refl. unfold contents_list.
    destruct (mutated _) eqn:M; [|apply lreads_refl]. pose proof (lset_contents_step false (VList t e (Some l) m nc)) as [_ V].
    assert (A : reads_list (VList t e (Some l) m nc) (fst (set_contents_list o sorted false (VList t e (Some l) m nc)))).
    { split; [split; [|exact V]; intros A; unfold calm in A; congruence|]. intros e' (_ & _ & t' & ch' & nc' & E & A). exfalso. injection E as -> -> <- -> ->.
      unfold calms in A. cbn in M. congruence. }
    destruct (set_contents_list o sorted false _) as [v' [[]|]]; destruct v'; exact A.
  Qed.
  Lemma ldump_step f v : step v (fst (dump_list o sorted f v)).
  Proof.
    destruct v as [| |ob|t e ch m nc|t e ch m nc|t e k w]; try apply step_refl. unfold dump_list.
    assert (V : step (VList t e ch m nc) (fst (if f || ends_80 (e_header e) then set_contents_list o sorted true (VList t e ch m nc) else (VList t e ch m nc, Ok tt)))).
    { destruct (_ || _); [apply lset_contents_step|apply step_refl]. }
    destruct (if f || _ then _ else _) as [v1 x]. cbn [fst] in V. destruct x as [u|y]; [|exact V].
    pose proof (lcontents_reads v1) as [C _].
    destruct (contents_list o sorted v1) as [v2 r]. cbn [fst] in C. pose proof (step_trans _ _ _ V C) as SC.
    destruct v2 as [| | | |t2 e2 ch2 m2 nc2|]; destruct r as [b|y]; try exact SC. destruct (finish_dump t2 e2 b) as [e3 r3]. split; [exact (proj1 SC)|discriminate].
  Qed.
  Lemma seen_list_dump e v : seen_list e v -> exists h x, e_header e = Some h /\ e_contents e = Some x /\ dump_list o sorted false v = (v, Ok (h ++ x ++ e_trailer e)).
  Proof.
    intros ((x & Ec) & (Nh & E8) & t & ch & nc & -> & H). destruct (e_header e) as [h|] eqn:Eh; [|contradiction]. exists h, x. split; auto. split; auto.
    cbn [dump_list]. rewrite Eh, E8. cbn [orb]. rewrite <- Eh in E8. pose proof (finish_keep t e x Ec E8 h Eh) as Fi. destruct ch as [l|]; cbn [contents_list]; [|now rewrite Fi].
    cbn [mutated orb]. unfold calms in H. rewrite H. now rewrite Fi.
  Qed.
  Lemma ldump_reads v : reads_list v (fst (dump_list o sorted false v)).
  Proof.
    split; [apply ldump_step|]. intros e V. destruct (seen_list_dump e v V) as (h & x & _ & _ & E). rewrite E. exact V.
  Qed.
  Lemma natives_list_steps : forall vs n, Forall2 step vs (fst (fst (natives_list o n vs))).
  Proof.
    induction vs as [|v vs IH]; intros n; cbn [natives_list]; [constructor|]. destruct (built_elt o v) as [b|y] eqn:E; [|apply steps_refl]. apply built_elt_step in E; auto.
    pose proof (T_native _ S b) as V. destruct (x_native o b) as [v1 [a|y]]; cbn [fst] in V.
    - specialize (IH (Datatypes.S n)). destruct (natives_list o (Datatypes.S n) vs) as [[vr' ns] x]. cbn [fst] in *. constructor; auto. eapply step_trans; eauto.
    - cbn [fst]. constructor; [eapply step_trans; eauto|apply steps_refl].
  Qed.
  Lemma lnative_reads v : reads_list v (fst (native_list o sorted v)).
  Proof.
    unfold native_list. pose proof (lcontents_reads v) as C. destruct (contents_list o sorted v) as [v1 r]. cbn [fst] in C.
    destruct r as [[x|]|y]; try exact C. destruct v1 as [| | | |t e ch m [nc|]|]; try exact C.
    assert (P : reads_list v (fst (match ch with None => parse_list o true (VList t e ch m None) | Some _ => (VList t e ch m None, Ok tt) end))).
    { destruct ch; [exact C|]. eapply lreads_trans; [exact C|]. apply lparse_reads. }
    destruct (match ch with None => _ | _ => _ end) as [v2 x2]. cbn [fst] in P.
    destruct v2 as [| | | |t2 e2 [l|] m2 nc2|]; destruct x2 as [u|y]; try exact P.
    pose proof (natives_list_steps l 0) as N. destruct (natives_list o 0 l) as [[l' ns] y]. cbn [fst] in N.
    destruct y as [u'|z]; cbn [fst]; (eapply lreads_trans; [exact P|]); now apply (lkids_reads t2 e2 (Some l)).
  Qed.
  Lemma lget_reads i v : reads_list v (fst (get_list o i v)).
  Proof.
    unfold get_list. destruct (ensure_list v) as [v1 r] eqn:E. apply lensure_reads in E as [R H]. destruct r as [l|y]; [|destruct v1; exact R].
    destruct H as (t & e & m & nc & ->). destruct (nth_error l i) as [x|] eqn:El; [|exact R].
    destruct (built_elt o x) as [b|y] eqn:Eb; [|exact R]. apply built_elt_step in Eb; auto.
    eapply lreads_trans; [exact R|]; apply (lkids_reads t e (Some l)); eapply steps_update; eauto.
  Qed.
  Lemma llen_reads v : reads_list v (fst (len_list v)).
  Proof. unfold len_list. destruct (ensure_list v) as [v1 r] eqn:E. apply lensure_reads in E as [R H]. destruct r; exact R. Qed.

  Lemma list_still : still (list_ops c o ex sorted).
  Proof.
    split; intros; try apply lcontents_reads; try apply ldump_step; try apply lparse_reads; try apply lnative_reads; try apply lget_reads; try apply llen_reads.
    cbn [list_ops x_build] in H. unfold build_list, build_with in H.
    assert (P : forall p j w, plain_list c p j = Ok w -> calm w /\ exists t e, w = VList t e None false None).
    { clear. intros p j w H. unfold plain_list in H. apply bind_ok in H as (t & _ & H). cbn [bind] in H. destruct (check_tags c t j); [|discriminate].
      injection H as <-. split; [reflexivity|eauto]. }
    destruct (has_explicit c p).
    - apply bind_ok in H as (? & _ & H). apply bind_ok in H as (t & _ & H). apply bind_ok in H as ([[j hd] tl] & _ & H).
      apply bind_ok in H as (w & Hw & H). apply P in Hw as (_ & t' & e & ->). injection H as <-. split; [reflexivity|discriminate].
    - apply P in H as (A & t & e & ->). split; [exact A|discriminate].
  Qed.
End Elements.

(* ---- choices and primitives tell nothing of changes inside them ---- *)
Definition plain_obj (v : value) : bool := match v with VPrim _ | VChoice _ _ _ _ => true | _ => false end.
Lemma plain_step v v' : (plain_obj v = true -> plain_obj v' = true) -> (plain_obj v = false -> v' = v) -> step v v'.
Proof.
  intros A B. destruct (plain_obj v) eqn:E; [|rewrite B; auto using step_refl]. specialize (A eq_refl).
  split; [destruct v'; try discriminate; reflexivity|]. intros ->. discriminate.
Qed.

Lemma prim_still k c : still (prim_ops k c).
Proof.
  assert (O : forall A (f : obj -> obj * res A) v, step v (fst (on_prim f v))).
  { intros A f v. destruct v; try apply step_refl. cbn. destruct (f o). split; [reflexivity|discriminate]. }
  split; intros; try apply O; try apply step_refl. cbn [prim_ops x_build] in H. apply bind_ok in H as (o & _ & H). injection H as <-. split; [reflexivity|discriminate].
Qed.
Lemma prim_kid f k c : kid (f, prim_ops k c).
Proof.
  split; [apply prim_still|]. cbn [fst snd]. destruct (f_pres f); auto. split; [|split].
  - intros p dflt a v H. cbn [prim_ops x_make] in H. unfold make_prim in H.
    assert (G : forall r : res obj, (do o <- r; Ok (VPrim o)) = Ok v -> calm v /\ v <> VVoid).
    { intros r G. apply bind_ok in G as (o & _ & G). injection G as <-. split; [reflexivity|discriminate]. }
    destruct (match a, dflt with ANone, Some d => d | _, _ => a end); try exact (G _ H); destruct k; try discriminate; exact (G _ H).
  - intros p v v' H. cbn [prim_ops x_retag] in H. destruct v; try discriminate. apply bind_ok in H as (o' & _ & H). injection H as <-. reflexivity.
  - intros p dflt i v H. cbn [prim_ops x_build] in H. apply bind_ok in H as (o & _ & H). injection H as <-. split; [reflexivity|discriminate].
Qed.

Lemma choice_still ex alts : still (choice_ops ex alts).
Proof.
  assert (P : forall v, (plain_obj v = true -> plain_obj (fst (parse_choice alts v)) = true) /\ (plain_obj v = false -> fst (parse_choice alts v) = v)).
  { intros v. destruct v as [| | | | |t e [k|] [w|]]; split; auto; try discriminate. intros _. cbn [parse_choice].
    destruct (nth_error alts k) as [[f o]|]; auto. destruct (e_contents e); auto. destruct (bind _ _); reflexivity. }
  assert (W : forall g v, (plain_obj v = true -> plain_obj (fst (choice_with alts g v)) = true) /\ (plain_obj v = false -> fst (choice_with alts g v) = v)).
  { intros g v. unfold choice_with. destruct (P v) as [P1 P2]. destruct (parse_choice alts v) as [v1 x] eqn:E. cbn [fst] in *. split.
    - intros H. specialize (P1 H). destruct v1 as [| | | | |t e [k|] [w|]]; try discriminate; destruct x as [[]|]; auto. destruct (nth_error alts k) as [[f o]|]; auto. destruct (g o w). reflexivity.
    - intros H. specialize (P2 H). subst v1. destruct v as [| | | | |t e [k|] [w|]]; try discriminate; destruct x as [[]|]; auto. }
  split; intros; cbn [choice_ops x_build x_contents x_dump x_parse x_native x_get x_len fst]; try apply step_refl.
  - cbn [choice_ops x_build] in H.
    assert (Q : forall p j w, plain_choice ex alts p j = Ok w -> exists t e k x, w = VChoice t e k x).
    { clear. intros p j w H. unfold plain_choice in H. apply bind_ok in H as (t & _ & H). apply bind_ok in H as (k & _ & H).
      cbn [parse_choice] in H. destruct (nth_error alts k) as [[f o]|]; [|discriminate]. cbn [e_contents] in H. destruct (bind _ _) in H; [|discriminate]. injection H as <-. cbn. eauto 10. }
    unfold build_choice in H. destruct (has_explicit (choice_cls ex) p).
    + apply bind_ok in H as (? & _ & H). apply bind_ok in H as (t & _ & H). apply bind_ok in H as ([[j hd] tl] & _ & H). apply bind_ok in H as (w & Hw & H).
      apply Q in Hw as (t' & e & k & x' & ->). injection H as <-. split; [reflexivity|discriminate].
    + apply Q in H as (t' & e & k & x' & ->). split; [reflexivity|discriminate].
  - apply plain_step; destruct v as [| | | | |t e [k|] [w|]]; auto; try discriminate. intros _. cbn [contents_choice]. destruct (nth_error alts k) as [[f o]|]; auto. destruct (x_contents o w). reflexivity.
  - apply plain_step; destruct v as [| | | | |t e k w]; auto; try discriminate. intros _. unfold dump_choice.
    destruct (W (fun o w => x_dump o (f || ends_80 (e_header e)) w) (VChoice t e k w)) as [A _]. specialize (A eq_refl).
    destruct (choice_with alts _ _) as [v1 x]. cbn [fst] in A. destruct v1; try discriminate; destruct x; auto.
  - unfold native_choice. destruct (P v) as [P1 P2]. destruct (parse_choice alts v) as [v1 x] eqn:E. cbn [fst] in *. apply plain_step.
    + intros H. specialize (P1 H). destruct v1 as [| | | | |t e [k|] [w|]]; try discriminate; destruct x as [[]|]; auto. destruct (nth_error alts k) as [[f o]|]; auto. destruct (x_native o w). reflexivity.
    + intros H. specialize (P2 H). subst v1. destruct v as [| | | | |t e [k|] [w|]]; try discriminate; destruct x as [[]|]; auto.
  - apply plain_step; apply P.
Qed.

Lemma all_still s : flat_defaults s = true -> still (methods s).
Proof.
  assert (F : forall fs, Forall (fun f : fld * spec => flat_defaults (snd f) = true -> still (methods (snd f))) fs ->
    forallb (fun f => flat_defaults (snd f) && match f_pres (fst f), snd f with Default _, SPrim _ _ => true | Default _, _ => false | _, _ => true end) fs = true ->
    Forall kid (map (fun f => (fst f, methods (snd f))) fs)).
  { induction 1 as [|[f s'] fs H _ IH]; cbn [forallb map]; intros E; constructor; apply andb_prop in E as [E E']; auto. cbn [fst snd] in *.
    apply andb_prop in E as [E D]. destruct (f_pres f) eqn:Ep; [split; [auto|cbn; now rewrite Ep]|split; [auto|cbn; now rewrite Ep]|].
    destruct s'; try discriminate. apply prim_kid. }
  induction s as [k c|c fs IH|c fs IH|c s IH|c s IH|ex alts IH] using spec_rect'; cbn [flat_defaults methods]; intros H.
  - apply prim_still.
  - apply seq_still. auto.
  - apply seq_still. auto.
  - apply list_still. auto.
  - apply list_still. auto.
  - apply choice_still.
Qed.

(* ---- programs that only read ---- *)
(* reading, the object itself not with dump(force=True); a choice is as good as what it holds *)
Definition looks (x : act) : bool := reading x && match x with ADump true => false | _ => true end.
Fixpoint quiet (s : spec) (p : list nat) (x : act) {struct s} : bool :=
  match p with
  | [] => looks x
  | _ :: r => match s with SChoice _ alts => forallb (fun f => quiet (snd f) r x) alts | _ => reading x end
  end.

Lemma perform_step s x v : flat_defaults s = true -> reading x = true -> step v (fst (perform s x v)).
Proof.
  intros F R. pose proof (all_still s F) as S. unfold perform, reply.
  destruct v; try apply step_refl; destruct x; try discriminate; cbn [fst];
    first [apply (T_native _ S)|apply (T_dump _ S)|apply (T_contents _ S)|apply (T_len _ S)|apply (T_get _ S)].
Qed.

Lemma inner_flat s i v s' w : flat_defaults s = true -> inner s i v = Some (s', w) -> flat_defaults s' = true.
Proof.
  intros F H.
  destruct s as [k c|c fs|c fs|c s0|c s0|ex alts]; cbn [inner] in H; try discriminate; destruct v as [| | |t e [l|] m nc|t e [l|] m nc|t e [k|] [u|]]; try discriminate; cbn [flat_defaults] in F.
  1, 2: destruct (nth_error fs i) as [f|] eqn:Ef; [|discriminate]; destruct (nth_error l i); [|discriminate]; injection H as <- _;
        rewrite forallb_forall in F; specialize (F f (nth_error_In _ _ Ef)); now apply andb_prop in F as [F _].
  1, 2: destruct (nth_error l i); [|discriminate]; injection H as <- _; auto.
  destruct (nth_error alts k) as [f|] eqn:Ef; [|discriminate]. injection H as <- _. rewrite forallb_forall in F. exact (F f (nth_error_In _ _ Ef)).
Qed.

Lemma put_step s i v s' w w' : inner s i v = Some (s', w) -> step w w' -> step v (put_inner i w' v).
Proof.
  intros H S. destruct s as [k c|c fs|c fs|c s0|c s0|ex alts]; cbn [inner] in H; try discriminate; destruct v as [| | |t e [l|] m nc|t e [l|] m nc|t e [k|] [u|]]; try discriminate; cbn [put_inner].
  1, 2: destruct (nth_error fs i) as [f|] eqn:Ef; [|discriminate]; destruct (nth_error l i) as [y|] eqn:El; [|discriminate]; injection H as _ <-;
        exact (proj1 (kids_reads (map (fun f => (fst f, methods (snd f))) fs) t e l m nc _ nc (steps_update l i y w' El S))).
  1, 2: destruct (nth_error l i) as [y|] eqn:El; [|discriminate]; injection H as _ <-; exact (proj1 (lkids_reads t e (Some l) m nc _ nc (steps_update l i y w' El S))).
  split; [reflexivity|discriminate].
Qed.

Lemma through_step : forall p s x v, flat_defaults s = true -> reading x = true -> step v (fst (through p x s v)).
Proof.
  induction p as [|i p IH]; intros s x v F R; cbn [through]; [now apply perform_step|].
  pose proof (T_get _ (all_still s F) i v) as G.
  assert (E : step v (fst (match x_get (methods s) i v with
          | (v1, Err y) => (v1, Err y)
          | (v1, Ok tt) => match inner s i v1 with
              | Some (s', w) => let '(w', y) := through p x s' w in (put_inner i w' v1, y)
              | None => (v1, Err TypeError)
              end
          end))).
  { destruct (x_get (methods s) i v) as [v1 [[]|y]]; cbn [fst] in G; [|exact G]. destruct (inner s i v1) as [[s' w]|] eqn:Ei; [|exact G].
    pose proof (IH s' x w (inner_flat _ _ _ _ _ F Ei) R) as S. destruct (through p x s' w) as [w' y]. cbn [fst] in *.
    eapply step_trans; [exact G|]. eapply put_step; eauto. }
  destruct v; try exact E. apply step_refl.
Qed.

Definition prim_seen (o : obj) (d : bytes) : Prop :=
  exists h x, e_header (o_enc o) = Some h /\ e_contents (o_enc o) = Some x /\ ends_80 (Some h) = false /\ d = h ++ x ++ e_trailer (o_enc o).
Definition bytes_of (e : enc) : bytes :=
  match e_header e, e_contents e with Some h, Some x => h ++ x ++ e_trailer e | _, _ => [] end.

(* the object holds these octets *)
Inductive stays : spec -> value -> bytes -> Prop :=
  | St_prim k c o d : prim_seen o d -> stays (SPrim k c) (VPrim o) d
  | St_seq c fs e v : seen (fields fs) e v -> stays (SSeq c fs) v (bytes_of e)
  | St_set c fs e v : seen (fields fs) e v -> stays (SSet c fs) v (bytes_of e)
  | St_seqof c s e v : seen_list e v -> stays (SSeqOf c s) v (bytes_of e)
  | St_setof c s e v : seen_list e v -> stays (SSetOf c s) v (bytes_of e)
  | St_choice ex alts t e k f w h d : nth_error alts k = Some f -> e_header e = Some h -> ends_80 (Some h) = false -> stays (snd f) w d ->
      stays (SChoice ex alts) (VChoice t e (Some k) (Some w)) (h ++ d).

Lemma stays_solid s v d : stays s v d -> v <> VVoid.
Proof. intros H. destruct H; try discriminate; destruct H as (_ & _ & t & ch & nc & -> & _); discriminate. Qed.

Lemma stays_dump s v d : stays s v d -> exists v', x_dump (methods s) false v = (v', Ok d) /\ stays s v' d.
Proof.
  induction 1 as [k c o d H|c fs e v H|c fs e v H|c s e v H|c s e v H|ex alts t e k f w h d Ef Eh E8 H (w' & Ew & IH)].
  - destruct H as (h & x & Eh & Ex & E8 & ->). exists (VPrim o). split; [|constructor; exists h, x; auto]. cbn [methods prim_ops x_dump on_prim]. unfold dump. rewrite Eh, E8. cbn [orb].
    unfold base_dump. rewrite Ex, Eh, E8. reflexivity.
  - destruct (seen_dump (fields fs) false e v H) as (h & x & Eh & Ex & E). exists v. split; [|constructor; auto]. cbn [methods seq_ops x_dump]. change (map _ fs) with (fields fs). rewrite E. unfold bytes_of. now rewrite Eh, Ex.
  - destruct (seen_dump (fields fs) true e v H) as (h & x & Eh & Ex & E). exists v. split; [|constructor; auto]. cbn [methods seq_ops x_dump]. change (map _ fs) with (fields fs). rewrite E. unfold bytes_of. now rewrite Eh, Ex.
  - destruct (seen_list_dump (methods s) false e v H) as (h & x & Eh & Ex & E). exists v. split; [|constructor; auto]. cbn [methods list_ops x_dump]. rewrite E. unfold bytes_of. now rewrite Eh, Ex.
  - destruct (seen_list_dump (methods s) true e v H) as (h & x & Eh & Ex & E). exists v. split; [|constructor; auto]. cbn [methods list_ops x_dump]. rewrite E. unfold bytes_of. now rewrite Eh, Ex.
  - eexists. cbn [methods choice_ops x_dump]. change (map _ alts) with (fields alts). cbn [dump_choice]. rewrite Eh, E8. cbn [orb choice_with parse_choice].
    assert (En : nth_error (fields alts) k = Some (fmeth f)) by (unfold fields; rewrite nth_error_map, Ef; reflexivity).
    rewrite En. unfold fmeth. rewrite Ew. split; [rewrite Eh; reflexivity|]. econstructor; eauto.
Qed.

Lemma kids_of fs : forallb (fun f => flat_defaults (snd f) && match f_pres (fst f), snd f with Default _, SPrim _ _ => true | Default _, _ => false | _, _ => true end) fs = true ->
  Forall kid (fields fs).
Proof.
  intros H. unfold fields. rewrite forallb_forall in H. rewrite Forall_forall. intros fo Hi. apply in_map_iff in Hi as ([f s'] & <- & Hf). specialize (H _ Hf).
  cbn [fst snd] in *. apply andb_prop in H as [F D]. destruct (f_pres f) eqn:Ep; [split; [now apply all_still|cbn; now rewrite Ep]|split; [now apply all_still|cbn; now rewrite Ep]|].
  destruct s'; try discriminate. apply prim_kid.
Qed.

Lemma through_seq s c fs b e v p x : (s = SSeq c fs /\ b = false) \/ (s = SSet c fs /\ b = true) -> flat_defaults s = true -> seen (fields fs) e v ->
  quiet s p x = true -> seen (fields fs) e (fst (through p x s v)).
Proof.
  intros Hs F H Q. assert (Em : methods s = seq_ops c (fields fs) b) by (destruct Hs as [[-> ->]|[-> ->]]; reflexivity).
  assert (K : Forall kid (fields fs)) by (apply kids_of; destruct Hs as [[-> _]|[-> _]]; exact F).
  assert (exists t ch nc, v = VSeq t e ch false nc) as (t & ch & nc & Ev) by (destruct H as (_ & _ & t & ch & nc & -> & _); eauto).
  destruct p as [|i p].
  - assert (L : looks x = true) by (destruct Hs as [[-> _]|[-> _]]; exact Q). cbn [through]. rewrite Ev in H |- *. unfold perform. rewrite Em.
    destruct x as [|[]| | |i|i a|i|a|u]; try discriminate; cbn [reply fst seq_ops x_native x_dump x_contents x_len x_get]; revert H.
    + apply native_reads; auto.
    + apply dump_reads; auto.
    + apply contents_reads; auto.
    + apply len_reads; auto.
    + apply get_reads; auto.
  - assert (R : reading x = true) by (destruct Hs as [[-> _]|[-> _]]; exact Q). cbn [through]. rewrite Ev in H |- *. rewrite Em. cbn [seq_ops x_get].
    pose proof (proj2 (get_reads (fields fs) b K i (VSeq t e ch false nc)) e H) as G. destruct (get_seq (fields fs) b i _) as [v1 [[]|y]]; cbn [fst] in G; [|exact G].
    destruct (inner s i v1) as [[s' w]|] eqn:Ei; [|exact G].
    pose proof (through_step p s' x w (inner_flat _ _ _ _ _ F Ei) R) as S. destruct (through p x s' w) as [w' y]. cbn [fst] in *.
    assert (exists t1 ch1 nc1, v1 = VSeq t1 e ch1 false nc1) as (t1 & ch1 & nc1 & ->) by (destruct G as (_ & _ & t1 & ch1 & nc1 & -> & _); eauto).
    destruct ch1 as [l|]; [|exact G]. cbn [put_inner]. destruct (nth_error l i) as [u|] eqn:El.
    + assert (u = w) as -> by (destruct Hs as [[-> _]|[-> _]]; cbn [inner] in Ei; rewrite El in Ei; destruct (nth_error fs i); try discriminate; injection Ei; auto).
      exact (proj2 (kids_reads (fields fs) t1 e l false nc1 _ nc1 (steps_update l i w w' El S)) e G).
    + exfalso. destruct Hs as [[-> _]|[-> _]]; cbn [inner] in Ei; rewrite El in Ei; destruct (nth_error fs i); discriminate.
Qed.

Lemma through_list s c s0 b e v p x : (s = SSeqOf c s0 /\ b = false) \/ (s = SSetOf c s0 /\ b = true) -> flat_defaults s = true -> seen_list e v ->
  quiet s p x = true -> seen_list e (fst (through p x s v)).
Proof.
  intros Hs F H Q. assert (Em : methods s = list_ops c (methods s0) (class_explicit s0) b) by (destruct Hs as [[-> ->]|[-> ->]]; reflexivity).
  assert (K : still (methods s0)) by (apply all_still; destruct Hs as [[-> _]|[-> _]]; exact F).
  assert (exists t ch nc, v = VList t e ch false nc) as (t & ch & nc & Ev) by (destruct H as (_ & _ & t & ch & nc & -> & _); eauto).
  destruct p as [|i p].
  - assert (L : looks x = true) by (destruct Hs as [[-> _]|[-> _]]; exact Q). cbn [through]. rewrite Ev in H |- *. unfold perform. rewrite Em.
    destruct x as [|[]| | |i|i a|i|a|u]; try discriminate; cbn [reply fst list_ops x_native x_dump x_contents x_len x_get]; revert H.
    + apply lnative_reads; auto.
    + apply ldump_reads; auto.
    + apply lcontents_reads; auto.
    + apply llen_reads; auto.
    + apply lget_reads; auto.
  - assert (R : reading x = true) by (destruct Hs as [[-> _]|[-> _]]; exact Q). cbn [through]. rewrite Ev in H |- *. rewrite Em. cbn [list_ops x_get].
    pose proof (proj2 (lget_reads (methods s0) K i (VList t e ch false nc)) e H) as G. destruct (get_list (methods s0) i _) as [v1 [[]|y]]; cbn [fst] in G; [|exact G].
    destruct (inner s i v1) as [[s' w]|] eqn:Ei; [|exact G].
    pose proof (through_step p s' x w (inner_flat _ _ _ _ _ F Ei) R) as S. destruct (through p x s' w) as [w' y]. cbn [fst] in *.
    assert (exists t1 ch1 nc1, v1 = VList t1 e ch1 false nc1) as (t1 & ch1 & nc1 & ->) by (destruct G as (_ & _ & t1 & ch1 & nc1 & -> & _); eauto).
    destruct ch1 as [l|]; [|exact G]. cbn [put_inner]. destruct (nth_error l i) as [u|] eqn:El.
    + assert (u = w) as -> by (destruct Hs as [[-> _]|[-> _]]; cbn [inner] in Ei; rewrite El in Ei; injection Ei; auto).
      exact (proj2 (lkids_reads t1 e (Some l) false nc1 _ nc1 (steps_update l i w w' El S)) e G).
    + exfalso. destruct Hs as [[-> _]|[-> _]]; cbn [inner] in Ei; rewrite El in Ei; discriminate.
Qed.

Lemma stays_through s v d : stays s v d -> flat_defaults s = true -> forall p x, quiet s p x = true -> stays s (fst (through p x s v)) d.
Proof.
  induction 1 as [k c o d H|c fs e v H|c fs e v H|c s e v H|c s e v H|ex alts t e k f w h d Ef Eh E8 H IH]; intros F p x Q.
  - destruct p as [|i p]; [|cbn; constructor; exact H]. destruct H as (h & y & E1 & E2 & E3 & E4).
    assert (St : forall o', o_enc o' = o_enc o -> stays (SPrim k c) (VPrim o') d) by (intros o' E; constructor; exists h, y; rewrite E; auto).
    cbn [through perform]. destruct x as [|[]| | | | | | |]; try discriminate; cbn [methods prim_ops x_native x_dump x_contents x_len x_get on_prim reply fst]; try (now apply St).
    + pose proof (get_frame k c o y E2) as (_ & Fr & _). destruct (get_native k c o) as [o' r]. cbn [fst snd] in *. now apply St.
    + unfold dump. rewrite E1, E3. cbn [orb]. unfold base_dump. rewrite E2, E1, E3. cbn [fst]. now apply St.
  - constructor. eapply (through_seq _ c fs false); eauto.
  - constructor. eapply (through_seq _ c fs true); eauto.
  - constructor. eapply (through_list _ c s false); eauto.
  - constructor. eapply (through_list _ c s true); eauto.
  - assert (Ff : flat_defaults (snd f) = true) by (cbn [flat_defaults] in F; rewrite forallb_forall in F; apply F; eapply nth_error_In; eauto).
    specialize (IH Ff). assert (En : nth_error (fields alts) k = Some (fmeth f)) by (unfold fields; rewrite nth_error_map, Ef; reflexivity).
    destruct p as [|i p].
    + cbn [through perform]. pose proof (IH [] x) as P. assert (Qx : quiet (snd f) [] x = true) by (destruct (snd f); exact Q). specialize (P Qx).
      cbn [through] in P. unfold perform in P.
      assert (C0 : stays (SChoice ex alts) (VChoice t e (Some k) (Some w)) (h ++ d)) by (econstructor; eauto).
      cbn [methods]. change (map _ alts) with (fields alts).
      destruct x as [|[]| | |i|i a|i|a|u]; try discriminate; cbn [choice_ops reply fst x_native x_dump x_contents x_len x_get parse_choice].
      * unfold native_choice. cbn [parse_choice]. rewrite En. unfold fmeth. 
        assert (P' : stays (snd f) (fst (x_native (methods (snd f)) w)) d) by (pose proof (stays_solid _ _ _ H); destruct w; try exact P; contradiction).
        destruct (x_native (methods (snd f)) w) as [w' r]. cbn [fst snd] in *. econstructor; eauto.
      * destruct (stays_dump _ _ _ H) as (w' & Ew & Hw). cbn [dump_choice]. rewrite Eh, E8. cbn [orb choice_with parse_choice]. rewrite En. unfold fmeth. rewrite Ew, Eh. cbn [fst].
        eapply St_choice; eauto.
      * cbn [contents_choice]. rewrite En. unfold fmeth.
        assert (P' : stays (snd f) (fst (x_contents (methods (snd f)) w)) d) by (pose proof (stays_solid _ _ _ H); destruct w; try exact P; contradiction).
        destruct (x_contents (methods (snd f)) w) as [w' r]. cbn [fst snd] in *. econstructor; eauto.
      * exact C0.
      * exact C0.
    + cbn [through methods]. change (map _ alts) with (fields alts). cbn [choice_ops x_get parse_choice inner]. rewrite Ef.
      cbn [quiet] in Q. rewrite forallb_forall in Q. specialize (Q f (nth_error_In _ _ Ef)). specialize (IH p x Q).
      destruct (through p x (snd f) w) as [w' y]. cbn [fst put_inner] in *. econstructor; eauto.
Qed.

Theorem stays_after s d : flat_defaults s = true -> forall h v, stays s v d -> forallb (fun x => quiet s (fst x) (snd x)) h = true ->
  stays s (after s h v) d.
Proof.
  intros F. induction h as [|[p x] h IH]; intros v H Q; cbn [after forallb] in *; auto. apply andb_prop in Q as [Q1 Q2].
  apply IH; auto. now apply stays_through.
Qed.

Lemma fresh_stays s v hd x tl : own_class s <> None -> fresh (fieldful s) v hd x tl -> ends_80 (Some hd) = false -> exists d, stays s v d.
Proof.
  intros Hc (t & e & E1 & E2 & E3 & ->) E8.
  assert (N : e_header e <> None /\ ends_80 (e_header e) = false) by (rewrite E1; split; [discriminate|auto]).
  exists (bytes_of e). destruct s; try (now destruct Hc); cbn [fieldful]; constructor; (split; [eauto|]); (split; [exact N|]); exists t, None, None; auto.
Qed.

Lemma build_stays s : forall p i v, x_build (methods s) p None i = Ok v -> settled v = true -> exists d, stays s v d.
Proof.
  induction s as [k c|c fs IH|c fs IH|c s IH|c s IH|ex alts IH] using spec_rect'; intros p i v E S; pose proof (settled_header v S) as E8.
  2, 3, 4, 5: (apply build_fresh with (c := c) in E; [|reflexivity]); destruct E as (t & _ & [(_ & F)|(_ & j & hd & tl & _ & F)]);
    (eapply fresh_stays; [discriminate|exact F|]); destruct F as (t' & e' & E1 & _ & _ & ->); rewrite <- E1; exact E8.
  - cbn [methods prim_ops x_build] in E. apply bind_ok in E as (o & E & Ev). injection Ev as <-. cbn [header_of] in E8.
    unfold build in E. assert (P : forall p j o, build_plain k c p j = Ok o -> exists h x, e_header (o_enc o) = Some h /\ e_contents (o_enc o) = Some x).
    { clear. intros p j o E. unfold build_plain in E. apply bind_ok in E as (t & Hi & E).
      destruct (negb _) in E; [discriminate|]. destruct (negb _ && _) in E; [discriminate|]. destruct (negb _ && _) in E; [discriminate|]. injection E as <-. cbn. eauto. }
    assert (exists h x, e_header (o_enc o) = Some h /\ e_contents (o_enc o) = Some x) as (h & x & E1 & E2).
    { destruct (has_explicit c p); [|eauto]. apply bind_ok in E as (t & _ & E). apply bind_ok in E as ([[j hd] tl] & _ & E). apply bind_ok in E as (o' & Hb & E).
      apply P in Hb as (h & x & _ & E2). injection E as <-. cbn. eauto. }
    eexists. constructor. exists h, x. rewrite E1 in E8. auto.
  - cbn [methods choice_ops x_build] in E. change (map _ alts) with (fields alts) in E.
    assert (P : forall p j w, plain_choice ex (fields alts) p j = Ok w -> exists t k f x e,
       w = VChoice t e (Some k) (Some x) /\ e_header e = Some [] /\ nth_error alts k = Some f /\ exists i', x_build (methods (snd f)) (f_params (fst f)) None i' = Ok x).
    { clear. intros p j w H. unfold plain_choice in H. apply bind_ok in H as (t & _ & H). apply bind_ok in H as (k & _ & H).
      cbn [parse_choice] in H. unfold fields in H. rewrite nth_error_map in H. destruct (nth_error alts k) as [f|] eqn:Ef; [|discriminate]. cbn [option_map e_contents] in H.
      destruct (bind _ _) as [w'|] eqn:Ew in H; [|discriminate]. apply bind_ok in Ew as ([i' e'] & _ & Ew). injection H as <-. cbn [place_header]. eexists t, k, f, w', _. split; [reflexivity|]. eauto. }
    assert (exists t k f x e h, v = VChoice t e (Some k) (Some x) /\ e_header e = Some h /\ nth_error alts k = Some f /\
       exists i', x_build (methods (snd f)) (f_params (fst f)) None i' = Ok x) as (t & k & f & w & e & h & -> & Eh & Ef & i' & Ew).
    { unfold build_choice in E. destruct (has_explicit (choice_cls ex) p).
      - apply bind_ok in E as (? & _ & E). apply bind_ok in E as (t & _ & E). apply bind_ok in E as ([[j hd] tl] & _ & E). apply bind_ok in E as (w & Hw & E).
        apply P in Hw as (t' & k & f & x' & e & -> & _ & Ef & i' & Hi). injection E as <-. cbn [place_explicit place_header]. eexists _, k, f, x', _, _. split; [reflexivity|]. cbn [e_header]. eauto.
      - apply P in E as (t' & k & f & x' & e & -> & Eh & Ef & i' & Hi). exists t', k, f, x', e, []. eauto 10. }
    cbn [header_of] in E8. rewrite Eh in E8. rewrite Forall_forall in IH. cbn [settled] in S. apply andb_prop in S as [_ S].
    destruct (IH f (nth_error_In _ _ Ef) _ _ _ Ew S) as (d & Hd). exists (h ++ d). econstructor; eauto.
Qed.

(* whatever was loaded, and whatever was read since: dump() gives what it would have given *)
Theorem reading_keeps_dump s p d strict v : flat_defaults s = true -> cload s p d strict = Ok v -> settled v = true ->
  exists x, forall h, forallb (fun x => quiet s (fst x) (snd x)) h = true -> snd (x_dump (methods s) false (after s h v)) = Ok x.
Proof.
  intros F E S. unfold cload in E. apply bind_ok in E as ([i e] & _ & E). destruct (strict && _); [discriminate|].
  destruct (build_stays s _ _ _ E S) as (x & Hx). exists x. intros h Q. pose proof (stays_after s x F h v Hx Q) as Hs.
  destruct (stays_dump _ _ _ Hs) as (v' & Ev & _). now rewrite Ev.
Qed.

Theorem ber_dump_kept s p a d r strict v : wf s -> taggable s p -> flat_defaults s = true -> ber_encodes s (stags s p) a d ->
  cload s p (d ++ r) strict = Ok v -> settled v = true ->
  forall h, forallb (fun x => quiet s (fst x) (snd x)) h = true -> snd (x_dump (methods s) false (after s h v)) = Ok d.
Proof.
  intros W T F H E S h Q. destruct (reading_keeps_dump s p (d ++ r) strict v F E S) as (x & Hx).
  pose proof (Hx [] eq_refl) as H0. cbn [after] in H0. rewrite (ber_kept s p a d r strict v W T H E S) in H0. cbn in H0. injection H0 as <-. auto.
Qed.

(* a header that ends in 0x80 makes dump() encode anew *)
Theorem ber_dump_anew s c p a d e v : wf s -> taggable s p -> own_class s = Some c -> ber_encodes s (stags s p) a d -> der s (stags s p) a e ->
  cload s p d true = Ok v -> ends_80 (header_of v) = true -> snd (x_dump (methods s) false v) = Ok e.
Proof.
  intros W T Hc H D E E8. destruct (ber_normal s p a d e W T H D) as (v' & E' & N). rewrite E in E'. injection E' as <-.
  destruct (N [] eq_refl) as [<- _]. cbn [after].
  destruct s as [k c0|c0 fs|c0 fs|c0 s0|c0 s0|ex alts]; try discriminate; cbn [methods seq_ops list_ops x_dump].
  3, 4: unfold dump_list; destruct v; cbn [header_of] in E8; auto; rewrite E8; reflexivity.
  all: unfold dump_seq; destruct v; cbn [header_of] in E8; auto; rewrite E8; reflexivity.
Qed.

Theorem ber_reads_agree s p a d : wf s -> taggable s p -> ber_encodes s (stags s p) a d ->
  exists v a', cload s p d true = Ok v /\ sim s a a' /\ forall h, forallb (fun x => reading (snd x)) h = true ->
    exists x, snd (x_native (methods s) (after s h v)) = Ok x /\ shows s a' x.
Proof.
  intros W T H. pose proof (tok s p W T) as Ht. destruct (load_rep s p a d [] true W T H) as (v & a' & E & S & R); auto. rewrite app_nil_r in E.
  exists v, a'. split; auto. split; auto. intros h Hh.
  destruct (history_ok s _ W Ht h a' Lost true v (reading_safe s h a' Hh) R) as (b & L & Rb). apply reading_leads in L; auto. subst b.
  rewrite (reading_stores h Hh) in Rb. cbn in Rb.
  destruct (K_native s (contract_all s W) _ _ _ _ _ Ht Rb) as (v' & x & Ex & _ & _ & _ & _ & Sh). exists x. rewrite Ex. split; auto.
Qed.
