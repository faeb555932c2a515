(* Proofs about copies. *)
Require Import Verif.Base Verif.BaseFacts Verif.IntModel Verif.IntSpec Verif.IntProofs
  Verif.ParserModel Verif.ParserSpec Verif.ParserProofs Verif.ParserFacts Verif.Text Verif.TagSpec Verif.TagProofs
  Verif.PrimModel Verif.PrimSpec Verif.PrimProofs Verif.PrimSet Verif.PrimDump Verif.PrimLoad Verif.HistSpec Verif.PrimHist
  Verif.PrimRead Verif.PrimSide Verif.ContModel Verif.ContSpec Verif.ContBase Verif.ContRep Verif.ContPrim Verif.ContSeq Verif.ContSeq2
  Verif.ContList Verif.ContChoice Verif.ContPath Verif.ContHistSpec Verif.ContHist Verif.ContHist2 Verif.ContFinal Verif.BerSpec Verif.BerProofs Verif.BerFinal
  Verif.CopySpec.

(* ---- only reading .native makes a native value that is kept ---- *)
Definition cold (v : value) : Prop := has_dict v = false.
Record quiet (o : ops) : Prop := {
  q_build : forall p d i v, x_build o p d i = Ok v -> cold v;
  q_contents : forall v, cold v -> cold (fst (x_contents o v));
  q_dump : forall f v, cold v -> cold (fst (x_dump o f v));
  q_get : forall i v, cold v -> cold (fst (x_get o i v));
  q_set : forall i a v, cold v -> cold (fst (x_set o i a v));
  q_del : forall i v, cold v -> cold (fst (x_del o i v));
  q_append : forall a v, cold v -> cold (fst (x_append o a v));
  q_len : forall v, cold v -> cold (fst (x_len o v)) }.

Lemma cold_header v h tr : cold v -> cold (place_header v h tr).
Proof. unfold cold. destruct v; cbn; auto. Qed.
Lemma cold_placed v h tr ex : cold v -> cold (place_explicit v h tr ex).
Proof. unfold cold, place_explicit. destruct v; cbn; auto. Qed.
Lemma cold_nc t e ch m n t' e' ch' m' : cold (VSeq t e ch m n) -> cold (VSeq t' e' ch' m' n).
Proof. unfold cold. cbn. auto. Qed.
Lemma cold_ln t e ch m n t' e' ch' m' : cold (VList t e ch m n) -> cold (VList t' e' ch' m' n).
Proof. unfold cold. cbn. auto. Qed.
Lemma cold_none t e ch m n t' e' ch' m' : cold (VSeq t e ch m (Some n)) -> cold (VSeq t' e' ch' m' None).
Proof. discriminate. Qed.
Lemma cold_built c p probe plain i v : (forall q j w, plain q j = Ok w -> cold w) ->
  build_with c p probe plain place_explicit i = Ok v -> cold v.
Proof.
  intros P. unfold build_with. destruct (has_explicit c p); [|apply P]. intros H. apply bind_ok in H as (? & _ & H). apply bind_ok in H as (t & _ & H).
  apply bind_ok in H as ([[j hd] tl] & _ & H). apply bind_ok in H as (w & E & H). injection H as <-. apply cold_placed. eauto.
Qed.

(* every way through a function that ends in a value with the natives of the one given *)
Ltac opn := repeat (cbn [fst snd] in *; match goal with
  | |- cold (fst (match ?x with _ => _ end)) => destruct x eqn:?
  end).
Ltac same := first [assumption | reflexivity | discriminate | eapply cold_nc; eassumption | eapply cold_ln; eassumption].

Section Seq.
  Variable c : pcls.
  Variable fs : list (fld * ops).
  Variable is_set : bool.
  Notation parse_flat := (parse_flat fs is_set).
  Notation ensure := (ensure fs is_set).
  Notation set_contents_seq := (set_contents_seq fs is_set).
  Notation contents_seq := (contents_seq fs is_set).

  Lemma cold_flat v : cold v -> cold (fst (parse_flat v)).
  Proof. intros C. unfold ContModel.parse_flat. opn; subst; same. Qed.
  Lemma cold_ensure v : cold v -> cold (fst (ensure v)).
  Proof.
    intros C. pose proof (cold_flat v C) as F. unfold ContModel.ensure.
    destruct v as [| |o|t e [l|] m nc|t e ch m nc|t e k w]; auto; opn; subst; same.
  Qed.
  Lemma cold_set_contents f v : cold v -> cold (fst (set_contents_seq f v)).
  Proof. intros C. pose proof (cold_ensure v C) as F. unfold ContModel.set_contents_seq. destruct (ensure v) as [u [l|]]; opn; subst; same. Qed.
  Lemma cold_contents v : cold v -> cold (fst (contents_seq v)).
  Proof. intros C. pose proof (cold_set_contents false v C) as F. unfold ContModel.contents_seq. destruct v as [| |o|t e [l|] m nc|t e ch m nc|t e k w]; opn; subst; same. Qed.
  Lemma cold_dump f v : cold v -> cold (fst (dump_seq fs is_set f v)).
  Proof.
    intros C. unfold dump_seq. destruct v as [| |o|t e ch m nc|t e ch m nc|t e k w]; try exact C.
    set (g := (f || ends_80 (e_header e)) && match fs with [] => false | _ => true end).
    assert (F : cold (fst (if g then set_contents_seq g (VSeq t e ch m nc) else (VSeq t e ch m nc, Ok tt)))) by (destruct g; [now apply cold_set_contents|exact C]).
    destruct (if g then _ else _) as [v1 [x|y]]; [|exact F]. cbn [fst] in F. pose proof (cold_contents v1 F) as G.
    destruct v1 as [| |o1|t1 e1 [l1|] m1 n1|t1 e1 ch1 m1 n1|t1 e1 k1 w1]; try exact F; [|destruct (finish_dump _ _ _); exact F].
    destruct (missing fs l1); [exact F|]. destruct (contents_seq _) as [v2 [y|y]]; [|destruct v2; exact G]. destruct v2; try exact G. destruct (finish_dump _ _ _). exact G.
  Qed.
  Lemma cold_get i v : cold v -> cold (fst (get_seq fs is_set i v)).
  Proof. intros C. pose proof (cold_ensure v C) as F. unfold get_seq. destruct (ensure v) as [u [l|]]; [|destruct u; exact F]. destruct u; try exact F. opn; subst; same. Qed.
  Lemma cold_set i a v : cold v -> cold (fst (set_seq fs is_set i a v)).
  Proof.
    intros C. pose proof (cold_ensure v C) as F. unfold set_seq. destruct (ensure v) as [u [l|]]; [|destruct u; exact F]. destruct u as [| |o|t e ch m nc|t e ch m nc|t e k w]; try exact F.
    cbn [fst] in F. destruct nc; [discriminate|]. opn; subst; same.
  Qed.
  Lemma cold_del i v : cold v -> cold (fst (del_seq fs is_set i v)).
  Proof.
    intros C. pose proof (cold_ensure v C) as F. unfold del_seq. destruct (ensure v) as [u [l|]]; [|destruct u; exact F]. destruct u as [| |o|t e ch m nc|t e ch m nc|t e k w]; try exact F.
    cbn [fst] in F. destruct nc; [discriminate|]. destruct (nth_error fs i); [|exact F]. destruct (f_pres _); first [exact F|reflexivity|now apply cold_set].
  Qed.
  Lemma cold_len v : cold v -> cold (fst (len_seq fs is_set v)).
  Proof. intros C. pose proof (cold_ensure v C) as F. unfold len_seq. destruct (ensure v) as [u [l|]]; exact F. Qed.
  Lemma cold_keys keep d : forall l i v w, cold v -> set_keys fs is_set keep d l i v = Ok w -> cold w.
  Proof.
    induction l as [|fo l IH]; intros i v w C H; cbn [set_keys] in H; [injection H as <-; exact C|].
    destruct (dict_get _ _) as [a|]; [|eapply IH; eauto]. destruct (keep i v); [eapply IH; eauto|].
    pose proof (cold_set i a v C) as F. destruct (set_seq _ _ i a v) as [u [[]|]]; [|discriminate]. eapply IH; eauto.
  Qed.
  Lemma cold_dict keep a v w : cold v -> set_dict fs is_set keep a v = Ok w -> cold w.
  Proof.
    intros C H. unfold set_dict in H. destruct a; try discriminate; [injection H as <-; exact C|]. apply bind_ok in H as (u & E & H).
    destruct (known_keys _ _); [|discriminate]. injection H as <-. eapply cold_keys; eauto.
  Qed.
  Lemma cold_plain dflt p i v : plain_seq c fs is_set dflt p i = Ok v -> cold v.
  Proof.
    unfold plain_seq. intros H. apply bind_ok in H as (t & _ & H). apply bind_ok in H as (w & E & H). destruct (check_tags c t i); [|discriminate]. injection H as <-.
    apply cold_header. destruct dflt as [d|]; [|injection E as <-; reflexivity].
    pose proof (cold_flat (VSeq t (Enc 1 None (Some (i_contents i)) [] false) None false None) eq_refl) as F.
    destruct (parse_flat _) as [u [[]|]]; [|discriminate]. eapply cold_dict; eauto.
  Qed.
  Lemma quiet_seq : quiet (seq_ops c fs is_set).
  Proof.
    split; cbn [x_build x_contents x_dump x_get x_set x_del x_append x_len seq_ops].
    - intros p d i v. apply cold_built. intros q j w. apply cold_plain.
    - apply cold_contents.
    - apply cold_dump.
    - apply cold_get.
    - apply cold_set.
    - apply cold_del.
    - auto.
    - apply cold_len.
  Qed.
End Seq.

Section Lst.
  Variable c : pcls.
  Variable o : ops.
  Variable ex : list (Z * Z).
  Variable sorted : bool.
  Lemma cold_lflat v : cold v -> cold (fst (list_flat v)).
  Proof. intros C. unfold list_flat. opn; subst; same. Qed.
  Lemma cold_lensure v : cold v -> cold (fst (ensure_list v)).
  Proof.
    intros C. pose proof (cold_lflat v C) as F. unfold ensure_list.
    destruct v as [| |b|t e ch m nc|t e [l|] m nc|t e k w]; auto; opn; subst; same.
  Qed.
  Lemma cold_lset_contents f v : cold v -> cold (fst (set_contents_list o sorted f v)).
  Proof. intros C. pose proof (cold_lensure v C) as F. unfold set_contents_list. destruct (ensure_list v) as [u [l|]]; opn; subst; same. Qed.
  Lemma cold_lcontents v : cold v -> cold (fst (contents_list o sorted v)).
  Proof. intros C. pose proof (cold_lset_contents false v C) as F. unfold contents_list. destruct v as [| |b|t e ch m nc|t e [l|] m nc|t e k w]; opn; subst; same. Qed.
  Lemma cold_ldump f v : cold v -> cold (fst (dump_list o sorted f v)).
  Proof.
    intros C. unfold dump_list. destruct v as [| |b|t e ch m nc|t e ch m nc|t e k w]; try exact C.
    assert (F : cold (fst (if f || ends_80 (e_header e) then set_contents_list o sorted true (VList t e ch m nc) else (VList t e ch m nc, Ok tt))))
      by (destruct (f || _); [now apply cold_lset_contents|exact C]).
    destruct (if f || _ then _ else _) as [v1 [x|y]]; [|exact F]. cbn [fst] in F. pose proof (cold_lcontents v1 F) as G.
    destruct (contents_list _ _ v1) as [v2 [y|y]]; [|destruct v2; exact G]. destruct v2; try exact G. destruct (finish_dump _ _ _). exact G.
  Qed.
  Lemma cold_lget i v : cold v -> cold (fst (get_list o i v)).
  Proof. intros C. pose proof (cold_lensure v C) as F. unfold get_list. destruct (ensure_list v) as [u [l|]]; [|destruct u; exact F]. destruct u; try exact F. opn; subst; same. Qed.
  Lemma cold_lset i a v : cold v -> cold (fst (set_list o ex i a v)).
  Proof.
    intros C. pose proof (cold_lensure v C) as F. unfold set_list. destruct (ensure_list v) as [u [l|]]; [|destruct u; exact F]. destruct u as [| |b|t e ch m nc|t e ch m nc|t e k w]; try exact F.
    cbn [fst] in F. destruct nc; [discriminate|]. destruct (make_elt o ex a); [|exact F]. destruct (Nat.ltb _ _); [exact F|reflexivity].
  Qed.
  Lemma cold_ldel i v : cold v -> cold (fst (del_list i v)).
  Proof.
    intros C. pose proof (cold_lensure v C) as F. unfold del_list. destruct (ensure_list v) as [u [l|]]; [|destruct u; exact F]. destruct u as [| |b|t e ch m nc|t e ch m nc|t e k w]; try exact F.
    cbn [fst] in F. destruct nc; [discriminate|]. destruct (Nat.ltb _ _); [reflexivity|exact F].
  Qed.
  Lemma cold_lappend a v : cold v -> cold (fst (append_list o ex a v)).
  Proof.
    intros C. pose proof (cold_lensure v C) as F. unfold append_list. destruct (ensure_list v) as [u [l|]]; [|destruct u; exact F]. destruct u as [| |b|t e ch m nc|t e ch m nc|t e k w]; try exact F.
    cbn [fst] in F. destruct nc; [discriminate|]. destruct (make_elt o ex a); [reflexivity|exact F].
  Qed.
  Lemma cold_llen v : cold v -> cold (fst (len_list v)).
  Proof. intros C. pose proof (cold_lensure v C) as F. unfold len_list. destruct (ensure_list v) as [u [l|]]; exact F. Qed.
  Lemma quiet_list : quiet (list_ops c o ex sorted).
  Proof.
    split; cbn [x_build x_contents x_dump x_get x_set x_del x_append x_len list_ops].
    - intros p d i v. apply cold_built. intros q j w H. unfold plain_list in H. apply bind_ok in H as (t & _ & H). destruct (check_tags c t j); [|discriminate]. now injection H as <-.
    - apply cold_lcontents.
    - apply cold_ldump.
    - apply cold_lget.
    - apply cold_lset.
    - apply cold_ldel.
    - apply cold_lappend.
    - apply cold_llen.
  Qed.
End Lst.

Section Alt.
  Variable ex : list (Z * Z).
  Variable alts : list (fld * ops).
  Hypothesis A : Forall (fun f => quiet (snd f)) alts.
  Lemma alt_quiet k f o : nth_error alts k = Some (f, o) -> quiet o.
  Proof. intros H. apply nth_error_In in H. rewrite Forall_forall in A. exact (A _ H). Qed.
  Lemma cold_parse v : cold v -> cold (fst (parse_choice alts v)).
  Proof.
    intros C. unfold parse_choice. destruct v as [| |b|t e ch m nc|t e ch m nc|t e [k|] [w|]]; auto.
    destruct (nth_error alts k) as [[f o]|] eqn:N; [|exact C]. destruct (e_contents e) as [cont|]; [|exact C].
    destruct (bind _ _) as [w|] eqn:E; [|exact C]. apply bind_ok in E as ([i z] & _ & E). exact (q_build o (alt_quiet _ _ _ N) _ _ _ _ E).
  Qed.
  Lemma cold_chose v t e k w o f : cold v -> fst (parse_choice alts v) = VChoice t e (Some k) (Some w) -> nth_error alts k = Some (f, o) -> cold w /\ quiet o.
  Proof. intros C E N. pose proof (cold_parse v C) as F. rewrite E in F. split; [exact F|eapply alt_quiet; eauto]. Qed.
  Lemma cold_pchoice p i v : plain_choice ex alts p i = Ok v -> cold v.
  Proof.
    unfold plain_choice. intros H. apply bind_ok in H as (t & _ & H). apply bind_ok in H as (k & _ & H).
    pose proof (cold_parse (VChoice t (Enc 1 None (Some (i_header i ++ i_contents i)) [] false) (Some k) None) eq_refl) as F.
    destruct (parse_choice _ _) as [u [[]|]]; [|discriminate]. injection H as <-. now apply cold_header.
  Qed.
  Lemma quiet_choice : quiet (choice_ops ex alts).
  Proof.
    split; cbn [x_build x_contents x_dump x_get x_set x_del x_append x_len choice_ops]; auto.
    - intros p d i v. unfold build_choice. destruct (has_explicit _ p); [|apply cold_pchoice]. intros H. apply bind_ok in H as (? & _ & H). apply bind_ok in H as (t & _ & H).
      apply bind_ok in H as ([[j hd] tl] & _ & H). apply bind_ok in H as (w & E & H). injection H as <-. apply cold_placed. eapply cold_pchoice; eauto.
    - intros v C. unfold contents_choice. destruct v as [| |b|t e ch m nc|t e ch m nc|t e [k|] [w|]]; auto.
      destruct (nth_error alts k) as [[f o]|] eqn:N; [|exact C]. pose proof (q_contents o (alt_quiet _ _ _ N) w C) as F. destruct (x_contents o w). exact F.
    - intros f v C. unfold dump_choice. destruct v as [| |b|t e ch m nc|t e ch m nc|t e k w]; try exact C.
      set (g := f || ends_80 (e_header e)). assert (F : cold (fst (choice_with alts (fun o w => x_dump o g w) (VChoice t e k w)))).
      { unfold choice_with. pose proof (cold_parse _ C) as F. destruct (parse_choice alts _) as [u [[]|]]; [|destruct u as [| |b|t1 e1 ch m nc|t1 e1 ch m nc|t1 e1 [k1|] [w1|]]; exact F].
        destruct u as [| |b|t1 e1 ch m nc|t1 e1 ch m nc|t1 e1 [k1|] [w1|]]; try exact F. destruct (nth_error alts k1) as [[f1 o1]|] eqn:N; [|exact F].
        pose proof (q_dump o1 (alt_quiet _ _ _ N) g w1 F) as G. destruct (x_dump o1 g w1). exact G. }
      destruct (choice_with _ _ _) as [u [x|]]; [|destruct u; exact F]. destruct u; exact F.
    - intros i v. apply cold_parse.
  Qed.
End Alt.

Lemma quiet_prim k c : quiet (prim_ops k c).
Proof.
  split; cbn [x_build x_contents x_dump x_get x_set x_del x_append x_len prim_ops]; auto.
  - intros p d i v H. apply bind_ok in H as (b & _ & H). now injection H as <-.
  - intros v C. destruct v; exact C.
  - intros f v C. destruct v; try exact C. cbn. now destruct (dump _ _ _ _).
Qed.
Lemma quiet_all s : quiet (methods s).
Proof.
  induction s as [k c|c fs IH|c fs IH|c s IH|c s IH|ex alts IH] using spec_rect'; cbn [methods].
  - apply quiet_prim.
  - apply quiet_seq.
  - apply quiet_seq.
  - apply quiet_list.
  - apply quiet_list.
  - apply quiet_choice. apply Forall_forall. intros f H. apply in_map_iff in H as (g & <- & H). cbn [snd]. rewrite Forall_forall in IH. exact (IH g H).
Qed.

Lemma cold_perform s x v : x <> ARead -> cold v -> cold (fst (perform s x v)).
Proof.
  intros N C. pose proof (quiet_all s) as Q. assert (v = VVoid \/ v <> VVoid) as [->|V] by (destruct v; auto; right; discriminate); [reflexivity|].
  rewrite perform_step by auto. destruct x; unfold reply; cbn [fst]; try congruence.
  - now apply q_dump.
  - now apply q_contents.
  - now apply q_len.
  - now apply q_get.
  - now apply q_set.
  - now apply q_del.
  - now apply q_append.
  - destruct s; try exact C. destruct v; try exact C. unfold reply. destruct (set_value _ _ _). exact C.
Qed.
Lemma cold_through : forall p x s v, x <> ARead \/ (is_choice s = false /\ p <> []) -> cold v -> cold (fst (through p x s v)).
Proof.
  induction p as [|i r IH]; intros x s v N C.
  - destruct N as [N|[_ N]]; [|congruence]. now apply cold_perform.
  - assert (v = VVoid \/ v <> VVoid) as [->|V] by (destruct v; auto; right; discriminate); [reflexivity|]. rewrite through_step by auto.
    pose proof (q_get _ (quiet_all s) i v C) as G. destruct (x_get (methods s) i v) as [v1 [[]|]]; [|exact G]. cbn [fst] in G.
    destruct (inner s i v1) as [[s' w]|] eqn:I; [|exact G].
    destruct v1 as [| |b|t e [l|] m nc|t e [l|] m nc|t e k [w1|]]; try (destruct (through r x s' w); exact G).
    unfold inner in I. destruct s; try (destruct k; discriminate). destruct N as [N|[N _]]; [|discriminate].
    destruct k as [k|]; [|discriminate]. destruct (nth_error alts k) as [f|]; [|discriminate]. injection I as <- <-.
    pose proof (IH x (snd f) w1 (or_introl N) G) as H. destruct (through r x (snd f) w1). exact H.
Qed.
Lemma cold_after s : forall h v, unread s h = true -> cold v -> cold (after s h v).
Proof.
  induction h as [|[p x] h IH]; intros v U C; [exact C|]. unfold unread in U. cbn [forallb] in U. apply andb_true_iff in U as [U1 U2].
  cbn [after]. apply IH; [exact U2|]. apply cold_through; [|exact C].
  destruct x; try (left; discriminate). destruct p; [discriminate|]. right. split; [|discriminate]. now apply negb_true_iff in U1.
Qed.

Lemma tracks_ok n s t a v : wf s -> tagging_ok t -> rep Own n s t a v -> tracks n s t a v.
Proof.
  intros W Ht R h Sf. destruct (history_ok s t W Ht h a Clean n v Sf R) as (b & L & Rb). exists b. split; auto. split.
  - intros p x Hx (c & B). now destruct (step_ok p x s b c _ _ _ _ W Ht B Rb) as (_ & _ & _ & E); auto.
  - intros p s' t' c Si. destruct (reach_at _ _ _ _ _ _ _ Si _ _ _ W Ht Rb) as (q' & w & W' & T' & Rw & A & E). pose proof (contract_all s' W') as C. split.
    + destruct (K_native s' C _ _ _ _ _ T' Rw) as (w' & y & En & _ & _ & _ & _ & Sh). exists y. rewrite E, perform_step by (eapply rep_void; eauto).
      rewrite En. split; auto. intros -> N. apply Sh. cbn. now rewrite N.
    + split.
      * intros f. destruct (K_dump s' C _ _ _ _ _ f T' Rw) as (w' & d & Ed & _ & _ & _ & De). exists d. rewrite E, perform_step by (eapply rep_void; eauto).
        rewrite Ed. split; auto. intros H Ld. apply (proj1 (encodes_der_both s' W' t' T')); auto. apply De.
        destruct H as [H|H]; auto. left. rewrite A. destruct (trusted s h Clean); auto; congruence.
      * split.
        -- destruct c; auto; intros; rewrite E; [exact (len_answer _ _ _ _ _ _ W' Rw)|exact (len_answer _ _ _ _ _ _ W' Rw)].
        -- intros e l x Lc -> P. rewrite E. eapply index_answer; eauto.
Qed.
Lemma tracks_less n m s t a v : (m = true -> n = true) -> tracks n s t a v -> tracks m s t a v.
Proof.
  intros I T h S. destruct (T h S) as (b & L & H1 & H2). exists b. split; auto. split; auto. intros p s' t' c Si. destruct (H2 p s' t' c Si) as ((x & E & Sh) & R). split; auto.
  exists x. auto.
Qed.

Theorem copies_ok q n s t a v : wf s -> tagging_ok t -> rep (mode_of q) n s t a v -> has_dict v = false -> copies_from q s t a v.
Proof.
  intros W Ht R Nd h Sf Tr. destruct (history_ok s t W Ht h a q n v Sf R) as (b & L & Rb). exists b. split; auto. intros d D.
  assert (A : acc (mode_of (trusted s h q)) = true) by (destruct (trusted s h q); auto; congruence).
  pose proof (der_fits _ _ _ _ Ht D) as F.
  assert (U : unread s h = true -> negb (has_dict (after s h v)) = true) by (intros U; apply negb_true_iff; now apply cold_after).
  split.
  - destruct (K_copy s (contract_all s W) _ _ _ b _ A Ht F Rb) as (w & c & E & S & Rc & _). exists w, c. split; auto. split; auto.
    eapply tracks_less; [exact U|]. now apply tracks_ok.
  - intros p T. destruct (K_retag s (contract_all s W) p _ _ _ b _ A T Ht F Rb) as (w & c & E & S & Rc & _). exists w, c. split; auto. split; auto.
    eapply tracks_less; [exact U|]. apply tracks_ok; auto. exact (tok s p W T).
Qed.
Theorem copies_made s p i a d v : wf s -> taggable s p -> denotes s i a -> der s (stags s p) a d -> either_way s p i d v ->
  exists a', sim s a a' /\ copies_from Clean s (stags s p) a' v.
Proof.
  intros W T Di D Ev. destruct (either_rep s p i a d v W T Di D Ev) as (a1 & S1 & R1 & N1). exists a1. split; auto. eapply copies_ok; eauto. exact (tok s p W T).
Qed.
Lemma loaded_cold s p d strict v : cload s p d strict = Ok v -> has_dict v = false.
Proof.
  unfold cload. intros H. apply bind_ok in H as ([i e] & _ & H). destruct (strict && _); [discriminate|]. exact (q_build _ (quiet_all s) _ _ _ _ H).
Qed.
Theorem copies_ber s p a d r strict : wf s -> taggable s p -> ber_encodes s (stags s p) a d -> (strict = true -> r = []) ->
  exists v a', cload s p (d ++ r) strict = Ok v /\ sim s a a' /\ copies_from Lost s (stags s p) a' v.
Proof.
  intros W T H Hr. destruct (load_rep s p a d r strict W T H Hr) as (v & a' & E & S & R). exists v, a'. split; auto. split; auto.
  eapply copies_ok; eauto; [exact (tok s p W T)|eapply loaded_cold; eauto].
Qed.
