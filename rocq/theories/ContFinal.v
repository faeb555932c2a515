(* The properties of structured classes, from the contract and the histories. *)
Require Import Verif.Base Verif.BaseFacts Verif.IntModel Verif.IntSpec Verif.IntProofs
  Verif.ParserModel Verif.ParserSpec Verif.ParserProofs Verif.ParserFacts Verif.Text Verif.CodecModel Verif.TagSpec Verif.TagProofs
  Verif.PrimModel Verif.PrimSpec Verif.PrimProofs Verif.PrimSet Verif.PrimDump Verif.PrimLoad Verif.HistSpec Verif.PrimHist
  Verif.PrimRead Verif.PrimSide Verif.ContModel Verif.ContSpec Verif.ContBase Verif.ContRep Verif.ContPrim Verif.ContSeq Verif.ContSeq2 Verif.ContList
  Verif.ContChoice Verif.ContPath Verif.ContHistSpec Verif.ContHist Verif.ContHist2.
Require Import Sorting.Permutation Sorting.Sorted.


Lemma tok s p : wf s -> taggable s p -> tagging_ok (stags s p).
Proof. apply stags_ok. Qed.

Lemma dump_of s t a v d : wf s -> tagging_ok t -> rep Own true s t a v -> der s t a d -> forall f, snd (x_dump (methods s) f v) = Ok d.
Proof.
  intros W T R D f. destruct (K_dump s (contract_all s W) _ _ _ _ _ f T R) as (v' & d' & E & _ & _ & _ & En). rewrite E. cbn.
  f_equal. eapply encodes_fun; [exact W|apply En; auto|now apply der_encodes].
Qed.
Lemma native_of_rep s t a v : wf s -> tagging_ok t -> rep Own true s t a v -> exists x, snd (x_native (methods s) v) = Ok x /\ shows s a x.
Proof.
  intros W T R. destruct (K_native s (contract_all s W) _ _ _ _ _ T R) as (v' & x & E & _ & _ & _ & _ & Sh). exists x. rewrite E. auto.
Qed.

(* ---- every value has an encoding ---- *)
Lemma prim_value k v : kind_ok k -> holds k None v -> exists x, der_value k None v x.
Proof.
  intros K H. destruct (make_good k (Cls 0 1 [] []) no_params (Tagging 0 1 false []) v K eq_refl) as (o & x & _ & _ & _ & _ & _ & _ & D & _); auto; [|eauto].
  split; [cbn; lia|]. split; [cbn; lia|constructor].
Qed.
Theorem encodable s : wf s -> forall i a t, denotes s i a -> exists d, encodes s t a d.
Proof.
  induction s as [k c|c fs IH|c fs IH|c s IH|c s IH|ex alts IH] using spec_rect'; intros W i a t D.
  - assert (exists v, a = APrim v /\ holds k None v) as (v & -> & H).
    { cbn in D. destruct i as [|u| | | |], a as [|v| | | |]; try contradiction.
      - destruct v; try contradiction. exists NNone. split; auto. subst k. exact I.
      - exists v. split; auto. destruct D as (-> & _ & H). exact H. }
    destruct (prim_value k v (proj1 W) H) as (x & Dx). cbn [encodes]. eauto.
  - destruct i as [| |li| | |], a as [| |la| | |]; try contradiction. cbn [denotes] in D. destruct D as (_ & _ & D).
    destruct W as (_ & _ & _ & _ & W). rewrite Forall_forall in IH. rewrite all1_in in W.
    assert (exists ys, all3 (fun f na y => encf (encodes (snd f)) f na y) fs la ys) as (ys & Y); [|cbn [encodes]; eauto].
    revert la D. induction fs as [|f fs IHf]; intros [|na la] D; cbn [all2] in D; try contradiction; [exists []; exact I|]. destruct D as [(E & D) Dr].
    destruct (IHf (fun g Hg => IH g (or_intror Hg)) (fun g Hg => W g (or_intror Hg)) la Dr) as (ys & Y).
    destruct (W f (or_introl eq_refl)) as (Wf & _ & Wp).
    assert (En : forall j, denotes (snd f) j (snd na) -> exists y, encf (encodes (snd f)) f na y).
    { intros j Dj. destruct (IH f (or_introl eq_refl) Wf j (snd na) (ftags f) Dj) as (y & Ey). pose proof (encodes_not_none _ _ _ _ Ey) as Nn. unfold encf.
      destruct (fpres f) as [| |dv] eqn:P; [exists y; auto|exists y; split; auto; destruct (snd na); congruence|].
      destruct Wp as (_ & _ & ad & w & Da & _). destruct (IH f (or_introl eq_refl) Wf dv ad (ftags f) Da) as (z & Ez).
      destruct (list_eq_dec Z.eq_dec y z) as [<-|N].
      - exists []. split; auto. exists y. split; auto. left. split; auto. exists ad. auto.
      - exists y. split; auto. exists y. split; auto. right. split; auto. intros (ad' & D' & E'). apply N.
        rewrite (denotes_fun _ _ _ _ Wf D' Da) in E'. exact (encodes_fun _ _ _ _ _ Wf E' Ez). }
    assert (exists y, encf (encodes (snd f)) f na y) as (y & Hy).
    { destruct (dict_get li (fname f)) as [x|]; [|destruct (fpres f) eqn:P; [contradiction|exists []; unfold encf; rewrite P, D; auto|eauto]].
      assert (Gv : given (snd f) true (denotes (snd f)) x (snd na) -> exists y, encf (encodes (snd f)) f na y).
      { intros G. destruct x; cbn [given] in G; destruct G as [_ G]; eauto. }
      destruct x; auto. destruct (fpres f) eqn:P; auto; [|eauto]. exists []. unfold encf. rewrite P, D. auto. }
    exists (y :: ys). cbn [all3]. auto.
  - contradiction.
  - destruct W as (_ & Ws & _ & _). destruct i as [| | |li| |], a as [| | |la| |]; try contradiction. cbn [denotes] in D.
    assert (exists ds, all2 (encodes s (stags s no_params)) la ds) as (ds & A); [|cbn [encodes]; eauto].
    revert la D. induction li as [|x li IHl]; intros [|a la] D; cbn [all2] in D; try contradiction; [exists []; exact I|]. destruct D as [G D].
    destruct (IHl la D) as (ds & A). assert (exists j, denotes s j a) as (j & Dj) by (destruct x; cbn [given] in G; destruct G as [_ G]; eauto).
    destruct (IH Ws j a (stags s no_params) Dj) as (d & Ed). exists (d :: ds). cbn. auto.
  - destruct W as (_ & Ws & _ & _). destruct i as [| | |li| |], a as [| | |la| |]; try contradiction. cbn [denotes] in D.
    assert (exists ds, all2 (encodes s (stags s no_params)) la ds) as (ds & A).
    { revert la D. induction li as [|x li IHl]; intros [|a la] D; cbn [all2] in D; try contradiction; [exists []; exact I|]. destruct D as [G D].
      destruct (IHl la D) as (ds & A). assert (exists j, denotes s j a) as (j & Dj) by (destruct x; cbn [given] in G; destruct G as [_ G]; eauto).
      destruct (IH Ws j a (stags s no_params) Dj) as (d & Ed). exists (d :: ds). cbn. auto. }
    cbn [encodes]. exists (cbytes t (concat (sort_bytes ds))), ds, (sort_bytes ds). split; auto. split; [apply sort_perm|]. split; [apply sort_sorted|reflexivity].
  - destruct i as [| | | |n b|], a as [| | | |n' a|]; try contradiction. cbn [denotes] in D. destruct D as (-> & D).
    apply some_ex in D as (f & Hf & E & G). destruct W as (_ & _ & _ & W). rewrite all1_in in W. rewrite Forall_forall in IH.
    assert (exists j, denotes (snd f) j a) as (j & Dj) by (destruct b; cbn [given] in G; destruct G as [_ G]; eauto).
    destruct (IH f Hf (proj1 (W f Hf)) j a (ftags f) Dj) as (w & Ew). cbn [encodes]. exists (wrap (t_explicit t) [] w ++ w), w. split; auto.
    apply some_ex. exists f. auto.
Qed.

(* ---- construction and loading ---- *)
Theorem construct_ok s p i a d : wf s -> taggable s p -> denotes s i a -> der s (stags s p) a d ->
  exists v a', x_make (methods s) p None i = Ok v /\ sim s a a' /\ der s (stags s p) a' d /\
    (forall f, snd (x_dump (methods s) f v) = Ok d) /\ (exists x, snd (x_native (methods s) v) = Ok x /\ shows s a' x) /\
    follows s (stags s p) a' v.
Proof.
  intros W T Di D. pose proof (tok s p W T) as Ht. destruct (K_make s (contract_all s W) p i a T Di (der_fits _ _ _ _ Ht D)) as (v & a' & E & S & R & _).
  assert (D' : der s (stags s p) a' d) by now apply der_sim with a. exists v, a'. split; auto. split; auto. split; auto. split; [eapply dump_of; eauto|]. split; [eapply native_of_rep; eauto|].
  now apply follows_ok.
Qed.

Theorem load_ok s p a d r strict : wf s -> taggable s p -> der s (stags s p) a d -> (strict = true -> r = []) ->
  exists v a', cload s p (d ++ r) strict = Ok v /\ sim s a a' /\ der s (stags s p) a' d /\
    (forall f, snd (x_dump (methods s) f v) = Ok d) /\ (exists x, snd (x_native (methods s) v) = Ok x /\ shows s a' x) /\
    follows s (stags s p) a' v.
Proof.
  intros W T D Hr. pose proof (tok s p W T) as Ht. destruct (der_info s p a d W D) as (i & Bi & _ & Ei & _). subst d.
  destruct (K_build s (contract_all s W) p None i a T I Bi D) as (v & a' & E & S & (R & _)).
  assert (D' : der s (stags s p) a' (encoding_of i)) by now apply der_sim with a. exists v, a'.
  split. { unfold cload. rewrite parse__0_complete by auto. cbn [bind].
    destruct strict; cbn [andb]; auto. rewrite (Hr eq_refl), app_nil_r, Z.eqb_refl. exact E. }
  split; auto. split; auto. split; [eapply dump_of; eauto|]. split; [eapply native_of_rep; eauto|]. now apply follows_ok.
Qed.

(* a longer input is refused when strict *)
Theorem load_strict s p a d r : wf s -> der s (stags s p) a d -> r <> [] -> cload s p (d ++ r) true = Err ValueError.
Proof.
  intros W D Hr. destruct (der_info s p a d W D) as (i & Bi & _ & Ei & _). subst d. unfold cload. rewrite parse__0_complete by auto. cbn [bind andb].
  replace (len (encoding_of i) =? len (encoding_of i ++ r)) with false; auto. symmetry. apply Z.eqb_neq. rewrite len_app. destruct r; [congruence|]. rewrite len_cons. pose proof (len_nonneg r). lia.
Qed.

(* ---- defaults and optional fields ---- *)
Lemma all3_app {A B C} (R : A -> B -> C -> Prop) : forall l m n l' m' n', all3 R l m n -> all3 R l' m' n' -> all3 R (l ++ l') (m ++ m') (n ++ n').
Proof. induction l as [|x l IH]; intros [|y m] [|z n]; cbn; try tauto. intros l' m' n' [H K] L. auto. Qed.
Lemma all3_split {A B C} (R : A -> B -> C -> Prop) : forall l m l' m' n, length l = length m -> all3 R (l ++ l') (m ++ m') n ->
  exists n1 n2, n = n1 ++ n2 /\ all3 R l m n1 /\ all3 R l' m' n2.
Proof.
  induction l as [|x l IH]; intros [|y m] l' m' n L; cbn in L; try discriminate; [intros H; exists [], n; cbn; auto|].
  cbn [app]. destruct n as [|z n]; [contradiction|]. intros [H K]. destruct (IH m l' m' n) as (n1 & n2 & -> & A1 & A2); [lia|auto|].
  exists (z :: n1), n2. cbn. auto.
Qed.

(* the field contributes no octets: the encoding is that of the sequence without it *)
Theorem der_without c l f r t la na lb d : wf (SSeq c (l ++ f :: r)) -> tagging_ok t -> length la = length l ->
  der (SSeq c (l ++ f :: r)) t (ADict (la ++ na :: lb)) d ->
  match fpres f with
  | Required => False
  | Optional => snd na = ANone
  | Default dv => denotes (snd f) dv (snd na)
  end -> der (SSeq c (l ++ r)) t (ADict (la ++ lb)) d.
Proof.
  intros W Ht Ll D Hn. cbn [der] in *. destruct D as (ys & Dc & A). symmetry in Ll. destruct (all3_split _ _ _ _ _ _ Ll A) as (y1 & y2 & -> & A1 & A2).
  destruct y2 as [|y y2]; [contradiction|]. cbn [all3] in A2. destruct A2 as [(E & K) A2].
  assert (y = []).
  { destruct (fpres f) as [| |dv] eqn:P; [contradiction| |].
    - rewrite Hn in K. exact K.
    - destruct K as (w & Dw & [(_ & Y)|(N & _)]); auto. exfalso. apply N. eauto. }
  subst y. exists (y1 ++ y2). split.
  - rewrite concat_app in *. exact Dc.
  - now apply all3_app.
Qed.
Theorem der_with c l f r t la na lb d : wf (SSeq c (l ++ f :: r)) -> tagging_ok t -> length la = length l -> fst na = fname f ->
  der (SSeq c (l ++ r)) t (ADict (la ++ lb)) d ->
  match fpres f with
  | Required => False
  | Optional => snd na = ANone
  | Default dv => denotes (snd f) dv (snd na)
  end -> der (SSeq c (l ++ f :: r)) t (ADict (la ++ na :: lb)) d.
Proof.
  intros W Ht Ll E D Hn. cbn [der] in *. destruct D as (ys & Dc & A). symmetry in Ll. destruct (all3_split _ _ _ _ _ _ Ll A) as (y1 & y2 & -> & A1 & A2).
  exists (y1 ++ [] :: y2). split; [now rewrite concat_app in *|]. apply all3_app; auto. cbn [all3]. split; auto. split; auto.
  destruct (fpres f) as [| |dv] eqn:P; [contradiction|now rewrite Hn|].
  assert (Inf : In f (l ++ f :: r)) by (apply in_or_app; cbn; auto).
  destruct W as (_ & _ & _ & _ & W). rewrite all1_in in W. destruct (W f Inf) as (Wf & _ & W2). rewrite P in W2. destruct W2 as (_ & _ & ad & w & Da & Dw & _).
  assert (snd na = ad) by (eapply denotes_fun; eauto). subst ad. exists w. split; auto. left. split; auto. eauto.
Qed.

(* ---- sets of ---- *)
Lemma all2_perm {A B} (R : A -> B -> Prop) l l' : Permutation l l' -> forall m, all2 R l m -> exists m', Permutation m m' /\ all2 R l' m'.
Proof.
  induction 1 as [|x l l' P IH|x y l|l l' l'' P1 IH1 P2 IH2]; intros m H.
  - exists m. auto.
  - destruct m as [|z m]; [contradiction|]. destruct H as [H K]. destruct (IH m K) as (m' & Pm & Km). exists (z :: m'). cbn. auto.
  - destruct m as [|z [|z' m]]; try (cbn in H; tauto). exists (z' :: z :: m). split; [constructor|]. cbn in *. tauto.
  - destruct (IH1 m H) as (m1 & Q1 & K1). destruct (IH2 m1 K1) as (m2 & Q2 & K2). exists m2. split; auto. now transitivity m1.
Qed.
Lemma der_setof_perm c s t l l' d : Permutation l l' -> der (SSetOf c s) t (AList l) d -> der (SSetOf c s) t (AList l') d.
Proof.
  intros P (ds & es & A & Q & S & D). destruct (all2_perm _ _ _ P _ A) as (ds' & P' & A'). exists ds', es. split; auto. split; auto.
  transitivity ds; auto. now symmetry.
Qed.
Theorem setof_order c s p li li' a d : wf (SSetOf c s) -> taggable (SSetOf c s) p -> denotes (SSetOf c s) (AList li) a ->
  der (SSetOf c s) (stags (SSetOf c s) p) a d -> Permutation li li' ->
  exists v v', x_make (methods (SSetOf c s)) p None (AList li) = Ok v /\ x_make (methods (SSetOf c s)) p None (AList li') = Ok v' /\
    forall f, snd (x_dump (methods (SSetOf c s)) f v) = Ok d /\ snd (x_dump (methods (SSetOf c s)) f v') = Ok d.
Proof.
  intros W T Di D P. destruct a as [| | |la| |]; try contradiction.
  assert (exists la', Permutation la la' /\ denotes (SSetOf c s) (AList li') (AList la')) as (la' & Pa & Di').
  { cbn [denotes] in *. destruct (all2_perm _ _ _ P _ Di) as (m & Q & K). eauto. }
  destruct (construct_ok _ p _ _ d W T Di D) as (v & _ & E & _ & _ & F & _).
  destruct (construct_ok _ p _ _ d W T Di' (der_setof_perm _ _ _ _ _ _ Pa D)) as (v' & _ & E' & _ & _ & F' & _).
  exists v, v'. split; auto.
Qed.

(* ---- choices ---- *)
Definition chosen (v : value) : option nat := match v with VChoice _ _ k _ => k | _ => None end.

Theorem choice_loads ex alts p k f a w d : wf (SChoice ex alts) -> taggable (SChoice ex alts) p -> nth_error alts k = Some f ->
  der (snd f) (ftags f) a w -> der_wrapped (ex ++ p_explicit p) w d ->
  exists v, cload (SChoice ex alts) p d true = Ok v /\ chosen v = Some k /\ forall b, snd (x_dump (methods (SChoice ex alts)) b v) = Ok d.
Proof.
  intros W T Hk Da Dw. set (CS := SChoice ex alts) in *. pose proof (nth_error_In _ _ Hk) as Inf.
  assert (D : der CS (stags CS p) (AChoice (fname f) a) d). { cbn [der CS]. exists w. split; [exact Dw|]. apply some_ex. exists f. auto. }
  pose proof (tok CS p W T) as Ht. destruct (der_info CS p _ d W D) as (i & Bi & _ & Ei & _). subst d.
  destruct (K_build CS (contract_all CS W) p None i _ T I Bi D) as (v & a' & E & S & (R & _)). exists v.
  split. { unfold cload. pose proof (parse__0_complete i [] Bi) as Q. rewrite app_nil_r in Q. rewrite Q. cbn [bind andb]. now rewrite Z.eqb_refl. }
  split; [|eapply dump_of; eauto; now apply der_sim with (AChoice (fname f) a)].
  apply rep_choice_eq in R as (b & e & k' & u & g & -> & -> & Hg & _). cbn [chosen]. f_equal.
  destruct S as (Nm & _). destruct W as (_ & Nd & _). 
  assert (L : forall i, nth_error (map fname alts) i = match nth_error alts i with Some h => Some (fname h) | None => None end) by (intros; apply nth_error_map).
  rewrite NoDup_nth_error in Nd. symmetry. apply Nd.
  - rewrite map_length. apply nth_error_Some. congruence.
  - rewrite !L, Hk, Hg. congruence.
Qed.

Theorem choice_refuses ex alts p data i e strict : wf (SChoice ex alts) -> taggable (SChoice ex alts) p ->
  parse_ data (len data) 0 = Ok (i, e) -> ~ In (i_class i, i_tag i) (outer_ids (SChoice ex alts) p) ->
  cload (SChoice ex alts) p data strict = Err ValueError.
Proof.
  intros W T P N. unfold cload. rewrite P. cbn [bind]. destruct (strict && negb (e =? len data)); auto.
  destruct (choice_params ex alts W p T) as (Hp & Ni & Et & Cx).
  assert (He : has_explicit (choice_cls ex) p = match ex ++ p_explicit p with [] => false | _ => true end).
  { unfold has_explicit. destruct Hp as (Np & _). rewrite Np. cbn. destruct ex, (p_explicit p); reflexivity. }
  change (x_build (methods (SChoice ex alts))) with (build_choice ex (fields alts)). unfold build_choice. rewrite He.
  change (stags (SChoice ex alts) p) with (Tagging 0 0 false (ex ++ p_explicit p)) in Et. cbn [outer_ids] in N.
  destruct Cx as [Cx|(x & Cx)]; rewrite Cx in *.
  - cbn [rev] in N. unfold plain_choice. rewrite Et. cbn [bind t_explicit validate].
    destruct (alt_of (fields alts) 0 (i_class i) (i_tag i)) eqn:A; auto. exfalso. apply N. apply (alt_of_in ex); eauto.
  - cbn [rev app] in N. unfold make_choice. rewrite Et. cbn [bind t_explicit rev app peel]. destruct x as [cl tg].
    destruct (i_class i =? cl) eqn:E1; cbn; auto. destruct (i_method i =? 1) eqn:E2; cbn; auto. destruct (i_tag i =? tg) eqn:E3; cbn; auto.
    exfalso. apply N. apply Z.eqb_eq in E1, E3. subst. cbn. auto.
Qed.

(* ---- reading ---- *)
Lemma reading_safe s : forall h a, forallb (fun d => reading (snd d)) h = true -> safe s h a.
Proof.
  induction h as [|[p x] h IH]; cbn; auto. intros a H. apply andb_true_iff in H as [Hx H]. split; [exists a; now constructor|]. intros b _. now apply IH.
Qed.
Lemma becomes_reading p x s a b : reading x = true -> becomes p x s a b -> b = a.
Proof. intros Hx B. inversion B; subst; auto; try congruence. match goal with H : changes _ _ _ _ |- _ => inversion H; subst; discriminate end. Qed.
Lemma reading_leads s : forall h a b, forallb (fun d => reading (snd d)) h = true -> leads s h a b -> b = a.
Proof.
  induction h as [|[p x] h IH]; intros a b H L; inversion L; subst; auto. cbn in H. apply andb_true_iff in H as [Hx H].
  match goal with B : becomes _ _ _ _ _ |- _ => rewrite (becomes_reading _ _ _ _ _ Hx B) in * end. now apply IH.
Qed.
Lemma reading_clean s : forall h, forallb (fun d => reading (snd d)) h = true -> trusted s h Clean = Clean.
Proof.
  induction h as [|[p x] h IH]; cbn; auto. intros H. apply andb_true_iff in H as [Hx H]. cbn in Hx.
  replace (match p with [] => _ | _ :: _ => _ end) with Clean; auto. destruct p; [destruct x; auto; now destruct force|]. now rewrite Hx.
Qed.
Lemma reading_stores : forall h, forallb (fun d => reading (snd d)) h = true -> stores_below h = false.
Proof.
  induction h as [|[p x] h IH]; cbn; auto. intros H. apply andb_true_iff in H as [Hx H]. cbn in Hx. fold (stores_below h). rewrite IH by auto. destruct p, x; auto; discriminate.
Qed.

Theorem reading_harmless s p a d r strict : wf s -> taggable s p -> der s (stags s p) a d -> (strict = true -> r = []) ->
  exists v a', cload s p (d ++ r) strict = Ok v /\ sim s a a' /\
    forall h, forallb (fun x => reading (snd x)) h = true ->
      (forall f, snd (x_dump (methods s) f (after s h v)) = Ok d) /\
      (exists x, snd (x_native (methods s) (after s h v)) = Ok x /\ shows s a' x).
Proof.
  intros W T D Hr. pose proof (tok s p W T) as Ht. destruct (der_info s p a d W D) as (i & Bi & _ & Ei & _). subst d.
  destruct (K_build s (contract_all s W) p None i a T I Bi D) as (v & a' & E & S & (R & _)).
  assert (D' : der s (stags s p) a' (encoding_of i)) by now apply der_sim with a. exists v, a'.
  split. { unfold cload. rewrite parse__0_complete by auto. cbn [bind].
    destruct strict; cbn [andb]; auto. rewrite (Hr eq_refl), app_nil_r, Z.eqb_refl. exact E. }
  split; auto. intros h Hh. destruct (history_ok s _ W Ht h a' Clean true v (reading_safe s h a' Hh) R) as (b & L & Rb).
  rewrite (reading_leads _ _ _ _ Hh L) in *. rewrite reading_clean, reading_stores in Rb by auto. cbn in Rb.
  split; [eapply dump_of; eauto|eapply native_of_rep; eauto].
Qed.

(* ---- lists ---- *)
Lemma update_eq {A} (l : list A) : forall i x, (i < length l)%nat -> update l i x = firstn i l ++ x :: skipn (S i) l.
Proof. induction l as [|y l IH]; intros [|i] x; cbn; intros H; try lia; auto. rewrite IH by lia. reflexivity. Qed.
Lemma remove_eq {A} (l : list A) : forall i, (i < length l)%nat -> remove_nth l i = firstn i l ++ skipn (S i) l.
Proof. induction l as [|y l IH]; intros [|i]; cbn; intros H; try lia; auto. rewrite IH by lia. reflexivity. Qed.
Lemma all2_update1 {A B} (R : A -> B -> Prop) : forall l m i x y, all2 R l m -> R x y -> all2 R (update l i x) (update m i y).
Proof. intros. eapply all2_update; eauto. Qed.
Lemma all2_snoc {A B} (R : A -> B -> Prop) : forall l m x y, all2 R l m -> R x y -> all2 R (l ++ [x]) (m ++ [y]).
Proof. induction l as [|a l IH]; intros [|b m]; cbn; try tauto. intros x y [H K] Q. auto. Qed.

Section Lists.
  Variable c : pcls.
  Variable s : spec.
  Variable sorted : bool.
  Notation L := (LS c s sorted).
  Hypothesis W : wf L.
  Notation ok := (accepted s (negb (is_choice s))).

  Lemma elt_wf : wf s. Proof. destruct sorted; apply W. Qed.
  Lemma welcome_ok x : welcome s x -> exists b, ok x b.
  Proof. intros (a & G & F). exists a. exists a. split; auto. split; auto. destruct F as (t & d & Ht & D). eapply sim_refl. apply der_encodes; [exact elt_wf|exact Ht|exact D]. Qed.

  Lemma plain_step x l lb t v : tagging_ok t -> list_deed s ([], x) -> all2 ok l lb -> rep Own true L t (AList lb) v ->
    snd (perform L x v) = match x with
                          | ARead | ADump _ | AContents => snd (perform L x v)
                          | ALen => Ok (RLen (len l))
                          | _ => match plain x l with Some _ => Ok RNone | None => Err IndexError end
                          end /\
    exists lb', all2 ok (match plain x l with Some l' => l' | None => l end) lb' /\ rep Own true L t (AList lb') (fst (perform L x v)).
  Proof.
    intros Ht Hx A R. pose proof (contract_all s elt_wf) as C. pose proof (all2_length _ _ _ A) as Ll.
    assert (Rd : reading x = true -> rep Own true L t (AList lb) (fst (perform L x v))).
    { intros Rx. destruct (read_here L x Own true t (AList lb) v W Rx Ht R) as (v' & r & E & R' & _). rewrite E. destruct x; auto. now destruct force. }
    pose proof R as R0. apply rep_list_eq in R0 as (la' & t' & e0 & ch & m & nc & E & -> & -> & _). injection E as <-.
    destruct (ensure_list_ok c s sorted _ _ _ _ _ _ _ _ R) as (l' & E & A' & _ & R1). pose proof (all2_length _ _ _ A') as Ll'.
    pose proof (LS_class c s sorted) as Lc. assert (Ce : class_explicit s = []) by (destruct sorted; apply W).
    assert (Xs : x_set (methods L) = set_list (methods s) []) by (destruct sorted; cbn; now rewrite Ce).
    assert (Xa : x_append (methods L) = append_list (methods s) []) by (destruct sorted; cbn; now rewrite Ce).
    assert (Xd : x_del (methods L) = del_list) by (destruct sorted; reflexivity).
    destruct x; cbn [list_deed] in Hx; try contradiction; cbn [plain].
    - split; auto. exists lb. split; auto.
    - split; auto. exists lb. split; auto.
    - split; auto. exists lb. split; auto.
    - split; [|exists lb; auto]. pose proof (len_answer L _ _ _ _ _ W R) as G. rewrite G. unfold len. now rewrite Ll.
    - destruct (Nat.ltb i (length l)) eqn:Lt.
      + split; [|exists lb; auto]. apply Nat.ltb_lt in Lt. destruct (nth_error_ex lb i) as [b Hb]; [congruence|].
        rewrite perform_step by discriminate. rewrite LS_get. destruct (list_get c s sorted _ _ _ _ _ _ _ _ _ _ R Hb) as (l1 & w & G & _). now rewrite G.
      + split; [|exists lb; auto]. apply Nat.ltb_ge in Lt. assert (P : past (AGet i) (length lb)) by (cbn; lia). exact (index_answer _ _ _ _ _ _ _ _ W Lc P R).
    - destruct (welcome_ok _ Hx) as (b & Hb). rewrite perform_step by discriminate. rewrite Xs. destruct (Nat.ltb i (length l)) eqn:Lt; [|destruct (Nat.eqb i (length l)) eqn:Le].
      + apply Nat.ltb_lt in Lt. destruct (set_list_ok c s sorted W C _ _ _ _ _ _ _ _ i x b R) as (ch' & nc' & b' & G & Hb' & R' & _); [lia|auto|].
        rewrite G. split; auto. exists (update lb i b'). replace (Nat.eqb i (length lb)) with false in R' by (symmetry; apply Nat.eqb_neq; lia).
        split; [rewrite <- update_eq by auto; now apply all2_update1|exact R'].
      + apply Nat.eqb_eq in Le. destruct (set_list_ok c s sorted W C _ _ _ _ _ _ _ _ i x b R) as (ch' & nc' & b' & G & Hb' & R' & _); [lia|auto|].
        rewrite G. split; auto. exists (lb ++ [b']). replace (Nat.eqb i (length lb)) with true in R' by (symmetry; apply Nat.eqb_eq; lia).
        split; [now apply all2_snoc|exact R'].
      + apply Nat.ltb_ge in Lt. apply Nat.eqb_neq in Le. destruct (accepted_made c s sorted W C x b Hb) as (nv & b' & G & _). unfold set_list. rewrite E, G.
        replace (Nat.ltb (length l') i) with true by (symmetry; apply Nat.ltb_lt; lia). split; auto. exists lb. split; auto.
    - rewrite perform_step by discriminate. rewrite Xd. destruct (Nat.ltb i (length l)) eqn:Lt.
      + apply Nat.ltb_lt in Lt. destruct (del_list_ok c s sorted _ _ _ _ _ _ _ _ i R) as (ch' & nc' & G & R' & _); [lia|].
        rewrite G. split; auto. exists (remove_nth lb i). split; [rewrite <- remove_eq by auto; now apply all2_remove|exact R'].
      + apply Nat.ltb_ge in Lt. unfold del_list. rewrite E. replace (Nat.ltb i (length l')) with false by (symmetry; apply Nat.ltb_ge; lia).
        split; auto. exists lb. split; auto.
    - destruct (welcome_ok _ Hx) as (b & Hb). rewrite perform_step by discriminate. rewrite Xa.
      destruct (append_list_ok c s sorted W C _ _ _ _ _ _ _ _ x b R) as (ch' & nc' & b' & G & Hb' & R' & _); [auto|].
      rewrite G. split; auto. exists (lb ++ [b']). split; [now apply all2_snoc|exact R'].
  Qed.

  Lemma plain_history t : tagging_ok t -> forall h l lb v, Forall (list_deed s) h -> all2 ok l lb -> rep Own true L t (AList lb) v ->
    exists lb', all2 ok (plains h l) lb' /\ rep Own true L t (AList lb') (after L h v).
  Proof.
    intros Ht. induction h as [|[p x] h IH]; intros l lb v Hh A R; [exists lb; auto|]. inversion Hh as [|? ? Hd Hr]; subst.
    cbn [after]. destruct p as [|i p].
    - cbn [plains through]. destruct (plain_step x l lb t v Ht Hd A R) as (_ & lb' & A' & R'). exact (IH _ _ _ Hr A' R').
    - cbn [plains]. cbn in Hd. destruct (read_ok (i :: p) x L Own true t (AList lb) v W Hd Ht R) as (v' & r & E & R' & _). rewrite E. exact (IH _ _ _ Hr A R').
  Qed.

  Lemma given_fun b x a a' : given s b (denotes s) x a -> given s b (denotes s) x a' -> a = a'.
  Proof. destruct x; cbn; intros [_ H] [_ K]; exact (denotes_fun s _ _ _ elt_wf H K). Qed.
  Lemma ok_sim l la lb : all2 (given s (negb (is_choice s)) (denotes s)) l la -> all2 ok l lb -> all2 (sim s) la lb.
  Proof.
    revert la lb. induction l as [|x l IH]; intros [|a la] [|b lb]; cbn; try tauto. intros [G H] [(a' & G' & _ & S) K].
    rewrite (given_fun _ _ _ _ G G'). auto.
  Qed.
  Lemma sim_lists la lb : all2 (sim s) la lb -> sim L (AList la) (AList lb).
  Proof. intros H. destruct sorted; cbn; [exists la; auto|auto]. Qed.
  Lemma denotes_lists l la : denotes L (AList l) (AList la) <-> all2 (given s (negb (is_choice s)) (denotes s)) l la.
  Proof. destruct sorted; reflexivity. Qed.
  Lemma fits_elt la : fits L (AList la) -> Forall (fits s) la.
  Proof.
    intros (t & d & Ht & D). assert (exists ds, all2 (der s (stags s no_params)) la ds) as (ds & A).
    { destruct sorted; cbn in D; [destruct D as (ds & es & A & _)|destruct D as (ds & A & _)]; eauto. }
    clear D. revert ds A. induction la as [|a la IH]; intros [|x ds]; cbn; try tauto; [constructor|]. intros [H K]. constructor; [|eapply IH; eauto].
    eapply der_fits; [|exact H]. exact (tags_T0 c s sorted W).
  Qed.

  Lemma given_ok l la lb : all2 (given s (negb (is_choice s)) (denotes s)) l la -> Forall (fits s) la -> all2 (sim s) la lb -> all2 ok l lb.
  Proof.
    revert la lb. induction l as [|x l IH]; intros [|a la] [|b lb]; cbn; try tauto. intros [G H] F [S K]. inversion F; subst.
    split; [exists a; auto|eapply IH; eauto].
  Qed.

  (* what is observed of the object v once a plain list of arguments, after the same
     operations, holds lf, standing for lfa with encoding d *)
  Definition like_list (lf lfa : list aval) (d : bytes) (v : value) : Prop :=
    (forall f, snd (through [] (ADump f) L v) = Ok (RDump d)) /\
    (exists a' x, sim L (AList lfa) a' /\ snd (through [] ARead L v) = Ok (RNat x) /\ shows L a' x) /\
    (forall i a, nth_error lfa i = Some a -> exists a' x, sim s a a' /\ shows s a' x /\ snd (through [i] ARead L v) = Ok (RNat x)) /\
    snd (through [] ALen L v) = Ok (RLen (len lf)) /\
    forall x, list_deed s ([], x) -> reading x = false \/ (exists i, x = AGet i) ->
      snd (through [] x L v) = match plain x lf with Some _ => Ok RNone | None => Err IndexError end.

  Lemma list_after t li lb v h lfa d : tagging_ok t -> all2 ok li lb -> rep Own true L t (AList lb) v ->
    Forall (list_deed s) h -> denotes L (AList (plains h li)) (AList lfa) -> der L t (AList lfa) d ->
    like_list (plains h li) lfa d (after L h v).
  Proof.
    intros Ht Ai R0 Hh Df D. pose proof (contract_all s elt_wf) as C. pose proof (proj1 (denotes_lists _ _) Df) as Gf.
    destruct (plain_history _ Ht h li lb v Hh Ai R0) as (lf & Af & Rf).
    pose proof (ok_sim _ _ _ Gf Af) as Sf. pose proof (sim_lists _ _ Sf) as SL.
    assert (Nv : after L h v <> VVoid) by (eapply rep_void; eauto).
    split. { intros f. cbn [through]. rewrite perform_step by auto.
      assert (D' : der L t (AList lf) d) by now apply der_sim with (AList lfa). pose proof (dump_of L _ _ _ d W Ht Rf D' f) as G.
      destruct (x_dump (methods L) f (after L h v)) as [v' y]. cbn in *. now subst. }
    split. { destruct (native_of_rep L _ _ _ W Ht Rf) as (x & Ex & Sh). exists (AList lf), x. split; auto. split; auto.
      cbn [through]. rewrite perform_step by auto. destruct (x_native (methods L) (after L h v)) as [v' y]. cbn in *. now subst. }
    split. { intros i a Hi. destruct (all2_nth _ _ _ _ _ Sf Hi) as (b & Hb & Sb). apply nth_error_split in Hb as (l1 & l2 & -> & Hl).
      assert (Si : sits [i] L t (AList (l1 ++ b :: l2)) s (stags s no_params) b).
      { subst i. eapply S_elt; [apply LS_class|apply S_here]. }
      destruct (reach_at _ _ _ _ _ _ _ Si Own true _ W Ht Rf) as (q' & w & W' & T' & R' & Aq & Et). 
      destruct (K_native s C _ _ _ _ _ T' R') as (w' & x & Ex & _ & _ & _ & _ & Sh). exists b, x. split; auto. split; auto.
      rewrite Et, perform_step by (eapply rep_void; eauto). rewrite Ex. reflexivity. }
    split. { destruct (plain_step ALen _ _ _ _ Ht I Af Rf) as (G & _). exact G. }
    intros x Hx Hr. destruct (plain_step x _ _ _ _ Ht Hx Af Rf) as (G & _). cbn [through]. rewrite G.
    destruct Hr as [Hr|(i & ->)]; [|reflexivity]. destruct x; try discriminate; reflexivity.
  Qed.

  (* li: the initial elements; plains h li is what a plain list holds after the same operations *)
  Theorem list_history p li la h lfa d : taggable L p -> denotes L (AList li) (AList la) -> fits L (AList la) ->
    Forall (list_deed s) h -> denotes L (AList (plains h li)) (AList lfa) -> der L (stags L p) (AList lfa) d ->
    exists v, x_make (methods L) p None (AList li) = Ok v /\ like_list (plains h li) lfa d (after L h v).
  Proof.
    intros T Di F Hh Df D. pose proof (tok L p W T) as Ht. pose proof (contract_all s elt_wf) as C.
    assert (Ce : class_explicit s = []) by (destruct sorted; apply W).
    destruct (make_list_ok c s sorted W C p (AList li) la T Di F) as (v & lb & E & S & R & _).
    exists v. split. { rewrite <- E. destruct sorted; cbn; now rewrite Ce. }
    pose proof (proj1 (denotes_lists _ _) Di) as Gi.
    assert (R0 : rep Own true L (stags L p) (AList lb) v) by (destruct sorted; exact R).
    exact (list_after _ li lb v h lfa d Ht (given_ok _ _ _ Gi (fits_elt _ F) S) R0 Hh Df D).
  Qed.
End Lists.

Theorem list_load_history c s p li la d0 h lfa d : let L := SSeqOf c s in
  wf L -> taggable L p -> denotes L (AList li) (AList la) -> der L (stags L p) (AList la) d0 ->
  Forall (list_deed s) h -> denotes L (AList (plains h li)) (AList lfa) -> der L (stags L p) (AList lfa) d ->
  exists v, cload L p d0 true = Ok v /\ like_list c s false (plains h li) lfa d (after L h v).
Proof.
  intros L W T Di D0 Hh Df D. pose proof (tok L p W T) as Ht. destruct (der_info L p _ d0 W D0) as (i & Bi & _ & Ei & _). subst d0.
  destruct (K_build L (contract_all L W) p None i _ T I Bi D0) as (v & a' & E & S & (R & _)). exists v.
  split. { unfold cload. pose proof (parse__0_complete i [] Bi) as Q. rewrite app_nil_r in Q. rewrite Q. cbn [bind andb]. now rewrite Z.eqb_refl. }
  destruct a' as [| | |lb| |]; try contradiction.
  refine (list_after c s false W (stags L p) li lb v h lfa d Ht _ R Hh Df D).
  apply (given_ok s li la lb); [exact Di| |exact S]. apply (fits_elt c s false W). exact (der_fits _ _ _ _ Ht D0).
Qed.

(* ---- one encoding, one value ---- *)
Theorem unambiguous s p a b d : wf s -> taggable s p -> der s (stags s p) a d -> der s (stags s p) b d -> sim s a b.
Proof.
  intros W T Da Db. pose proof (tok s p W T) as Ht. destruct (der_info s p a d W Da) as (i & Bi & _ & Ei & _). subst d.
  destruct (K_build s (contract_all s W) p None i _ T I Bi Da) as (v & a' & E & S & (R & _)).
  destruct (K_build s (contract_all s W) p None i _ T I Bi Db) as (v' & b' & E' & S' & (R' & _)). rewrite E in E'. injection E' as <-.
  pose proof (rep_fun s _ _ _ _ _ _ _ _ _ R R') as Q. eapply sim_trans; [exact W|exact S|]. eapply sim_trans; [exact W|exact Q|]. now apply sim_sym.
Qed.

(* ---- construct, dump, load ---- *)
Theorem roundtrip s p i a : wf s -> taggable s p -> denotes s i a ->
  exists d, encodes s (stags s p) a d /\ (len d < 2 ^ 1008 -> der s (stags s p) a d /\
    (exists v a', x_make (methods s) p None i = Ok v /\ sim s a a' /\
      (forall f, snd (x_dump (methods s) f v) = Ok d) /\ exists x, snd (x_native (methods s) v) = Ok x /\ shows s a' x) /\
    exists v a', cload s p d true = Ok v /\ sim s a a' /\
      (forall f, snd (x_dump (methods s) f v) = Ok d) /\ exists x, snd (x_native (methods s) v) = Ok x /\ shows s a' x).
Proof.
  intros W T Di. pose proof (tok s p W T) as Ht. destruct (encodable s W i a (stags s p) Di) as (d & E). exists d. split; auto. intros Hl.
  assert (D : der s (stags s p) a d) by now apply (encodes_der_both s W _ Ht). split; auto. split.
  - destruct (construct_ok s p i a d W T Di D) as (v & a' & Ev & S & _ & Fd & Nd & _). exists v, a'. auto.
  - destruct (load_ok s p a d [] true W T D (fun _ => eq_refl)) as (v & a' & Ev & S & _ & Fd & Nd & _). rewrite app_nil_r in Ev. exists v, a'. auto.
Qed.

(* ---- copies and changed tags ---- *)
Definition either_way (s : spec) (p : params) (i : aval) (d : bytes) (v : value) : Prop :=
  x_make (methods s) p None i = Ok v \/ cload s p d true = Ok v.
Lemma either_rep s p i a d v : wf s -> taggable s p -> denotes s i a -> der s (stags s p) a d -> either_way s p i d v ->
  exists a', sim s a a' /\ rep Own true s (stags s p) a' v /\ has_dict v = false.
Proof.
  intros W T Di D Ev. pose proof (tok s p W T) as Ht. destruct Ev as [Ev|Ev].
  - destruct (K_make s (contract_all s W) p i a T Di (der_fits _ _ _ _ Ht D)) as (v' & a' & E & S & R & N). rewrite Ev in E. injection E as <-. eauto.
  - destruct (der_info s p a d W D) as (j & Bi & _ & Ei & _). subst d. unfold cload in Ev.
    pose proof (parse__0_complete j [] Bi) as Q. rewrite app_nil_r in Q. rewrite Q in Ev. cbn [bind andb] in Ev. rewrite Z.eqb_refl in Ev.
    destruct (K_build s (contract_all s W) p None j a T I Bi D) as (v' & a' & E & S & (R & N & _)). cbn in Ev. rewrite Ev in E. injection E as <-. eauto.
Qed.
Theorem copy_fresh s p i a d v : wf s -> taggable s p -> denotes s i a -> der s (stags s p) a d -> either_way s p i d v ->
  exists v' a', x_copy (methods s) v = Ok v' /\ sim s a a' /\ follows s (stags s p) a' v'.
Proof.
  intros W T Di D Ev. pose proof (tok s p W T) as Ht. destruct (either_rep s p i a d v W T Di D Ev) as (a1 & S1 & R1 & N1).
  destruct (K_copy s (contract_all s W) Own true _ a1 v eq_refl Ht (fits_sim _ _ _ W S1 (der_fits _ _ _ _ Ht D)) R1) as (v' & a' & E & S & R & _).
  rewrite N1 in R. exists v', a'. split; auto. split; [eapply sim_trans; eauto|]. now apply follows_ok.
Qed.
Theorem retag_fresh s p p' i a d v : wf s -> taggable s p -> taggable s p' -> denotes s i a -> der s (stags s p) a d -> either_way s p i d v ->
  exists v' a', x_retag (methods s) p' v = Ok v' /\ sim s a a' /\ follows s (stags s p') a' v'.
Proof.
  intros W T T' Di D Ev. pose proof (tok s p W T) as Ht. destruct (either_rep s p i a d v W T Di D Ev) as (a1 & S1 & R1 & N1).
  destruct (K_retag s (contract_all s W) p' Own true _ a1 v eq_refl T' Ht (fits_sim _ _ _ W S1 (der_fits _ _ _ _ Ht D)) R1) as (v' & a' & E & S & R & _).
  rewrite N1 in R. exists v', a'. split; auto. split; [eapply sim_trans; eauto|]. apply follows_ok; auto. exact (tok s p' W T').
Qed.

(* ---- fields that contribute nothing ---- *)
Definition silent (f : fld * spec) (a : aval) : Prop :=
  match fpres f with Required => False | Optional => a = ANone | Default dv => denotes (snd f) dv a end.
Theorem silent_field_dump c l f r p i la na lb d : let s := SSeq c (l ++ f :: r) in
  wf s -> taggable s p -> length la = length l -> denotes s i (ADict (la ++ na :: lb)) -> silent f (snd na) ->
  der (SSeq c (l ++ r)) (stags s p) (ADict (la ++ lb)) d ->
  exists v, x_make (methods s) p None i = Ok v /\ forall b, snd (x_dump (methods s) b v) = Ok d.
Proof.
  intros s W T Hl Di Hs D. pose proof (tok s p W T) as Ht.
  assert (En : fst na = fname f).
  { cbn [denotes s] in Di. destruct i as [| |li| | |]; try contradiction. destruct Di as (_ & _ & A).
    assert (Hf : nth_error (l ++ f :: r) (length l) = Some f) by (rewrite nth_error_app2 by lia; now rewrite Nat.sub_diag).
    destruct (all2_nth _ _ _ _ _ A Hf) as (y & Hy & (E & _)). rewrite <- Hl, nth_error_app2, Nat.sub_diag in Hy by lia. injection Hy as <-. exact E. }
  pose proof (der_with c l f r (stags s p) la na lb d W Ht Hl En D Hs) as D'.
  destruct (construct_ok s p i _ d W T Di D') as (v & _ & Ev & _ & _ & Fd & _). exists v. auto.
Qed.
Theorem silent_field_read c l f r p la a lb d : let s := SSeq c (l ++ f :: r) in
  wf s -> taggable s p -> length la = length l -> silent f a ->
  der (SSeq c (l ++ r)) (stags s p) (ADict (la ++ lb)) d ->
  exists v lx y, cload s p d true = Ok v /\ snd (x_native (methods s) v) = Ok (ADict lx) /\ nth_error lx (length l) = Some (fname f, y) /\
    match fpres f with Optional => y = ANone | _ => exists a', sim (snd f) a a' /\ shows (snd f) a' y end.
Proof.
  intros s W T Hl Hs D. pose proof (tok s p W T) as Ht.
  pose proof (der_with c l f r (stags s p) la (fname f, a) lb d W Ht Hl eq_refl D Hs) as D'.
  destruct (load_ok s p _ d [] true W T D' (fun _ => eq_refl)) as (v & a' & Ev & S & _ & _ & (x & Nx & Sx) & _). rewrite app_nil_r in Ev.
  destruct a' as [| |ll| | |]; try contradiction. cbn [shows s] in Sx. destruct Sx as (lx & -> & Sx).
  assert (Hf : nth_error (l ++ f :: r) (length l) = Some f) by (rewrite nth_error_app2 by lia; now rewrite Nat.sub_diag).
  cbn [sim s] in S. destruct (all3_nth _ _ _ _ _ _ S Hf) as (na & nb & Ha & Hb & (E1 & E2 & Q)).
  rewrite <- Hl, nth_error_app2, Nat.sub_diag in Ha by lia. injection Ha as <-. cbn [fst snd] in *.
  destruct (all3_nth _ _ _ _ _ _ Sx Hf) as (nb' & nx & Hb' & Hx & (F1 & F2 & Q')). rewrite Hb in Hb'. injection Hb' as <-.
  exists v, lx, (snd nx). split; auto. split; auto. split; [destruct nx; cbn in *; now subst|].
  unfold silent in Hs. destruct (fpres f); [contradiction| |eauto]. subst a. rewrite Q in Q'. exact Q'.
Qed.

Theorem choice_made ex alts p n b a f w d : wf (SChoice ex alts) -> taggable (SChoice ex alts) p -> In f alts -> fname f = n -> denotes (snd f) b a ->
  der (snd f) (ftags f) a w -> der_wrapped (ex ++ p_explicit p) w d -> (forall q c, b <> AObj q c) ->
  exists v, x_make (methods (SChoice ex alts)) p None (AChoice n b) = Ok v /\ forall force, snd (x_dump (methods (SChoice ex alts)) force v) = Ok d.
Proof.
  intros W T Hf Hn Db Da Dw No. set (CS := SChoice ex alts) in *.
  assert (D : der CS (stags CS p) (AChoice n a) d). { cbn [der CS]. exists w. split; [exact Dw|]. apply some_ex. exists f. auto. }
  assert (Di : denotes CS (AChoice n b) (AChoice n a)).
  { cbn [denotes CS]. split; auto. apply some_ex. exists f. split; auto. split; auto. destruct b; cbn [given]; auto. now elim (No p0 b). }
  destruct (construct_ok CS p _ _ d W T Di D) as (v & _ & Ev & _ & _ & Fd & _). exists v. auto.
Qed.

Theorem reads_agree s p a d : wf s -> taggable s p -> der s (stags s p) a d ->
  exists v a', cload s p d true = Ok v /\ sim s a a' /\ forall h, forallb (fun x => reading (snd x)) h = true ->
    exists x, snd (x_native (methods s) (after s h v)) = Ok x /\ shows s a' x.
Proof.
  intros W T D. destruct (reading_harmless s p a d [] true W T D (fun _ => eq_refl)) as (v & a' & E & S & H). rewrite app_nil_r in E.
  exists v, a'. split; auto. split; auto. intros h Hh. now apply H.
Qed.

Theorem fresh_follows s p i a d v : wf s -> taggable s p -> denotes s i a -> der s (stags s p) a d -> either_way s p i d v ->
  exists a', sim s a a' /\ follows s (stags s p) a' v.
Proof.
  intros W T Di D Ev. destruct (either_rep s p i a d v W T Di D Ev) as (a' & S & R & _). exists a'. split; auto. apply follows_ok; auto. exact (tok s p W T).
Qed.
Theorem forced_dump_after s p i a d v h : wf s -> taggable s p -> denotes s i a -> der s (stags s p) a d -> either_way s p i d v ->
  exists a', sim s a a' /\ (safe s h a' -> exists b e, leads s h a' b /\
    snd (through [] (ADump true) s (after s h v)) = Ok (RDump e) /\ (len e < 2 ^ 1008 -> der s (stags s p) b e)).
Proof.
  intros W T Di D Ev. destruct (fresh_follows s p i a d v W T Di D Ev) as (a' & S & F). exists a'. split; auto. intros Hs.
  destruct (F h Hs) as (b & L & _ & O). destruct (O [] s (stags s p) b (S_here _ _ _)) as (_ & Du & _). destruct (Du true) as (e & E & De). exists b, e. auto.
Qed.
