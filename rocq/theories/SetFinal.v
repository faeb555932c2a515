(* Sets with named members: the encoding is unique, and objects that are made follow their
   values. *)
Require Import Verif.Base Verif.BaseFacts Verif.ParserModel Verif.ParserSpec Verif.Text Verif.TagSpec Verif.TagProofs
  Verif.PrimModel Verif.PrimSpec Verif.ContModel Verif.ContSpec Verif.ContBase Verif.ContRep Verif.ContPrim Verif.ContSeq Verif.ContSeq2 Verif.ContList Verif.ContChoice
  Verif.ContPath Verif.ContHistSpec Verif.ContHist Verif.ContHist2 Verif.ContFinal Verif.SetSpec Verif.SetProofs Verif.SetLoad.
Require Import Sorting.Permutation Sorting.Sorted.

Lemma tag_le_anti x y : tag_le x y -> tag_le y x -> x = y.
Proof. destruct x, y. unfold tag_le. cbn. intros. f_equal; lia. Qed.
Definition entry_le (x y : (Z * Z) * bytes) : Prop := tag_le (fst x) (fst y).
Lemma entries_unique l : forall m, Permutation l m -> NoDup (map fst l) -> StronglySorted entry_le l -> StronglySorted entry_le m -> l = m.
Proof.
  induction l as [|x l IH]; intros m P N Sl Sm; [apply Permutation_nil in P; congruence|].
  destruct m as [|y m]; [apply Permutation_sym, Permutation_nil in P; discriminate|]. cbn [map] in N. inversion N as [|? ? N1 N2]; subst.
  inversion Sl as [|? ? Sl1 Sl2]; subst. inversion Sm as [|? ? Sm1 Sm2]; subst.
  assert (E : x = y).
  { pose proof (Permutation_in _ P (or_introl eq_refl)) as Hx. pose proof (Permutation_in _ (Permutation_sym P) (or_introl eq_refl)) as Hy.
    destruct Hx as [Hx|Hx]; auto. destruct Hy as [Hy|Hy]; auto. rewrite Forall_forall in Sl2, Sm2. specialize (Sl2 _ Hy). specialize (Sm2 _ Hx).
    exfalso. apply N1. rewrite (tag_le_anti _ _ Sl2 Sm2). now apply in_map. }
  subst y. f_equal. apply IH; auto. eapply Permutation_cons_inv; eauto.
Qed.
Lemma written_apart (l : list (Z * Z)) : forall ys, NoDup l -> NoDup (map fst (filter written (combine l ys))).
Proof.
  induction l as [|z l IH]; intros [|y ys] N; cbn; try constructor. inversion N as [|? ? N1 N2]; subst.
  assert (I' : forall ys x, In x (map fst (filter written (combine l ys))) -> In x l).
  { clear. induction l as [|z l IH]; intros [|y ys] x; cbn; try tauto. unfold written at 1. cbn. destruct y; cbn; [intros H; right; eapply IH; eauto|].
    intros [H|H]; auto. right. eapply IH; eauto. }
  unfold written at 1. cbn. destruct y; cbn; [now apply IH|]. constructor; [|now apply IH]. intros H. apply N1. eapply I'; eauto.
Qed.

Theorem der_set_unique c fs t a d d' : wf (SSeq c fs) -> apart fs -> tagging_ok t -> der_set fs t a d -> der_set fs t a d' -> d = d'.
Proof.
  intros W AP Ht H K. destruct a as [| |la| | |]; try contradiction. destruct H as (ys & zs & Ay & P & Sz & D), K as (ys' & zs' & Ay' & P' & Sz' & D').
  assert (ys' = ys) by (eapply (enc_fields_fun fs (wf_wf c fs W)); eapply der_enc_field; eauto). subst ys'.
  assert (zs = zs').
  { apply entries_unique; auto.
    - eapply Permutation_trans; [apply Permutation_sym; exact P|exact P'].
    - eapply Permutation_NoDup; [apply Permutation_map; exact P|]. now apply written_apart. }
  subst zs'. apply der_constructed_bytes in D as [-> _], D' as [-> _]; auto.
Qed.

Lemma enc_set_fun c fs la x x' : wf (SSeq c fs) -> apart fs -> enc_set fs la x -> enc_set fs la x' -> x = x'.
Proof.
  intros W AP (ys & zs & Ay & P & Sz & ->) (ys' & zs' & Ay' & P' & Sz' & ->).
  assert (ys' = ys) by (eapply (enc_fields_fun fs (wf_wf c fs W)); eauto). subst ys'.
  assert (E : map led zs = map led zs').
  { apply entries_unique; auto.
    - apply Permutation_map. eapply Permutation_trans; [apply Permutation_sym; exact P|exact P'].
    - eapply Permutation_NoDup; [apply Permutation_map, Permutation_map; exact P|]. rewrite filled_led. now apply written_apart. }
  replace (map snd zs) with (map snd (map led zs)) by (rewrite map_map; apply map_ext; reflexivity). rewrite E.
  rewrite map_map. reflexivity.
Qed.
Lemma der_enc_set c fs t la d : wf (SSeq c fs) -> tagging_ok t -> der_set fs t (ADict la) d -> exists x, enc_set fs la x /\ d = cbytes t x /\ der_constructed t x d.
Proof.
  intros W Ht (ys & zs & Ay & P & Sz & D). rewrite <- filled_led in P. apply Permutation_sym, Permutation_map_inv in P as (ws & -> & Pw).
  replace (map snd (map led ws)) with (map snd ws) in D by (rewrite map_map; apply map_ext; reflexivity).
  exists (concat (map snd ws)). split; [|split; auto; now apply der_constructed_bytes in D as [-> _]].
  exists ys, ws. split; [eapply der_enc_field; eauto|]. split; [now apply Permutation_sym|auto].
Qed.
Lemma der_wrapped_len ex : forall x y d, len x = len y -> der_wrapped ex x d -> exists e, der_wrapped ex y e.
Proof.
  induction ex as [|[c t] r IH]; intros x y d L H; cbn [der_wrapped] in *; [eauto|]. destruct H as (mid & (i & l & Hi & Hl & ->) & K).
  destruct (IH (i ++ l ++ x) (i ++ l ++ y) d) as (e & E); auto; [rewrite !len_app; lia|]. exists e, (i ++ l ++ y). split; auto. exists i, l. rewrite <- L. auto.
Qed.
Lemma der_constructed_len t x y d : len x = len y -> der_constructed t x d -> exists e, der_constructed t y e.
Proof.
  intros L (inner & (i & l & Hi & Hl & ->) & K). destruct (der_wrapped_len (t_explicit t) (i ++ l ++ x) (i ++ l ++ y) d) as (e & E); auto; [rewrite !len_app; lia|].
  exists e, (i ++ l ++ y). split; auto. exists i, l. rewrite <- L. auto.
Qed.
Lemma der_set_seq c fs t la d : wf (SSeq c fs) -> tagging_ok t -> der_set fs t (ADict la) d -> exists d', der (SSeq c fs) t (ADict la) d'.
Proof.
  intros W Ht D. destruct (der_enc_set c fs t la d W Ht D) as (x & (ys & zs & Ay & P & Sz & Ex) & -> & Dx). destruct D as (ys' & zs' & Ay' & _).
  assert (ys' = ys) by (eapply (enc_fields_fun fs (wf_wf c fs W)); [eapply der_enc_field; eauto|eauto]). subst ys'.
  assert (Lx : len x = len (concat ys)).
  { rewrite Ex. rewrite <- (concat_perm_len _ _ (Permutation_map snd P)). pose proof (all3_length _ _ _ _ Ay) as [_ Ll]. now apply filled_len. }
  destruct (der_constructed_len _ _ _ _ Lx Dx) as (e & E). exists e. cbn [der]. exists ys. auto.
Qed.
Lemma full_sim fs : forall la lb, all3 simf fs la lb -> allset la -> allset lb.
Proof.
  induction fs as [|f fs IH]; intros [|na la] [|nb lb]; cbn [all3]; try tauto.
  intros [H1 H2] F. inversion F as [|? ? F1 F2]; subst.
  constructor; [|eapply IH; eauto]. apply simf_cases in H1 as (_ & _ & [(_ & X & _)|H1]); [contradiction|]. apply sim_not_none in H1. tauto.
Qed.

Theorem set_make c fs p i a d : wf (SSeq c fs) -> plain_members fs -> orderly fs -> apart fs -> taggable (SSeq c fs) p -> denotes (SSeq c fs) i a ->
  der_set fs (tags_of c p) a d ->
  exists v b, x_make (methods (SSet c fs)) p None i = Ok v /\ sim (SSeq c fs) a b /\ set_follows c fs Clean (tags_of c p) b v /\
    (full a -> forall f, snd (perform (SSet c fs) (ADump f) v) = Ok (RDump d)).
Proof.
  intros W PM O AP T D Ds. assert (exists la, a = ADict la) as [la ->] by (cbn in D; destruct i, a; try contradiction; eauto).
  pose proof (tok _ p W T) as Ht. cbn [stags] in Ht. destruct (der_set_seq c fs _ la d W Ht Ds) as (d' & D').
  destruct (make_any_ok c fs W (fun f Hf => contract_all _ (wf_wf c fs W f Hf)) true p i la T D (der_fits _ _ _ _ Ht D')) as (v & la' & Ev & S1 & R & _ & l & -> & Aw).
  eexists _, (ADict la'). split; [exact Ev|]. split; [now apply sim_seq|].
  assert (Tw : tw fs Own (tags_of c p) la' (VSeq (tags_of c p) no_enc (Some l) true None) (VSeq (tags_of c p) no_enc (Some l) true None)).
  { exists no_enc, no_enc, l, true, None. split; auto. split; auto. split; [unfold alike; cbn; auto 10|]. split; [exact Aw|]. discriminate. }
  split; [eapply set_follows_ok; eauto|]. intros F f. rewrite ST_step by discriminate.
  destruct (dump_tw c fs W PM O Own true _ _ _ _ f Tw R (full_sim fs la la' S1 F)) as (v' & u' & e & e' & E & _ & _ & _ & En). rewrite E. cbn [reply snd].
  destruct En as (x & Ex & ->); auto. destruct (der_enc_set c fs _ la d W Ht Ds) as (y & (ys & zs & Ay & Ey) & -> & _).
  assert (Ey' : enc_set fs la' y) by (exists ys, zs; split; [eapply enc_all_sim; eauto; exact (wf_wf c fs W)|exact Ey]).
  now rewrite (enc_set_fun c fs la' x y W AP Ex Ey').
Qed.
