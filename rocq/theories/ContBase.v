(* Facts about the specification of structured values: encodings are unique, similar
   values have the same encodings, and the encodings in terms of the headers written by
   dump. *)
Require Import Verif.Base Verif.BaseFacts Verif.IntModel Verif.IntSpec Verif.IntProofs
  Verif.ParserModel Verif.ParserSpec Verif.ParserProofs Verif.ParserFacts Verif.Text Verif.CodecModel Verif.TagSpec Verif.TagProofs
  Verif.PrimModel Verif.PrimSpec Verif.PrimProofs Verif.PrimSet Verif.PrimDump Verif.PrimLoad Verif.HistSpec Verif.PrimHist
  Verif.PrimRead Verif.PrimSide Verif.ContModel Verif.ContSpec.
Require Import Sorting.Permutation Sorting.Sorted.

(* ---- lists ---- *)
Section ListFacts.
  Context {A B C : Type}.
  Lemma all1_in (P : A -> Prop) l : all1 P l <-> (forall x, In x l -> P x).
  Proof.
    induction l as [|y l IH]; cbn; [tauto|]. rewrite IH. split.
    - intros [H K] x [<-|I]; auto.
    - intros H. split; auto.
  Qed.
  Lemma all1_forall (P : A -> Prop) l : all1 P l <-> Forall P l.
  Proof. now rewrite all1_in, Forall_forall. Qed.
  Lemma some_ex (P : A -> Prop) l : some P l <-> exists x, In x l /\ P x.
  Proof.
    induction l as [|y l IH]; cbn; [firstorder|]. rewrite IH. split.
    - intros [H|(x & I & H)]; eauto.
    - intros (x & [<-|I] & H); eauto.
  Qed.
  Lemma at_nth_iff (P : A -> Prop) l k : at_nth P l k <-> exists x, nth_error l k = Some x /\ P x.
  Proof.
    revert k. induction l as [|y l IH]; intros [|k]; cbn.
    - firstorder discriminate.
    - firstorder discriminate.
    - split; [eauto|]. intros (x & E & H). injection E as <-. exact H.
    - apply IH.
  Qed.
  Lemma all2_impl (R S : A -> B -> Prop) : forall l m, (forall x y, In x l -> R x y -> S x y) -> all2 R l m -> all2 S l m.
  Proof.
    induction l as [|x l IH]; intros [|y m] H; cbn; auto. intros [K K']. split; [apply H; cbn; auto|].
    apply IH; auto. intros. apply H; cbn; auto.
  Qed.
  Lemma all2_impl2 (R S T : A -> B -> Prop) : forall l m,
    (forall x y, In x l -> R x y -> S x y -> T x y) -> all2 R l m -> all2 S l m -> all2 T l m.
  Proof.
    induction l as [|x l IH]; intros [|y m] H; cbn; auto. intros [K K'] [L L']. split; [apply H; cbn; auto|].
    apply IH; auto. intros. apply H; cbn; auto.
  Qed.
  Lemma all3_impl (R S : A -> B -> C -> Prop) : forall l m n,
    (forall x y z, In x l -> R x y z -> S x y z) -> all3 R l m n -> all3 S l m n.
  Proof.
    induction l as [|x l IH]; intros [|y m] [|z n] H; cbn; auto. intros [K K']. split; [apply H; cbn; auto|].
    apply IH; auto. intros. apply H; cbn; auto.
  Qed.
  Lemma all2_length (R : A -> B -> Prop) : forall l m, all2 R l m -> length l = length m.
  Proof. induction l as [|x l IH]; intros [|y m]; cbn; try tauto. intros [_ H]. f_equal; auto. Qed.
  Lemma all3_length (R : A -> B -> C -> Prop) : forall l m n, all3 R l m n -> length l = length m /\ length l = length n.
  Proof. induction l as [|x l IH]; intros [|y m] [|z n]; cbn; try tauto. intros [_ H]. apply IH in H as [-> E]. split; congruence. Qed.
  Lemma all3_nth (R : A -> B -> C -> Prop) : forall l m n k x, all3 R l m n -> nth_error l k = Some x ->
    exists y z, nth_error m k = Some y /\ nth_error n k = Some z /\ R x y z.
  Proof.
    induction l as [|x0 l IH]; intros [|y m] [|z n] [|k] x; cbn; try tauto; try discriminate.
    - intros [H _] E. injection E as <-. eauto.
    - intros [_ H] E. eauto.
  Qed.
  Lemma all2_nth (R : A -> B -> Prop) : forall l m k x, all2 R l m -> nth_error l k = Some x ->
    exists y, nth_error m k = Some y /\ R x y.
  Proof.
    induction l as [|x0 l IH]; intros [|y m] [|k] x; cbn; try tauto; try discriminate.
    - intros [H _] E. injection E as <-. eauto.
    - intros [_ H] E. eauto.
  Qed.
  Lemma all2_nth_r (R : A -> B -> Prop) : forall l m k y, all2 R l m -> nth_error m k = Some y ->
    exists x, nth_error l k = Some x /\ R x y.
  Proof.
    induction l as [|x0 l IH]; intros [|y' m] [|k] y; cbn; try tauto; try discriminate.
    - intros [H _] E. injection E as <-. eauto.
    - intros [_ H] E. eauto.
  Qed.
  Lemma all2_app (R : A -> B -> Prop) : forall l m l' m', all2 R l m -> all2 R l' m' -> all2 R (l ++ l') (m ++ m').
  Proof. induction l as [|x l IH]; intros [|y m]; cbn; try tauto. intros l' m' [H K] K'. split; auto. Qed.
  Lemma all2_perm (R : A -> B -> Prop) l l' : Permutation l l' -> forall m, all2 R l m -> exists m', Permutation m m' /\ all2 R l' m'.
  Proof.
    induction 1 as [|x l l' P IH|x y l|l1 l2 l3 P1 IH1 P2 IH2]; intros m H.
    - destruct m; [|destruct H]. exists []. auto.
    - destruct m as [|z m]; [destruct H|]. destruct H as [H K]. destruct (IH _ K) as (m' & Q & K'). exists (z :: m').
      split; [now constructor|]. split; auto.
    - destruct m as [|z [|w m]]; try (cbn in H; tauto). destruct H as (H & K & L). exists (w :: z :: m). split; [constructor|]. cbn. auto.
    - destruct (IH1 _ H) as (m1 & Q1 & K1). destruct (IH2 _ K1) as (m2 & Q2 & K2). exists m2. split; auto. eapply perm_trans; eauto.
  Qed.
  Lemma all2_perm_r (R : A -> B -> Prop) m m' : Permutation m m' -> forall l, all2 R l m -> exists l', Permutation l l' /\ all2 R l' m'.
  Proof.
    induction 1 as [|x l l' P IH|x y l|l1 l2 l3 P1 IH1 P2 IH2]; intros m H.
    - destruct m; [|destruct H]. exists []. auto.
    - destruct m as [|z m]; [destruct H|]. destruct H as [H K]. destruct (IH _ K) as (m' & Q & K'). exists (z :: m').
      split; [now constructor|]. split; auto.
    - destruct m as [|z [|w m]]; try (cbn in H; tauto). destruct H as (H & K & L). exists (w :: z :: m). split; [constructor|]. cbn. auto.
    - destruct (IH1 _ H) as (q1 & Q1 & K1). destruct (IH2 _ K1) as (q2 & Q2 & K2). exists q2. split; auto. eapply perm_trans; eauto.
  Qed.
End ListFacts.

Lemma all2_sym {A B} (R : A -> B -> Prop) (S : B -> A -> Prop) : forall l m,
  (forall x y, In x l -> R x y -> S y x) -> all2 R l m -> all2 S m l.
Proof.
  induction l as [|x l IH]; intros [|y m] H; cbn; auto. intros [K K']. split; [apply H; cbn; auto|].
  apply IH; auto. intros. apply H; cbn; auto.
Qed.
Lemma all2_trans {A B C} (R : A -> B -> Prop) (S : B -> C -> Prop) (T : A -> C -> Prop) : forall l m n,
  (forall x y z, In x l -> R x y -> S y z -> T x z) -> all2 R l m -> all2 S m n -> all2 T l n.
Proof.
  induction l as [|x l IH]; intros [|y m] [|z n] H; cbn; try tauto. intros [K K'] [L L']. split; [eapply H; cbn; eauto|].
  eapply IH; eauto. intros. eapply H; cbn; eauto.
Qed.
Lemma all2_eq {A} : forall l m : list A, all2 eq l m -> l = m.
Proof. induction l as [|x l IH]; intros [|y m]; cbn; try tauto. intros [-> H]. f_equal; auto. Qed.
Lemma all2_fun {A B} (R S : A -> B -> Prop) : forall l m m',
  (forall x y y', In x l -> R x y -> S x y' -> y = y') -> all2 R l m -> all2 S l m' -> m = m'.
Proof.
  induction l as [|x l IH]; intros [|y m] [|y' m'] H; cbn; try tauto. intros [K K'] [L L'].
  f_equal; [eapply H; cbn; eauto|]. eapply IH; eauto. intros. eapply H; cbn; eauto.
Qed.

Lemma nodup_same {A} (g : A -> text) l x y : NoDup (map g l) -> In x l -> In y l -> g x = g y -> x = y.
Proof.
  induction l as [|z l IH]; cbn; [tauto|]. intros N. inversion N as [|? ? N1 N2]; subst.
  intros [->|I] [->|J] E; auto.
  - destruct N1. rewrite E. now apply in_map.
  - destruct N1. rewrite <- E. now apply in_map.
Qed.

(* ---- induction over schemas ---- *)
Section SpecInd.
  Variable P : spec -> Prop.
  Hypothesis Hp : forall k c, P (SPrim k c).
  Hypothesis Hs : forall c fs, Forall (fun f => P (snd f)) fs -> P (SSeq c fs).
  Hypothesis Ht : forall c fs, Forall (fun f => P (snd f)) fs -> P (SSet c fs).
  Hypothesis Hso : forall c s, P s -> P (SSeqOf c s).
  Hypothesis Hto : forall c s, P s -> P (SSetOf c s).
  Hypothesis Hc : forall ex alts, Forall (fun f => P (snd f)) alts -> P (SChoice ex alts).
  Fixpoint spec_rect' (s : spec) : P s :=
    let go := fix go (l : list (fld * spec)) : Forall (fun f => P (snd f)) l :=
      match l with
      | [] => Forall_nil _
      | f :: r => Forall_cons f (spec_rect' (snd f)) (go r)
      end in
    match s with
    | SPrim k c => Hp k c
    | SSeq c fs => Hs c fs (go fs)
    | SSet c fs => Ht c fs (go fs)
    | SSeqOf c s' => Hso c s' (spec_rect' s')
    | SSetOf c s' => Hto c s' (spec_rect' s')
    | SChoice ex alts => Hc ex alts (go alts)
    end.
End SpecInd.

(* ---- the encodings in terms of dump's headers ---- *)
Definition cbytes (t : tagging) (x : bytes) : bytes := full_header t 1 x ++ x.

(* what a field contributes to the contents of a sequence *)
Definition encf (E : tagging -> aval -> bytes -> Prop) (f : fld * spec) (na : text * aval) (y : bytes) : Prop :=
  fst na = fname f /\
  match fpres f, snd na with
  | Optional, ANone => y = []
  | Default d, a =>
      exists w, E (ftags f) a w /\
        let is_default := exists ad, denotes (snd f) d ad /\ E (ftags f) ad w in
        (is_default /\ y = []) \/ (~ is_default /\ y = w)
  | _, a => E (ftags f) a y
  end.

Fixpoint encodes (s : spec) (t : tagging) (a : aval) (d : bytes) {struct s} : Prop :=
  match s, a with
  | SPrim k c, APrim v => holds k None v /\ exists x, der_value k None v x /\ d = object_bytes t x
  | SSeq c fs, ADict la =>
      exists ys, d = cbytes t (concat ys) /\ all3 (fun f na y => encf (encodes (snd f)) f na y) fs la ys
  | SSeqOf c s', AList l =>
      exists ds, all2 (encodes s' (stags s' no_params)) l ds /\ d = cbytes t (concat ds)
  | SSetOf c s', AList l =>
      exists ds es, all2 (encodes s' (stags s' no_params)) l ds /\ Permutation ds es /\
        StronglySorted bytes_le es /\ d = cbytes t (concat es)
  | SChoice ex alts, AChoice n a =>
      exists w, d = wrap (t_explicit t) [] w ++ w /\
        some (fun f => fname f = n /\ encodes (snd f) (ftags f) a w) alts
  | _, _ => False
  end.
Definition enc_field (f : fld * spec) := encf (encodes (snd f)) f.

(* the contents octets of a value of a constructed type *)
Definition enc_fields (fs : list (fld * spec)) (la : list (text * aval)) (x : bytes) : Prop :=
  exists ys, x = concat ys /\ all3 enc_field fs la ys.
Definition enc_elts (sorted : bool) (s : spec) (l : list aval) (x : bytes) : Prop :=
  exists ds es, all2 (encodes s (stags s no_params)) l ds /\ x = concat es /\
    if sorted then Permutation ds es /\ StronglySorted bytes_le es else es = ds.

Lemma encodes_seq c fs t la d : encodes (SSeq c fs) t (ADict la) d <-> exists x, enc_fields fs la x /\ d = cbytes t x.
Proof.
  cbn [encodes]. unfold enc_fields. split.
  - intros (ys & -> & H). eauto 6.
  - intros (x & (ys & -> & H) & ->). eauto.
Qed.
Lemma encodes_seqof c s t l d : encodes (SSeqOf c s) t (AList l) d <-> exists x, enc_elts false s l x /\ d = cbytes t x.
Proof.
  cbn [encodes]. unfold enc_elts. split.
  - intros (ds & H & ->). eauto 8.
  - intros (x & (ds & es & H & -> & ->) & ->). eauto.
Qed.
Lemma encodes_setof c s t l d : encodes (SSetOf c s) t (AList l) d <-> exists x, enc_elts true s l x /\ d = cbytes t x.
Proof.
  cbn [encodes]. unfold enc_elts. split.
  - intros (ds & es & H & P & K & ->). eauto 10.
  - intros (x & (ds & es & H & -> & P & K) & ->). eauto 8.
Qed.

(* the cases of a field *)
Lemma encf_cases E f na y : encf E f na y <->
  fst na = fname f /\
  ((fpres f = Optional /\ snd na = ANone /\ y = []) \/
   (fpres f = Optional /\ snd na <> ANone /\ E (ftags f) (snd na) y) \/
   (fpres f = Required /\ E (ftags f) (snd na) y) \/
   (exists d w, fpres f = Default d /\ E (ftags f) (snd na) w /\
      (((exists ad, denotes (snd f) d ad /\ E (ftags f) ad w) /\ y = []) \/
       (~ (exists ad, denotes (snd f) d ad /\ E (ftags f) ad w) /\ y = w)))).
Proof.
  unfold encf. cbn zeta. split; (intros [H K]; split; [exact H|]); destruct na as [n a]; cbn [fst snd] in *;
    destruct (fpres f) as [| |dv].
  - auto.
  - destruct a; auto; right; left; (split; [reflexivity|]; split; [discriminate|auto]).
  - right. right. right. exists dv. destruct K as (w & K1 & K2). exists w. auto.
  - destruct K as [(E1 & _)|[(E1 & _)|[(_ & K)|(d & w & E1 & _)]]]; try discriminate. exact K.
  - destruct K as [(_ & -> & K)|[(_ & N & K)|[(E1 & _)|(d & w & E1 & _)]]]; try discriminate; auto.
    destruct a; auto. contradiction.
  - destruct K as [(E1 & _)|[(E1 & _)|[(E1 & _)|(d & w & E1 & K1 & K2)]]]; try discriminate. injection E1 as <-. eauto.
Qed.

(* ---- order of byte strings ---- *)
Lemma bytes_le_refl a : bytes_le a a.
Proof. induction a; cbn; auto. Qed.
Lemma bytes_le_anti a : forall b, bytes_le a b -> bytes_le b a -> a = b.
Proof.
  induction a as [|x a IH]; intros [|y b]; cbn; try tauto.
  intros [H|[-> H]] [K|[K1 K]]; try lia. f_equal; auto.
Qed.
Lemma bytes_le_trans a : forall b c, bytes_le a b -> bytes_le b c -> bytes_le a c.
Proof.
  induction a as [|x a IH]; intros [|y b] [|z c]; cbn; try tauto.
  intros [H|[-> H]] [K|[K1 K]]; try (left; lia). right. split; [lia|]. eauto.
Qed.
Lemma bytes_le_total a : forall b, bytes_le a b \/ bytes_le b a.
Proof.
  induction a as [|x a IH]; intros [|y b]; cbn; auto.
  destruct (Z.lt_trichotomy x y) as [H|[->|H]]; auto. destruct (IH b); auto.
Qed.
Lemma sorted_unique (l m : list bytes) : Permutation l m -> StronglySorted bytes_le l -> StronglySorted bytes_le m -> l = m.
Proof.
  revert m. induction l as [|x l IH]; intros m P S1 S2.
  - now apply Permutation_nil in P.
  - destruct m as [|y m]; [apply Permutation_sym, Permutation_nil in P; discriminate|].
    inversion S1 as [|? ? S1' F1]; inversion S2 as [|? ? S2' F2]; subst.
    assert (E : x = y).
    { assert (In x (y :: m)) as I by (eapply Permutation_in; [exact P|now left]).
      assert (In y (x :: l)) as J by (eapply Permutation_in; [apply Permutation_sym, P|now left]).
      destruct I as [->|I]; [reflexivity|]. destruct J as [->|J]; [reflexivity|].
      apply bytes_le_anti; [rewrite Forall_forall in F1; auto|rewrite Forall_forall in F2; auto]. }
    subst y. f_equal. apply IH; auto. now apply Permutation_cons_inv in P.
Qed.

(* ---- denotation and encoding are functions ---- *)
Lemma denotes_fun s : forall i a b, wf s -> denotes s i a -> denotes s i b -> a = b.
Proof.
  assert (GV : forall s' dir i a b, (forall i a b, denotes s' i a -> denotes s' i b -> a = b) ->
     given s' dir (denotes s') i a -> given s' dir (denotes s') i b -> a = b).
  { intros s' dir i a b H. unfold given. destruct i; intros Q1 Q2; destruct Q1 as (? & Q1), Q2 as (? & Q2); eapply H; eassumption. }
  induction s as [k c|c fs IH|c fs IH|c s IH|c s IH|ex alts IH] using spec_rect'; intros i a b W H K; cbn [denotes wf] in *.
  - destruct i, a; try contradiction.
    + destruct v; try contradiction. destruct b; try contradiction. destruct v; try contradiction. reflexivity.
    + destruct b; try contradiction. destruct H as (-> & _), K as (-> & _). reflexivity.
  - destruct i; try contradiction. destruct a as [| |la| | |]; try contradiction. destruct b as [| |lb| | |]; try contradiction.
    destruct H as (_ & _ & H), K as (_ & _ & K), W as (_ & _ & _ & _ & W). f_equal.
    eapply all2_fun; [|exact H|exact K]. intros f [n a] [n' b] Hf. cbn [fst snd]. intros [-> H1] [-> K1]. f_equal.
    rewrite all1_in in W. specialize (W f Hf) as (W & _). rewrite Forall_forall in IH. specialize (IH f Hf).
    destruct (dict_get l (fname f)) as [x|].
    + assert (given (snd f) true (denotes (snd f)) x a -> given (snd f) true (denotes (snd f)) x b -> a = b) as Q
        by (apply GV; intros; eapply IH; eauto).
      destruct x; try (apply Q; assumption). destruct (fpres f); [now apply Q|congruence|eapply IH; eauto].
    + destruct (fpres f); [contradiction|congruence|eapply IH; eauto].
  - contradiction.
  - destruct i; try contradiction. destruct a; try contradiction. destruct b; try contradiction.
    f_equal. eapply all2_fun; [|exact H|exact K]. intros x y y' _. apply GV. intros; eapply IH; eauto. tauto.
  - destruct i; try contradiction. destruct a; try contradiction. destruct b; try contradiction.
    f_equal. eapply all2_fun; [|exact H|exact K]. intros x y y' _. apply GV. intros; eapply IH; eauto. tauto.
  - destruct i; try contradiction. destruct a; try contradiction. destruct b; try contradiction.
    destruct H as [-> H], K as [-> K]. f_equal. apply some_ex in H as (f & Hf & <- & H), K as (g & Hg & E & K).
    destruct W as (_ & W1 & _ & W2). assert (g = f) as -> by (eapply nodup_same; eauto).
    rewrite all1_in in W2. specialize (W2 f Hf) as (W2 & _). rewrite Forall_forall in IH. specialize (IH f Hf).
    eapply GV; [|exact H|exact K]. intros; eapply IH; eauto.
Qed.

Lemma encodes_fun s : forall t a d d', wf s -> encodes s t a d -> encodes s t a d' -> d = d'.
Proof.
  induction s as [k c|c fs IH|c fs IH|c s IH|c s IH|ex alts IH] using spec_rect'; intros t a d d' W H K; cbn [encodes wf] in *.
  - destruct a; try contradiction. destruct H as (_ & x & H & ->), K as (_ & x' & K & ->).
    now rewrite (der_value_unique k None v x x' (proj1 W) H K).
  - destruct a as [| |la| | |]; try contradiction. destruct H as (ys & -> & H), K as (ys' & -> & K). f_equal. f_equal.
    destruct W as (_ & _ & _ & _ & W). rewrite all1_in in W. rewrite Forall_forall in IH.
    revert la ys ys' H K. induction fs as [|f fs IHl]; intros [|na la] [|y ys] [|y' ys']; cbn [all3]; try tauto.
    intros [H1 H2] [K1 K2]. f_equal; [|refine (IHl _ _ la ys ys' H2 K2); intros z Hz; [apply (IH z)|apply (W z)]; now right].
    specialize (IH f (or_introl eq_refl)). destruct (W f (or_introl eq_refl)) as (Wf & _ & Wd).
    apply encf_cases in H1 as (_ & H1), K1 as (_ & K1).
    destruct H1 as [(E & N & ->)|[(E & N & H1)|[(E & H1)|(dv & w & E & H1 & H1')]]];
    destruct K1 as [(E' & N' & ->)|[(E' & N' & K1)|[(E' & K1)|(dv' & w' & E' & K1 & K1')]]]; try congruence.
    + eapply IH; eauto.
    + eapply IH; eauto.
    + assert (dv' = dv) by congruence. subst dv'. assert (w' = w) by (eapply IH; eauto). subst w'.
      destruct H1' as [[H1' ->]|[H1' ->]], K1' as [[K1' ->]|[K1' ->]]; tauto || reflexivity.
  - contradiction.
  - destruct a; try contradiction. destruct H as (ds & H & ->), K as (ds' & K & ->). do 2 f_equal.
    eapply all2_fun; [|exact H|exact K]. intros; eapply IH; eauto. tauto.
  - destruct a; try contradiction. destruct H as (ds & es & H & P & S & ->), K as (ds' & es' & K & P' & S' & ->).
    assert (ds = ds') by (eapply all2_fun; [|exact H|exact K]; intros ? ? ? _ X Y; exact (IH _ _ _ _ (proj1 (proj2 W)) X Y)). subst ds'.
    do 2 f_equal. apply sorted_unique; auto. eapply perm_trans; [apply Permutation_sym, P|exact P'].
  - destruct a; try contradiction. destruct H as (w & -> & H), K as (w' & -> & K).
    apply some_ex in H as (f & Hf & <- & H), K as (g & Hg & E & K).
    destruct W as (_ & W1 & _ & W2). assert (g = f) as -> by (eapply nodup_same; eauto).
    rewrite all1_in in W2. rewrite Forall_forall in IH. specialize (W2 f Hf) as (W2 & _).
    now rewrite (IH f Hf _ _ _ _ W2 H K).
Qed.

(* ---- similarity ---- *)
Lemma same_value_sym k v v' : same_value k v v' -> same_value k v' v.
Proof.
  unfold same_value. destruct v, v'; try (intros E; discriminate E); try congruence.
  - intros H x. symmetry. apply H.
  - intros (t & t' & I & J & E). exists t', t. split; auto. split; auto. destruct k; auto.
Qed.
Lemma same_value_refl k v : holds k None v -> same_value k v v.
Proof.
  intros H. destruct v; cbn [same_value]; try reflexivity.
  destruct k; try (destruct m; contradiction); try contradiction; cbn [holds] in H.
  - destruct H as (_ & _ & t & I & _). exists t, t. auto.
  - destruct H as (_ & t & I & _). exists t, t. auto.
Qed.

Lemma sim_not_none s a b : sim s a b -> a <> ANone /\ b <> ANone.
Proof. destruct s, a, b; cbn; try tauto; intros; split; discriminate. Qed.
Lemma encodes_not_none s t a d : encodes s t a d -> a <> ANone.
Proof. destruct s, a; cbn; try tauto; intros; discriminate. Qed.

(* two values of a field are similar *)
Definition simf (f : fld * spec) (na nb : text * aval) : Prop :=
  fst na = fname f /\ fst nb = fname f /\
  match fpres f, snd na with
  | Optional, ANone => snd nb = ANone
  | _, a => sim (snd f) a (snd nb)
  end.
Lemma simf_cases f na nb : simf f na nb <->
  fst na = fname f /\ fst nb = fname f /\
  ((fpres f = Optional /\ snd na = ANone /\ snd nb = ANone) \/ sim (snd f) (snd na) (snd nb)).
Proof.
  unfold simf. split; intros (A & B & H); split; auto; split; auto; destruct (fpres f); destruct (snd na) eqn:E; auto;
    destruct H as [(X & Y & Z)|H]; try discriminate; auto. apply sim_not_none in H. tauto.
Qed.
Lemma sim_seq c fs la lb : sim (SSeq c fs) (ADict la) (ADict lb) <-> all3 simf fs la lb.
Proof. reflexivity. Qed.

Lemma all3_simf fs : forall la lb (Q : fld * spec -> Prop), (forall f, In f fs -> Q f) ->
  (forall f na nb, Q f -> simf f na nb -> simf f nb na) -> all3 simf fs la lb -> all3 simf fs lb la.
Proof.
  induction fs as [|f fs IH]; intros [|na la] [|nb lb] Q HQ HS; cbn; try tauto. intros [H K]. split.
  - apply HS; auto. apply HQ. now left.
  - eapply (IH la lb Q); auto. intros; apply HQ; now right.
Qed.

Lemma sim_sym s : forall a b, sim s a b -> sim s b a.
Proof.
  induction s as [k c|c fs IH|c fs IH|c s IH|c s IH|ex alts IH] using spec_rect'; intros a b H.
  - destruct a; try contradiction. destruct b; try contradiction. cbn in *. destruct H as (A & B & C). split; auto. split; auto. now apply same_value_sym.
  - destruct a; try contradiction. destruct b; try contradiction. rewrite sim_seq in *.
    apply (all3_simf fs l l0 (fun f => In f fs)); auto. intros f na nb Hf X. apply simf_cases in X as (A & B & X). apply simf_cases. split; auto. split; auto.
    rewrite Forall_forall in IH. destruct X as [X|X]; [left; tauto|right; now apply IH].
  - destruct a, b; contradiction.
  - destruct a; try contradiction. destruct b; try contradiction. cbn in *. eapply all2_sym; [|exact H]. auto.
  - destruct a; try contradiction. destruct b; try contradiction. cbn in *. destruct H as (m & P & H).
    apply (all2_sym _ (sim s)) in H; [|auto]. destruct (all2_perm_r (sim s) m l (Permutation_sym P) _ H) as (l' & P' & H'). eauto.
  - destruct a; try contradiction. destruct b; try contradiction. cbn in *. destruct H as [-> H]. split; auto.
    apply some_ex in H as (f & Hf & E & H). apply some_ex. exists f. split; auto. split; auto. rewrite Forall_forall in IH. now apply IH.
Qed.

Lemma sim_trans s : wf s -> forall a b c, sim s a b -> sim s b c -> sim s a c.
Proof.
  induction s as [k cl|cl fs IH|cl fs IH|cl s IH|cl s IH|ex alts IH] using spec_rect'; intros W a b c H K.
  - destruct a; try contradiction. destruct b; try contradiction. destruct c; try contradiction. cbn in *.
    destruct H as (A & B & C), K as (A' & B' & C'). split; auto. split; auto. eapply same_value_trans; eauto.
  - destruct a as [| |la| | |]; try contradiction. destruct b as [| |lb| | |]; try contradiction. destruct c as [| |lc| | |]; try contradiction. rewrite sim_seq in *.
    destruct W as (_ & _ & _ & _ & W). rewrite all1_in in W. rewrite Forall_forall in IH.
    revert la lb lc H K. induction fs as [|f fs IHl]; intros [|na la] [|nb lb] [|nc lc]; cbn; try tauto.
    intros [H1 H2] [K1 K2]. split; [|refine (IHl _ _ la lb lc H2 K2); intros z Hz; [apply (IH z)|apply (W z)]; now right].
    apply simf_cases in H1 as (A & B & H1), K1 as (A' & B' & K1). apply simf_cases. split; auto. split; auto.
    destruct H1 as [(X & Y & Z)|H1], K1 as [(X' & Y' & Z')|K1].
    + left; auto.
    + rewrite Z in K1. apply sim_not_none in K1. tauto.
    + rewrite Y' in H1. apply sim_not_none in H1. tauto.
    + right. eapply (IH f); cbn; auto. { apply W; cbn; auto. } all: eassumption.
  - contradiction.
  - destruct a; try contradiction. destruct b; try contradiction. destruct c; try contradiction. cbn in *.
    eapply all2_trans; [|exact H|exact K]. intros x y z _. apply IH; tauto.
  - destruct a; try contradiction. destruct b; try contradiction. destruct c; try contradiction. cbn in *.
    destruct H as (m & P & H), K as (m' & P' & K).
    destruct (all2_perm_r _ _ _ P' _ H) as (m2 & P2 & H2). exists m2. split; [eapply perm_trans; eauto|].
    eapply all2_trans; [|exact H2|exact K]. intros x y z _. apply IH; tauto.
  - destruct a; try contradiction. destruct b; try contradiction. destruct c; try contradiction. cbn in *.
    destruct H as [-> H], K as [-> K]. split; auto.
    apply some_ex in H as (f & Hf & <- & H), K as (g & Hg & E & K). destruct W as (_ & W1 & _ & W2).
    assert (g = f) as -> by (eapply nodup_same; eauto). apply some_ex. exists f. split; auto. split; auto.
    rewrite all1_in in W2. rewrite Forall_forall in IH. eapply IH; eauto. apply W2; auto.
Qed.

Lemma sim_refl s : forall t a d, encodes s t a d -> sim s a a.
Proof.
  induction s as [k cl|cl fs IH|cl fs IH|cl s IH|cl s IH|ex alts IH] using spec_rect'; intros t a d H.
  - destruct a; try contradiction. cbn in *. destruct H as (H & _). split; auto. split; auto. now apply same_value_refl.
  - destruct a as [| |la| | |]; try contradiction. rewrite sim_seq. apply encodes_seq in H as (x & (ys & _ & H) & _).
    rewrite Forall_forall in IH. revert la ys H. induction fs as [|f fs IHl]; intros [|na la] [|y ys]; cbn; try tauto.
    intros [H1 H2]. split; [|refine (IHl _ la ys H2); intros z Hz; apply (IH z); now right].
    apply encf_cases in H1 as (E & H1). apply simf_cases. split; auto. split; auto. specialize (IH f (or_introl eq_refl)).
    destruct H1 as [(X & Y & _)|[(X & Y & H1)|[(X & H1)|(dv & w & X & H1 & _)]]]; auto; right; eapply IH; eauto.
  - contradiction.
  - destruct a; try contradiction. cbn in *. destruct H as (ds & H & _).
    revert ds H. induction l as [|x l IHl]; intros [|y ds]; cbn; try tauto. intros [H K]. split; eauto.
  - destruct a; try contradiction. cbn in *. destruct H as (ds & es & H & _). exists l. split; auto. clear es.
    revert ds H. induction l as [|x l IHl]; intros [|y ds]; cbn; try tauto. intros [H K]. split; eauto.
  - destruct a; try contradiction. cbn in *. destruct H as (w & _ & H). split; auto. apply some_ex in H as (f & Hf & E & H).
    apply some_ex. exists f. split; auto. split; auto. rewrite Forall_forall in IH. eapply IH; eauto.
Qed.

Lemma encodes_sim s : wf s -> forall t a b d, sim s a b -> encodes s t a d -> encodes s t b d.
Proof.
  induction s as [k cl|cl fs IH|cl fs IH|cl s IH|cl s IH|ex alts IH] using spec_rect'; intros W t a b d S H.
  - destruct a; try contradiction. destruct b; try contradiction. cbn in *. destruct H as (H & x & D & ->), S as (_ & S & K).
    split; auto. exists x. split; auto. eapply der_value_same; eauto.
  - destruct a as [| |la| | |]; try contradiction. destruct b as [| |lb| | |]; try contradiction. rewrite sim_seq in S.
    cbn [encodes] in *. destruct H as (ys & -> & H). exists ys. split; auto.
    destruct W as (_ & _ & _ & _ & W). rewrite all1_in in W. rewrite Forall_forall in IH.
    revert la lb ys H S. induction fs as [|f fs IHl]; intros [|na la] [|nb lb] [|y ys]; cbn; try tauto.
    intros [H1 H2] [S1 S2]. split; [|refine (IHl _ _ la lb ys H2 S2); intros z Hz; [apply (IH z)|apply (W z)]; now right].
    specialize (IH f (or_introl eq_refl)). destruct (W f (or_introl eq_refl)) as (Wf & _).
    apply encf_cases in H1 as (E & H1). apply simf_cases in S1 as (_ & E' & S1). apply encf_cases. split; auto.
    destruct H1 as [(X & Y & H1)|[(X & Y & H1)|[(X & H1)|(dv & w & X & H1 & H1')]]]; destruct S1 as [(X' & Y' & Z')|S1]; try congruence.
    + left. auto.
    + rewrite Y in S1. apply sim_not_none in S1. tauto.
    + right. left. split; auto. split; [apply sim_not_none in S1; tauto|]. eapply IH; eauto.
    + right. right. left. split; auto. eapply IH; eauto.
    + right. right. right. exists dv, w. split; auto. split; auto. eapply IH; eauto.
  - contradiction.
  - destruct a; try contradiction. destruct b; try contradiction. cbn in *. destruct H as (ds & H & ->). exists ds. split; auto.
    apply (all2_sym _ (fun y x => encodes s (stags s no_params) x y)) in H; [|auto].
    apply (all2_sym (fun y x => encodes s (stags s no_params) x y)); [auto|].
    eapply all2_trans; [|exact H|exact S]. cbn beta. intros y x z _ E K. eapply IH; eauto. tauto.
  - destruct a; try contradiction. destruct b; try contradiction. cbn in *. destruct H as (ds & es & H & P & So & ->).
    destruct S as (m & Pm & S). destruct (all2_perm _ _ _ Pm _ H) as (ds' & P' & H'). exists ds', es.
    split; [|split; auto].
    + apply (all2_sym _ (fun y x => encodes s (stags s no_params) x y)) in H'; [|auto].
      apply (all2_sym (fun y x => encodes s (stags s no_params) x y)); [auto|].
      eapply all2_trans; [|exact H'|exact S]. cbn beta. intros y x z _ E K. eapply IH; eauto. tauto.
    + eapply perm_trans; [apply Permutation_sym, P'|exact P].
  - destruct a; try contradiction. destruct b; try contradiction. cbn in *. destruct H as (w & -> & H), S as (-> & S).
    exists w. split; auto. apply some_ex in H as (f & Hf & <- & H), S as (g & Hg & E & S). destruct W as (_ & W1 & _ & W2).
    assert (g = f) as -> by (eapply nodup_same; eauto). apply some_ex. exists f. split; auto. split; auto.
    rewrite all1_in in W2. rewrite Forall_forall in IH. eapply IH; eauto. apply W2; auto.
Qed.

(* ---- DER and the headers of dump ---- *)
Lemma der_length_small n l : der_length n l -> n < 2 ^ 1008.
Proof.
  intros [H|b l' H1 H2 H3 H4 H5].
  - assert (128 < 2 ^ 1008) by reflexivity. lia.
  - pose proof (be_value_bound _ H2) as B. rewrite H5 in B.
    assert (256 ^ len (b :: l') <= 256 ^ 126) by (apply Z.pow_le_mono_r; lia).
    change (256 ^ 126) with (2 ^ 1008) in *. lia.
Qed.
Lemma der_tlv_header c m t x d : 0 <= c <= 3 -> 0 <= m <= 1 -> 0 <= t -> der_tlv c m t x d ->
  d = dump_header c m t x ++ x /\ len x < 2 ^ 1008.
Proof.
  intros Hc Hm Ht H. assert (L : len x < 2 ^ 1008) by (destruct H as (i & l & _ & L & _); now apply der_length_small in L).
  split; auto. eapply der_tlv_unique; [exact H|]. now apply dump_header_tlv.
Qed.
Lemma der_wrapped_wrap ex : forall h cont d, tags_ok ex -> der_wrapped ex (h ++ cont) d -> d = wrap ex h cont ++ cont.
Proof.
  induction ex as [|[c t] r IH]; intros h cont d T H; cbn [der_wrapped wrap fold_left fst snd] in *; [exact H|].
  destruct H as (mid & H & K). inversion T as [|? ? [T1 T2] T3]; subst. cbn [fst snd] in *.
  apply der_tlv_header in H as [-> _]; auto; [|lia]. rewrite app_assoc in K. now apply IH in K.
Qed.
Lemma der_constructed_bytes t x d : tagging_ok t -> der_constructed t x d -> d = cbytes t x /\ len x < 2 ^ 1008.
Proof.
  intros (T1 & T2 & T3) (inner & H & K). apply der_tlv_header in H as [-> L]; auto; [|lia].
  apply der_wrapped_wrap in K; auto.
Qed.
Lemma bytes_der_constructed t x : tagging_ok t -> len (cbytes t x) < 2 ^ 1008 -> der_constructed t x (cbytes t x).
Proof.
  intros (Hc & Ht & He) L. unfold cbytes, full_header in *. exists (dump_header (t_class t) 1 (t_tag t) x ++ x). split.
  - apply dump_header_tlv; auto; [lia|]. rewrite len_app in L.
    pose proof (len_nonneg (wrap (t_explicit t) (dump_header (t_class t) 1 (t_tag t) x) x)). lia.
  - now apply wrap_wrapped.
Qed.
Lemma der_object_eq t x d : tagging_ok t -> der_object t x d -> d = object_bytes t x.
Proof.
  intros (T1 & T2 & T3) (inner & H & K). apply der_tlv_header in H as [-> L]; auto; [|lia].
  apply der_wrapped_wrap in K; auto.
Qed.
Lemma cbytes_len t x : len x <= len (cbytes t x).
Proof. unfold cbytes. rewrite len_app. pose proof (len_nonneg (full_header t 1 x)). lia. Qed.
Lemma len_concat_in {A} (y : list A) ys : In y ys -> len y <= len (concat ys).
Proof.
  induction ys as [|z ys IH]; cbn; [tauto|]. rewrite len_app. intros [->|H].
  - pose proof (len_nonneg (concat ys)). lia.
  - apply IH in H. pose proof (len_nonneg z). lia.
Qed.

Lemma tags_ok_app a b : tags_valid a -> tags_valid b -> tags_valid (a ++ b).
Proof. intros. apply Forall_app; auto. Qed.
Lemma stags_ok s p : wf s -> taggable s p -> tagging_ok (stags s p).
Proof.
  intros W ((P1 & P2 & P3 & P4) & _).
  assert (G : forall c, cls_ok c -> tagging_ok (tags_of c p)).
  { intros c (C1 & C2 & C3). unfold tags_of. destruct (p_explicit p) as [|e r] eqn:E.
    - destruct (p_implicit p) as [[cl tg]|].
      + destruct P4 as (Q1 & Q2 & _). repeat split; cbn; auto; lia.
      + repeat split; cbn; try lia. now rewrite app_nil_r.
    - repeat split; cbn; try lia. now apply tags_ok_app. }
  destruct s; cbn [stags wf] in *; try (apply G; tauto).
  repeat split; cbn; try lia. apply tags_ok_app; tauto.
Qed.

Lemma default_der f dv : wf (snd f) -> tagging_ok (ftags f) ->
  (forall a d, encodes (snd f) (ftags f) a d -> len d < 2 ^ 1008 -> der (snd f) (ftags f) a d) ->
  (forall a d, der (snd f) (ftags f) a d -> encodes (snd f) (ftags f) a d) ->
  (exists ad w, denotes (snd f) dv ad /\ der (snd f) (ftags f) ad w /\ len w < 2 ^ 1008) ->
  (forall w, (exists ad, denotes (snd f) dv ad /\ encodes (snd f) (ftags f) ad w) ->
     len w < 2 ^ 1008 /\ exists ad, denotes (snd f) dv ad /\ der (snd f) (ftags f) ad w).
Proof.
  intros W T ED DE (ad & w & D & Ew & L) w' (ad' & D' & E').
  assert (ad' = ad) by (eapply denotes_fun; eauto). subst ad'.
  assert (w' = w) by (eapply encodes_fun; eauto). subst w'. split; auto. exists ad. auto.
Qed.

Lemma encodes_der_both s : wf s -> forall t, tagging_ok t ->
  (forall a d, encodes s t a d -> len d < 2 ^ 1008 -> der s t a d) /\ (forall a d, der s t a d -> encodes s t a d).
Proof.
  induction s as [k cl|cl fs IH|cl fs IH|cl s IH|cl s IH|ex alts IH] using spec_rect'; intros W t T.
  - split; intros a d H.
    + intros L. destruct a; try contradiction. cbn in *. destruct H as (H & x & D & ->). split; auto. exists x. split; auto. now apply object_bytes_der.
    + destruct a; try contradiction. cbn in *. destruct H as (H & x & D & K). split; auto. exists x. split; auto. now apply der_object_eq.
  - destruct W as (_ & _ & _ & _ & W). rewrite all1_in in W. rewrite Forall_forall in IH.
    assert (F : forall f, In f fs -> tagging_ok (ftags f)) by (intros f Hf; apply stags_ok; apply W; auto).
    split; intros a d H.
    + intros L. destruct a as [| |la| | |]; try contradiction. cbn [encodes der] in *. destruct H as (ys & -> & H). exists ys.
      split; [now apply bytes_der_constructed|]. pose proof (cbytes_len t (concat ys)) as L2.
      assert (L3 : forall y, In y ys -> len y < 2 ^ 1008) by (intros y Hy; apply len_concat_in in Hy; lia). clear L L2.
      revert la ys H L3. induction fs as [|f fs IHl]; intros [|na la] [|y ys]; cbn [all3]; try tauto.
      intros [H1 H2] L. split; [|refine (IHl _ _ _ la ys H2 _); intros z Hz; [apply (IH z)|apply (W z)|apply (F z)|apply (L z)]; now right].
      destruct (W f (or_introl eq_refl)) as (Wf & _ & Wd). specialize (F f (or_introl eq_refl)).
      destruct (IH f (or_introl eq_refl) Wf _ F) as [ED DE].
      change (encf (der (snd f)) f na y). apply encf_cases in H1 as (E & H1). apply encf_cases. split; auto.
      assert (Ly : len y < 2 ^ 1008) by (apply L; now left).
      destruct H1 as [(X & Y & H1)|[(X & Y & H1)|[(X & H1)|(dv & w & X & H1 & H1')]]]; auto 6.
      right. right. right. exists dv. rewrite X in Wd. destruct Wd as (_ & _ & Wd).
      pose proof (default_der f dv Wf F ED DE Wd) as DD.
      destruct H1' as [(H3 & ->)|(H3 & ->)].
      * exists w. destruct (DD w H3) as [Lw (ad & D1 & D2)]. split; auto. split; auto. left. eauto.
      * exists w. split; auto. split; auto. right. split; auto. intros (ad & D1 & D2). apply H3. exists ad. split; auto.
    + destruct a as [| |la| | |]; try contradiction. cbn [encodes der] in *. destruct H as (ys & Hc & H). exists ys.
      apply der_constructed_bytes in Hc as [-> L]; auto. split; auto.
      assert (L3 : forall y, In y ys -> len y < 2 ^ 1008) by (intros y Hy; apply len_concat_in in Hy; lia). clear L.
      revert la ys H L3. induction fs as [|f fs IHl]; intros [|na la] [|y ys]; cbn [all3]; try tauto.
      intros [H1 H2] L. split; [|refine (IHl _ _ _ la ys H2 _); intros z Hz; [apply (IH z)|apply (W z)|apply (F z)|apply (L z)]; now right].
      destruct (W f (or_introl eq_refl)) as (Wf & _ & Wd). specialize (F f (or_introl eq_refl)).
      destruct (IH f (or_introl eq_refl) Wf _ F) as [ED DE].
      change (encf (der (snd f)) f na y) in H1. apply encf_cases in H1 as (E & H1). apply encf_cases. split; auto.
      assert (Ly : len y < 2 ^ 1008) by (apply L; now left).
      destruct H1 as [(X & Y & H1)|[(X & Y & H1)|[(X & H1)|(dv & w & X & H1 & H1')]]]; auto 6.
      right. right. right. exists dv, w. split; auto. split; auto.
      destruct H1' as [((ad & D1 & D2) & ->)|(H3 & ->)].
      * left. split; auto. exists ad. auto.
      * right. split; auto. intros (ad & D1 & D2). apply H3. exists ad. auto.
  - contradiction.
  - destruct W as (W1 & W2 & W3 & _). destruct (IH W2 _ (stags_ok _ _ W2 W3)) as [ED DE]. split; intros a d H.
    + intros L. destruct a; try contradiction. cbn in *. destruct H as (ds & H & ->). exists ds. pose proof (cbytes_len t (concat ds)).
      split; [|now apply bytes_der_constructed].
      assert (L3 : forall y, In y ds -> len y < 2 ^ 1008) by (intros y Hy; apply len_concat_in in Hy; lia). clear L.
      revert ds H L3 H0. induction l as [|x l IHl]; intros [|y ds]; cbn; try tauto. intros [H K] L _. split; auto.
      apply IHl; auto. apply cbytes_len.
    + destruct a; try contradiction. cbn in *. destruct H as (ds & H & K). exists ds. apply der_constructed_bytes in K as [-> L]; auto.
      split; auto. eapply all2_impl; [|exact H]. auto.
  - destruct W as (W1 & W2 & W3 & _). destruct (IH W2 _ (stags_ok _ _ W2 W3)) as [ED DE]. split; intros a d H.
    + intros L. destruct a; try contradiction. cbn in *. destruct H as (ds & es & H & P & S & ->). exists ds, es. pose proof (cbytes_len t (concat es)).
      split; [|split; auto; split; auto; now apply bytes_der_constructed].
      assert (L3 : forall y, In y ds -> len y < 2 ^ 1008).
      { intros y Hy. apply (Permutation_in y P) in Hy. apply len_concat_in in Hy; lia. }
      clear L P. revert ds H L3 H0. induction l as [|x l IHl]; intros [|y ds]; cbn; try tauto. intros [H K] L _. split; auto.
      apply IHl; auto. apply cbytes_len.
    + destruct a; try contradiction. cbn in *. destruct H as (ds & es & H & P & S & K). exists ds, es. apply der_constructed_bytes in K as [-> L]; auto.
      split; auto. eapply all2_impl; [|exact H]. auto.
  - destruct W as (W1 & W2 & W3 & W4). rewrite all1_in in W4. rewrite Forall_forall in IH. destruct T as (T1 & T2 & T3). split; intros a d H.
    + intros L. destruct a; try contradiction. cbn in *. destruct H as (w & -> & H). exists w.
      assert (Lw : len w < 2 ^ 1008) by (rewrite len_app in L; pose proof (len_nonneg (wrap (t_explicit t) [] w)); lia).
      split; [apply (wrap_wrapped (t_explicit t) [] w); auto|].
      apply some_ex in H as (f & Hf & E & H). apply some_ex. exists f. split; auto. split; auto.
      destruct (W4 f Hf) as (Wf & Wt & _). destruct (IH f Hf Wf _ (stags_ok _ _ Wf Wt)) as [ED DE]. auto.
    + destruct a; try contradiction. cbn in *. destruct H as (w & K & H). exists w. apply (der_wrapped_wrap _ []) in K; auto. split; auto.
      apply some_ex in H as (f & Hf & E & H). apply some_ex. exists f. split; auto. split; auto.
      destruct (W4 f Hf) as (Wf & Wt & _). destruct (IH f Hf Wf _ (stags_ok _ _ Wf Wt)) as [ED DE]. auto.
Qed.
