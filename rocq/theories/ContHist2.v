(* Sequences of operations on structured objects: the operation at a path. *)
Require Import Verif.Base Verif.BaseFacts Verif.IntModel Verif.IntSpec Verif.IntProofs
  Verif.ParserModel Verif.ParserSpec Verif.ParserProofs Verif.ParserFacts Verif.Text Verif.CodecModel Verif.TagSpec Verif.TagProofs
  Verif.PrimModel Verif.PrimSpec Verif.PrimProofs Verif.PrimSet Verif.PrimDump Verif.PrimLoad Verif.HistSpec Verif.PrimHist
  Verif.PrimRead Verif.PrimSide Verif.ContModel Verif.ContSpec Verif.ContBase Verif.ContRep Verif.ContPrim Verif.ContSeq Verif.ContSeq2 Verif.ContList
  Verif.ContChoice Verif.ContPath Verif.ContHistSpec Verif.ContHist.
Require Import Sorting.Permutation Sorting.Sorted.

Lemma nth_mid {A} (l r : list A) x : nth_error (l ++ x :: r) (length l) = Some x.
Proof. rewrite nth_error_app2 by lia. now rewrite Nat.sub_diag. Qed.

Definition inq (s : spec) (q : mode) : mode := if is_choice s then under q else q.
Definition is_store (x : act) : bool := match x with AStore _ => true | _ => false end.

Definition blocked (s : spec) (i : nat) (v1 : value) (y : res unit) : Prop :=
  match y with
  | Err _ => True
  | Ok _ => inner s i v1 = None \/ exists s', inner s i v1 = Some (s', VVoid) /\ put_inner i VVoid v1 = v1
  end.

(* the inner object w of class s' stands for b; whatever is done to it is done to v1 *)
Definition entered (q : mode) (n : bool) (s : spec) (t : tagging) (a : aval) (i : nat) (v1 : value) : Prop :=
  exists s' w t' b, inner s i v1 = Some (s', w) /\ wf s' /\ tagging_ok t' /\ rep (inq s q) n s' t' b w /\
    (forall r, is_choice s = false -> visible s (i :: r) = visible s' r) /\
    (forall p x a0, reading x = false -> becomes (i :: p) x s a a0 -> exists b0, becomes p x s' b b0) /\
    (forall p s2 t2 b2, sits (i :: p) s t a s2 t2 b2 -> sits p s' t' b s2 t2 b2) /\
    forall q' n' b' w', le_mode q q' -> le_bool n n' -> rep (inq s q') n' s' t' b' w' -> kept w w' -> (n' = true -> dictlike w = false -> b' = b) ->
      (acc q' = true -> (q' = Own /\ q = Own /\ b' = b) \/ (q' = Right /\ is_choice s = false /\ mutated w' = true)) ->
      exists a', rep q' n' s t a' (put_inner i w' v1) /\ kept v1 (put_inner i w' v1) /\ dictlike v1 = (if is_choice s then dictlike w else true) /\
        (forall p x, reading x = false -> becomes p x s' b b' -> becomes (i :: p) x s a a') /\ (b' = b -> a' = a) /\
        (is_choice s = false -> mutated w' = true -> mutated (put_inner i w' v1) = true).

Definition enters (s : spec) : Prop := forall q n t a v i, tagging_ok t -> rep q n s t a v ->
  exists v1 y, x_get (methods s) i v = (v1, y) /\ rep q n s t a v1 /\ kept v v1 /\
    ((blocked s i v1 y /\ (forall p x a0, reading x = false -> ~ becomes (i :: p) x s a a0) /\
       (forall p s2 t2 b2, ~ sits (i :: p) s t a s2 t2 b2)) \/ (y = Ok tt /\ entered q n s t a i v1)).

Lemma update_mid {A} (l r : list A) x y : update (l ++ x :: r) (length l) y = l ++ y :: r.
Proof. induction l; cbn; auto. now rewrite IHl. Qed.
Lemma kept_seq t e ch m nc e' ch' m' nc' : (nc <> None -> nc' <> None) -> kept (VSeq t e ch m nc) (VSeq t e' ch' m' nc').
Proof. intros H. split; auto. cbn. destruct nc; [|discriminate]. intros _. destruct nc'; auto. now exfalso; apply H. Qed.
Lemma kept_lst t e ch m nc e' ch' m' nc' : (nc <> None -> nc' <> None) -> kept (VList t e ch m nc) (VList t e' ch' m' nc').
Proof. intros H. split; auto. cbn. destruct nc; [|discriminate]. intros _. destruct nc'; auto. now exfalso; apply H. Qed.

Lemma becomes_none p x s b : reading x = false -> ~ becomes p x s ANone b.
Proof. intros Hx B. inversion B; subst; [congruence|]. inversion H. Qed.
Lemma seq_inv i p x c fs la a0 : reading x = false -> becomes (i :: p) x (SSeq c fs) (ADict la) a0 ->
  exists f n b b', nth_error fs i = Some f /\ nth_error la i = Some (n, b) /\ a0 = ADict (update la i (n, b')) /\ becomes p x (snd f) b b'.
Proof.
  intros Hx B. inversion B; subst; [congruence|]. exists f, n, b, b'. rewrite update_mid. split; auto. split; [apply nth_mid|]. auto.
Qed.
Lemma seq_intro i p x c fs la f n b b' : reading x = false -> nth_error fs i = Some f -> nth_error la i = Some (n, b) -> becomes p x (snd f) b b' ->
  becomes (i :: p) x (SSeq c fs) (ADict la) (ADict (update la i (n, b'))).
Proof.
  intros Hx Hf Hn B. destruct (nth_error_split _ _ Hn) as (l & r & -> & <-). rewrite update_mid. now apply B_field with f.
Qed.
Lemma seq_sits i p c fs la t s2 t2 b2 : sits (i :: p) (SSeq c fs) t (ADict la) s2 t2 b2 ->
  exists f n b, nth_error fs i = Some f /\ nth_error la i = Some (n, b) /\ b <> ANone /\ sits p (snd f) (ftags f) b s2 t2 b2.
Proof. intros B. inversion B; subst. exists f, n, b. split; auto. split; [apply nth_mid|]. auto. Qed.
Lemma lst_inv i p x s e la a0 : reading x = false -> list_class s e -> becomes (i :: p) x s (AList la) a0 ->
  exists b b', nth_error la i = Some b /\ a0 = AList (update la i b') /\ becomes p x e b b'.
Proof.
  intros Hx (c & L) B. inversion B; subst; [congruence|]. exists b, b'. rewrite update_mid. split; [apply nth_mid|]. split; auto.
  destruct H2 as (c' & L'). destruct L as [->| ->], L' as [E|E]; try discriminate; injection E as E1 E2; now subst.
Qed.
Lemma lst_intro i p x s e la b b' : reading x = false -> list_class s e -> nth_error la i = Some b -> becomes p x e b b' ->
  becomes (i :: p) x s (AList la) (AList (update la i b')).
Proof.
  intros Hx L Hn B. destruct (nth_error_split _ _ Hn) as (l & r & -> & <-). rewrite update_mid. now apply B_elt with e.
Qed.
Lemma lst_sits i p s e la t s2 t2 b2 : list_class s e -> sits (i :: p) s t (AList la) s2 t2 b2 ->
  exists b, nth_error la i = Some b /\ sits p e (stags e no_params) b s2 t2 b2.
Proof.
  intros (c & L) B. inversion B; subst. exists b. split; [apply nth_mid|].
  match goal with H : list_class _ _ |- _ => destruct H as (c' & L') end.
  destruct L as [->| ->], L' as [E|E]; try discriminate; injection E as E1 E2; now subst.
Qed.

Lemma enter_seq c fs : wf (SSeq c fs) -> enters (SSeq c fs).
Proof.
  intros W q n t a v i Ht R. assert (C : forall f, In f fs -> contract (snd f)) by (intros f Hf; apply contract_all; exact (wf_wf c fs W f Hf)).
  pose proof R as R0. apply rep_seq_eq in R0 as (la & t' & e & ch & m & nc & -> & -> & -> & _).
  change (x_get (methods (SSeq c fs))) with (get_seq (fields fs) false).
  assert (Ll : length la = length fs).
  { destruct (ensure_ok c fs _ _ _ _ _ _ _ _ R) as (l & _ & A & _). apply all3_length in A. destruct A; congruence. }
  destruct (nth_error fs i) as [f|] eqn:Hf.
  - destruct (nth_error_ex la i) as [[nm b] Hn]. { rewrite Ll. apply nth_error_Some. congruence. }
    destruct (seq_get c fs _ _ _ _ _ _ _ _ _ _ _ R Hf Hn) as (l & w & Eg & Hw & R1 & K). eexists _, _. split; [exact Eg|]. split; auto.
    split; [apply kept_seq; auto|]. pose proof (nth_error_In _ _ Hf) as Inf. destruct (wf_tags c fs f W Inf) as (Wf & T & Tk).
    assert (Ei : inner (SSeq c fs) i (VSeq t e (Some l) m nc) = Some (snd f, w)) by (cbn [inner]; now rewrite Hf, Hw).
    destruct K as [(-> & X & Y)|Rw].
    + left. cbn in Y. subst b. split. { cbn [blocked]. right. exists (snd f). split; auto. cbn [put_inner]. now rewrite (update_same _ _ _ Hw). }
      split.
      * intros p x a0 Hx B. apply seq_inv in B as (f' & n' & b & b' & _ & Hn' & _ & B); auto. rewrite Hn in Hn'. injection Hn' as <- <-.
        now apply becomes_none in B.
      * intros p s2 t2 b2 S. apply seq_sits in S as (f' & n' & b & _ & Hn' & Nb & _). rewrite Hn in Hn'. injection Hn' as <- <-. congruence.
    + right. split; auto. exists (snd f), w, (ftags f), b. split; [exact Ei|]. split; [exact Wf|]. split; [exact Tk|]. split; [exact Rw|].
      split. { intros r _. cbn [visible]. now rewrite Hf. }
      split. { intros p x a0 Hx B. apply seq_inv in B as (f' & n' & b1 & b' & Hf' & Hn' & _ & B); auto. rewrite Hn in Hn'. injection Hn' as <- <-.
        rewrite Hf in Hf'. injection Hf' as <-. eauto. }
      split. { intros p s2 t2 b2 S. apply seq_sits in S as (f' & n' & b1 & Hf' & Hn' & _ & S). rewrite Hn in Hn'. injection Hn' as <- <-.
        rewrite Hf in Hf'. now injection Hf' as <-. }
      intros q' n' b' w' Q N Rw' Kw Db Ac. change (inq (SSeq c fs) q') with q' in Rw'.
      assert (Mu : mutated w' = true -> mutated (VSeq t e (Some (update l i w')) m nc) = true).
      { intros M. cbn. apply orb_true_iff. right. eapply existsb_update_true; eauto. }
      exists (ADict (update la i (nm, b'))). cbn [put_inner]. split.
      { pose proof (crep_cases q' n' f (nm, b') w') as Z. assert (Nm : nm = fname f).
        { apply rep_seq_eq in R1 as (la2 & t2 & e2 & ch2 & m2 & nc2 & E1 & E2 & _ & _ & _ & _ & _ & R1). injection E1 as <-. injection E2 as <- <- <- <- <-.
          destruct (all3_nth _ _ _ _ _ _ R1 Hf) as (na & v & Ha & Hv & Cr). rewrite Hn in Ha. injection Ha as <-. apply crep_cases in Cr. apply Cr. }
        assert (Cr : crep q' n' f (nm, b') w') by (apply Z; split; auto).
        apply (seq_put c fs q n q' n' t la e l m nc i f (nm, b) w w' b' R1 Hf Hn Hw Q N Cr).
        - intros En _. split; [eapply rep_lazy; eauto|]. split; auto.
        - intros A F. destruct (Ac A) as [(-> & -> & ->)|(-> & _ & M)]; [auto|]. unfold flagged in F. cbn [own] in F. rewrite (Mu M) in F. discriminate. }
      split; [apply kept_seq; auto|]. split; [reflexivity|]. split; [intros p x Hx B; eapply seq_intro; eauto|].
      split; [intros ->; now rewrite (update_same _ _ _ Hn)|]. auto.
  - destruct (seq_get_none c fs _ _ _ _ _ _ _ _ _ R Hf) as (l & Eg & R1). eexists _, _. split; [exact Eg|]. split; auto. split; [apply kept_seq; auto|].
    left. split; [exact I|]. split.
    + intros p x a0 Hx B. apply seq_inv in B as (f' & n' & b & b' & Hf' & _); congruence.
    + intros p s2 t2 b2 S. apply seq_sits in S as (f' & n' & b & Hf' & _). congruence.
Qed.

Lemma LS_class c s sorted : list_class (LS c s sorted) s.
Proof. exists c. destruct sorted; auto. Qed.
Lemma LS_get c s sorted : x_get (methods (LS c s sorted)) = get_list (methods s).
Proof. now destruct sorted. Qed.
Lemma enter_list c s sorted : wf (LS c s sorted) -> enters (LS c s sorted).
Proof.
  intros W q n t a v i Ht R. assert (Ws : wf s) by (destruct sorted; apply W). pose proof (contract_all s Ws) as C. 
  pose proof R as R0. apply rep_list_eq in R0 as (la & t' & e & ch & m & nc & -> & -> & -> & _).
  rewrite LS_get. pose proof (LS_class c s sorted) as Lc. assert (Nc : is_choice (LS c s sorted) = false) by now destruct sorted.
  destruct (nth_error la i) as [b|] eqn:Hn.
  - destruct (list_get c s sorted _ _ _ _ _ _ _ _ _ _ R Hn) as (l & w & Eg & Hw & R1 & Rw). eexists _, _. split; [exact Eg|]. split; auto.
    split; [apply kept_lst; auto|]. right. split; auto. exists s, w, (stags s no_params), b.
    split; [destruct sorted; cbn [inner LS]; now rewrite Hw|]. split; [exact Ws|]. split; [exact (tags_T0 c s sorted W)|].
    assert (Iq : forall q, inq (LS c s sorted) q = q) by (intros; unfold inq; now rewrite Nc). rewrite Iq. split; [exact Rw|].
    split; [intros r _; now destruct sorted|].
    split. { intros p x a0 Hx B. apply (lst_inv _ _ _ _ s) in B as (b1 & b' & Hn' & _ & B); auto. rewrite Hn in Hn'. injection Hn' as <-. eauto. }
    split. { intros p s2 t2 b2 S. apply (lst_sits _ _ _ s) in S as (b1 & Hn' & S); auto. rewrite Hn in Hn'. now injection Hn' as <-. }
    intros q' n' b' w' Q N Rw' Kw Db Ac. rewrite Iq in Rw'. rewrite Nc.
    assert (Mu : mutated w' = true -> mutated (VList t e (Some (update l i w')) m nc) = true).
    { intros M. cbn. apply orb_true_iff. right. eapply existsb_update_true; eauto. }
    exists (AList (update la i b')). cbn [put_inner]. split.
    { apply (list_put c s sorted q n q' n' t la e l m nc i b w w' b' R1 Hn Hw Q N Rw'); auto.
      intros A F. destruct (Ac A) as [(-> & -> & ->)|(-> & _ & M)]; [auto|]. unfold flagged in F. cbn [own] in F. rewrite (Mu M) in F. discriminate. }
    split; [apply kept_lst; auto|]. split; [reflexivity|]. split; [intros p x Hx B; eapply lst_intro; eauto|].
    split; [intros ->; now rewrite (update_same _ _ _ Hn)|]. auto.
  - destruct (list_get_none c s sorted _ _ _ _ _ _ _ _ _ R Hn) as (l & Eg & R1). eexists _, _. split; [exact Eg|]. split; auto. split; [apply kept_lst; auto|].
    left. split; [exact I|]. split.
    + intros p x a0 Hx B. apply (lst_inv _ _ _ _ s) in B as (b & b' & Hn' & _); auto; congruence.
    + intros p s2 t2 b2 S. apply (lst_sits _ _ _ s) in S as (b & Hn' & _); auto; congruence.
Qed.

Lemma alt_unique ex alts f g : wf (SChoice ex alts) -> In f alts -> In g alts -> fname f = fname g -> f = g.
Proof.
  intros (_ & N & _). revert N. clear. induction alts as [|h alts IH]; cbn; [tauto|]. intros N F G E. inversion N; subst.
  destruct F as [<-|F], G as [<-|G]; auto; exfalso; apply H1; [rewrite E|rewrite <- E]; now apply in_map.
Qed.

Lemma enter_choice ex alts : wf (SChoice ex alts) -> enters (SChoice ex alts).
Proof.
  intros W q n t a v i Ht R. pose proof R as R0. apply rep_choice_eq in R0 as (b & e & k & w & f & -> & -> & Hf & Hd & Rw).
  exists (VChoice t e (Some k) (Some w)), (Ok tt). split; [reflexivity|]. split; auto. split; [apply kept_refl|]. right. split; auto.
  pose proof (nth_error_In _ _ Hf) as Inf. destruct (wf_alt _ _ _ W Inf) as (Wf & T & _ & _ & Tk).
  exists (snd f), w, (ftags f), b. split; [cbn [inner]; now rewrite Hf|]. split; auto. split; auto. split; [exact Rw|].
  split; [discriminate|]. split.
  { intros p x a0 Hx B. inversion B; subst; [congruence|]. assert (f = f0) by (eapply alt_unique; eauto). subst. eauto. }
  split.
  { intros p s2 t2 b2 S. inversion S; subst. assert (f = f0) by (eapply alt_unique; eauto). now subst. }
  intros q' n' b' w' Q N Rw' Kw Db Ac. exists (AChoice (fname f) b'). cbn [put_inner]. split.
  { apply rep_choice_eq. exists b', e, k, w', f. split; auto. split; auto. split; auto. split; [|exact Rw'].
    intros A. destruct (Ac A) as [(-> & -> & ->)|(_ & E & _)]; [auto|discriminate]. }
  split. { destruct Kw as [K1 K2]. split; cbn; auto. }
  split; [reflexivity|]. split; [intros p x Hx B; now apply B_alt with f|]. split; [now intros ->|]. discriminate.
Qed.

Lemma enter_ok s : wf s -> enters s.
Proof.
  intros W. destruct s as [k c|c fs|c fs|c s|c s|ex alts].
  - intros q n t a v i Ht R. exists v, (Err TypeError). split; [reflexivity|]. split; auto. split; [apply kept_refl|]. left.
    split; [exact I|]. split.
    + intros p x a0 Hx B. inversion B; subst; [congruence|]. match goal with H : list_class _ _ |- _ => destruct H as (? & [?|?]); discriminate end.
    + intros p s2 t2 b2 S. inversion S; subst. match goal with H : list_class _ _ |- _ => destruct H as (? & [?|?]); discriminate end.
  - now apply enter_seq.
  - contradiction.
  - now apply (enter_list c s false).
  - now apply (enter_list c s true).
  - now apply enter_choice.
Qed.

(* ---- operations that only read ---- *)
Definition rk (x : act) (q : mode) : mode := match x with ADump f => join q f | _ => q end.
Definition read_mode (p : list nat) (x : act) (q : mode) : mode :=
  match p with [] => rk x q | _ :: _ => if own q then Own else Stale end.

Lemma through_void p x s : exists y, through p x s VVoid = (VVoid, y).
Proof. destruct p; cbn; eauto. Qed.
Lemma through_step i r x s v : v <> VVoid -> through (i :: r) x s v =
  match x_get (methods s) i v with
  | (v1, Err y) => (v1, Err y)
  | (v1, Ok tt) => match inner s i v1 with
                   | Some (s', w) => let '(w', y) := through r x s' w in (put_inner i w' v1, y)
                   | None => (v1, Err TypeError)
                   end
  end.
Proof. destruct v; auto. congruence. Qed.
Lemma perform_step s x v : v <> VVoid -> perform s x v =
  match x with
  | ARead => reply RNat (x_native (methods s) v)
  | ADump f => reply RDump (x_dump (methods s) f v)
  | AContents => reply RCont (x_contents (methods s) v)
  | ALen => reply RLen (x_len (methods s) v)
  | AGet i => reply (fun _ => RNone) (x_get (methods s) i v)
  | ASet i a => reply (fun _ => RNone) (x_set (methods s) i a v)
  | ADel i => reply (fun _ => RNone) (x_del (methods s) i v)
  | AAppend a => reply (fun _ => RNone) (x_append (methods s) a v)
  | AStore u =>
      match s, v with
      | SPrim k _, VPrim o => reply (fun _ => RNone) (let '(o', r) := set_value k o u in (VPrim o', r))
      | _, _ => (v, Err AttributeError)
      end
  end.
Proof. destruct v; auto. congruence. Qed.
Lemma rep_void q n s t a v : rep q n s t a v -> v <> VVoid.
Proof. intros R ->. now apply rep_not_void in R. Qed.

Lemma len_ok s q n t a v : wf s -> rep q n s t a v -> exists v1 y, x_len (methods s) v = (v1, y) /\ rep q n s t a v1 /\ kept v v1.
Proof.
  intros W R.
  assert (G : forall c e sorted, wf (LS c e sorted) -> rep q n (LS c e sorted) t a v ->
    exists v1 y, x_len (methods (LS c e sorted)) v = (v1, y) /\ rep q n (LS c e sorted) t a v1 /\ kept v v1).
  { clear s W R. intros c e sorted W R. pose proof R as R0. apply rep_list_eq in R0 as (la & t' & e0 & ch & m & nc & -> & -> & -> & _).
    destruct (ensure_list_ok c e sorted _ _ _ _ _ _ _ _ R) as (l & E & _ & _ & R1).
    replace (x_len (methods (LS c e sorted))) with len_list by now destruct sorted.
    unfold len_list. rewrite E. eexists _, _. split; [reflexivity|]. split; [exact R1|]. apply kept_lst; auto. }
  destruct s as [k c|c fs|c fs|c s|c s|ex alts].
  - exists v, (Err TypeError). split; [reflexivity|]. split; auto. apply kept_refl.
  - pose proof R as R0. apply rep_seq_eq in R0 as (la & t' & e & ch & m & nc & -> & -> & -> & _).
    destruct (ensure_ok c fs _ _ _ _ _ _ _ _ R) as (l & E & _ & _ & R1). change (x_len (methods (SSeq c fs))) with (len_seq (fields fs) false).
    unfold len_seq. rewrite E. eexists _, _. split; [reflexivity|]. split; [exact R1|]. apply kept_seq; auto.
  - contradiction.
  - now apply (G c s false).
  - now apply (G c s true).
  - exists v, (Err TypeError). split; [reflexivity|]. split; auto. apply kept_refl.
Qed.

Definition quiet (x : act) : bool := match x with ARead | ADump _ => true | _ => false end.
Lemma read_here s x q n t a v : wf s -> reading x = true -> tagging_ok t -> rep q n s t a v ->
  exists v' r, perform s x v = (v', r) /\ rep (rk x q) n s t a v' /\ kept v v' /\ (quiet x = true -> mutated v' = false).
Proof.
  intros W Hx Ht R. pose proof (contract_all s W) as C. rewrite (perform_step s x v) by (eapply rep_void; eauto). destruct x; try discriminate Hx; cbn [rk].
  - destruct (K_native s C _ _ _ _ _ Ht R) as (v' & y & E & R' & K & M & _). rewrite E. eexists _, _. split; [reflexivity|]. auto.
  - destruct (K_dump s C _ _ _ _ _ force Ht R) as (v' & y & E & K & M & R' & _). rewrite E. eexists _, _. split; [reflexivity|]. auto.
  - destruct (K_contents s C _ _ _ _ _ Ht R) as (v' & y & E & R' & K & _). rewrite E. eexists _, _. split; [reflexivity|]. split; auto. split; auto. discriminate.
  - destruct (len_ok s _ _ _ _ _ W R) as (v' & y & E & R' & K). rewrite E. eexists _, _. split; [reflexivity|]. split; auto. split; auto. discriminate.
  - destruct (enter_ok s W _ _ _ _ _ i Ht R) as (v' & y & E & R' & K & _). rewrite E. eexists _, _. split; [reflexivity|]. split; auto. split; auto. discriminate.
Qed.

Lemma le_read q : le_mode q (if own q then Own else Stale).
Proof. destruct q; cbn; auto. Qed.
Lemma own_inq s q : own q = true -> inq s q = Own.
Proof. destruct q; try discriminate. unfold inq. now destruct (is_choice s). Qed.
Lemma inq_stale s : inq s Stale = Stale.
Proof. unfold inq. now destruct (is_choice s). Qed.
Lemma read_own p x : read_mode p x Own = Own.
Proof. destruct p; auto. cbn. destruct x; auto. now destruct force. Qed.

Lemma read_ok : forall p x s q n t a v, wf s -> reading x = true -> tagging_ok t -> rep q n s t a v ->
  exists v' r, through p x s v = (v', r) /\ rep (read_mode p x q) n s t a v' /\ kept v v' /\ (p = [] -> quiet x = true -> mutated v' = false).
Proof.
  induction p as [|i r IH]; intros x s q n t a v W Hx Ht R.
  - destruct (read_here s x q n t a v W Hx Ht R) as (v' & y & E & R' & K & M). exists v', y. auto.
  - rewrite through_step by (eapply rep_void; eauto).
    destruct (enter_ok s W _ _ _ _ _ i Ht R) as (v1 & y & Eg & R1 & K & D). rewrite Eg. cbn [read_mode].
    assert (R2 : rep (if own q then Own else Stale) n s t a v1) by (eapply rep_weaken; [apply le_read| |exact R1]; auto).
    destruct D as [(B & _)|(-> & s' & w & t' & b & Ei & Ws & Tk & Rw & _ & _ & _ & Pt)].
    + destruct y as [[]|y]; [|exists v1, (Err y); split; auto; split; auto; split; auto; discriminate].
      destruct B as [Ei|(s' & Ei & Ep)]; rewrite Ei; [eexists _, _; split; [reflexivity|]; split; auto; split; auto; discriminate|].
      destruct (through_void r x s') as (z & Ez). rewrite Ez, Ep. eexists _, _. split; [reflexivity|]. split; auto. split; auto. discriminate.
    + rewrite Ei. destruct (IH x s' (inq s q) n t' b w Ws Hx Tk Rw) as (w' & z & Ez & Rw' & Kw & _). rewrite Ez.
      destruct (Pt (if own q then Own else Stale) n b w') as (a' & Ra & Ka & _ & _ & Ea & _); auto.
      * apply le_read.
      * destruct (own q) eqn:Oq; [|rewrite inq_stale; eapply rep_weaken; [apply le_stale| |exact Rw']; auto].
        rewrite (own_inq s q Oq) in Rw'. rewrite read_own in Rw'. now rewrite (own_inq s Own eq_refl).
      * intros A. destruct q; try discriminate A. auto.
      * rewrite (Ea eq_refl) in Ra. eexists _, _. split; [reflexivity|]. split; auto. split; [eapply kept_trans; eauto|discriminate].
Qed.

(* ---- changes ---- *)
Definition chg (s : spec) (p : list nat) (x : act) (q : mode) : mode :=
  match p with [] => q | _ => if is_store x then Stale else if visible s p then meet q else Stale end.

Lemma kind_null_dec (k : kind) : k = KNull \/ k <> KNull.
Proof. destruct k; auto; right; discriminate. Qed.
Lemma change_here s x a a0 q n t v : wf s -> tagging_ok t -> reading x = false -> changes s x a a0 -> rep q n s t a v ->
  exists v' b, perform s x v = (v', Ok RNone) /\ changes s x a b /\ rep q n s t b v' /\ kept v v' /\
    (is_store x = false -> dictlike v = true /\ mutated v' = true).
Proof.
  intros W Ht Hx B R. rewrite perform_step by (eapply rep_void; eauto).
  assert (LG : forall s e, list_class s e -> wf s -> exists c sorted, s = LS c e sorted /\ contract e).
  { clear. intros s e (c & [->| ->]) W; [exists c, false|exists c, true]; (split; [reflexivity|apply contract_all; apply W]). }
  inversion B; subst.
  - assert (C : forall f, In f fs -> contract (snd f)) by (intros g Hg; apply contract_all; exact (wf_wf c fs W g Hg)).
    pose proof R as R0. apply rep_seq_eq in R0 as (la & t' & e & ch & m & nc & E & -> & -> & _). injection E as <-.
    destruct (set_seq_ok c fs W C _ _ _ _ _ _ _ _ _ _ _ _ _ _ R H (nth_mid _ _ _) H0) as (ch' & nc' & b2 & E & A & R' & N).
    change (x_set (methods (SSeq c fs))) with (set_seq (fields fs) false). rewrite E. rewrite update_mid in R'.
    eexists _, _. split; [reflexivity|]. split; [eapply C_set; eauto|]. split; [exact R'|]. split; [now apply kept_seq|]. auto.
  - assert (C : forall f, In f fs -> contract (snd f)) by (intros g Hg; apply contract_all; exact (wf_wf c fs W g Hg)).
    pose proof R as R0. apply rep_seq_eq in R0 as (la & t' & e & ch & m & nc & E & -> & -> & _). injection E as <-.
    destruct (del_seq_ok c fs W C _ _ _ _ _ _ _ _ _ _ _ _ _ R H (nth_mid _ _ _) H0) as (ch' & nc' & b2 & E & A & R' & N).
    change (x_del (methods (SSeq c fs))) with (del_seq (fields fs) false). rewrite E. rewrite update_mid in R'.
    eexists _, _. split; [reflexivity|]. split; [eapply C_del; eauto|]. split; [exact R'|]. split; [now apply kept_seq|]. auto.
  - destruct (LG _ _ H W) as (c & sorted & -> & C). pose proof R as R0. apply rep_list_eq in R0 as (la & t' & e & ch & m & nc & E & -> & -> & _). injection E as <-.
    destruct (set_list_ok c s' sorted W C _ _ _ _ _ _ _ _ (length l) x0 b' R) as (ch' & nc' & b2 & E & A & R' & N); auto.
    { rewrite app_length. cbn. lia. }
    replace (x_set (methods (LS c s' sorted))) with (set_list (methods s') []).
    2: { enough (X : class_explicit s' = []) by (destruct sorted; cbn; now rewrite X). destruct sorted; apply W. }
    rewrite E. rewrite update_mid in R'. replace (length l =? length (l ++ b :: r))%nat with false in R'.
    2: { symmetry. apply Nat.eqb_neq. rewrite app_length. cbn. lia. }
    eexists _, _. split; [reflexivity|]. split; [eapply C_elt; eauto|]. split; [exact R'|]. split; [now apply kept_lst|]. auto.
  - destruct (LG _ _ H W) as (c & sorted & -> & C). pose proof R as R0. apply rep_list_eq in R0 as (la & t' & e & ch & m & nc & E & -> & -> & _). injection E as <-.
    destruct (set_list_ok c s' sorted W C _ _ _ _ _ _ _ _ (length l) x0 b' R) as (ch' & nc' & b2 & E & A & R' & N); auto.
    replace (x_set (methods (LS c s' sorted))) with (set_list (methods s') []).
    2: { enough (X : class_explicit s' = []) by (destruct sorted; cbn; now rewrite X). destruct sorted; apply W. }
    rewrite E. rewrite Nat.eqb_refl in R'.
    eexists _, _. split; [reflexivity|]. split; [eapply C_next; eauto|]. split; [exact R'|]. split; [now apply kept_lst|]. auto.
  - destruct (LG _ _ H W) as (c & sorted & -> & C). pose proof R as R0. apply rep_list_eq in R0 as (la & t' & e & ch & m & nc & E & -> & -> & _). injection E as <-.
    destruct (append_list_ok c s' sorted W C _ _ _ _ _ _ _ _ x0 b' R) as (ch' & nc' & b2 & E & A & R' & N); auto.
    replace (x_append (methods (LS c s' sorted))) with (append_list (methods s') []).
    2: { enough (X : class_explicit s' = []) by (destruct sorted; cbn; now rewrite X). destruct sorted; apply W. }
    rewrite E. 
    eexists _, _. split; [reflexivity|]. split; [eapply C_append; eauto|]. split; [exact R'|]. split; [now apply kept_lst|]. auto.
  - destruct (LG _ _ H W) as (c & sorted & -> & C). pose proof R as R0. apply rep_list_eq in R0 as (la & t' & e & ch & m & nc & E & -> & -> & _). injection E as <-.
    destruct (del_list_ok c s' sorted _ _ _ _ _ _ _ _ (length l) R) as (ch' & nc' & E & R' & N). { rewrite app_length. cbn. lia. }
    replace (x_del (methods (LS c s' sorted))) with del_list by now destruct sorted. rewrite E. rewrite remove_mid in R'.
    eexists _, _. split; [reflexivity|]. split; [eapply C_remove; eauto|]. split; [exact R'|]. split; [now apply kept_lst|]. auto.
  - cbn [rep] in R. destruct v as [| |o| | |]; try contradiction. destruct R as (Hu & R). destruct W as [Hk _].
    assert (G : exists o', set_value k o v0 = (o', Ok tt) /\ settled k c t None v0 o').
    { destruct R as [(Sc & Ei)|(_ & Rw)]; [|now apply raw_set with u].
      assert (G : exists o', set_value k o v0 = (o', Ok tt) /\ carries k c t None v0 o').
      { destruct (kind_null_dec k) as [->|Nk]; [now apply carries_set_null with u|].
        pose proof Sc as (Et & Ew & M & _). apply carries_set; auto. }
      destruct G as (o' & Es & C'). pose proof (step_indef k c o (OSet v0) Ei) as E'. cbn [step] in E'. rewrite Es in E'. cbn [fst] in E'.
      exists o'. split; auto. split; auto. }
    destruct G as (o' & Es & C').
    exists (VPrim o'), (APrim v0). rewrite Es. split; [reflexivity|]. split; [constructor; auto|]. split; [split; [auto|left; auto]|].
    split; [split; auto|discriminate].
Qed.

Lemma chg_le s q p x : le_mode q (chg s p x q).
Proof. destruct p; cbn [chg]; auto. destruct (is_store x); auto. destruct (visible s (n :: p)); auto. apply le_meet. Qed.
Lemma becomes_here x s a a0 : reading x = false -> becomes [] x s a a0 -> changes s x a a0.
Proof. intros Hx B. inversion B; subst; auto. congruence. Qed.

Lemma change_ok : forall p x s a a0 q n t v, wf s -> tagging_ok t -> reading x = false -> becomes p x s a a0 -> rep q n s t a v ->
  exists v' b, through p x s v = (v', Ok RNone) /\ becomes p x s a b /\ rep (chg s p x q) (n && negb (store_below (p, x))) s t b v' /\ kept v v' /\
    (is_store x = false -> dictlike v = true /\ (visible s p = true -> mutated v' = true)).
Proof.
  induction p as [|i r IH]; intros x s a a0 q n t v W Ht Hx B R.
  - destruct (change_here s x a a0 q n t v W Ht Hx (becomes_here _ _ _ _ Hx B) R) as (v' & b & E & C & R' & K & M). exists v', b.
    cbn [through chg]. split; auto. split; [now constructor|]. split; [cbn; rewrite andb_true_r; exact R'|]. split; auto. intros S. destruct (M S). auto.
  - rewrite through_step by (eapply rep_void; eauto).
    destruct (enter_ok s W _ _ _ _ _ i Ht R) as (v1 & y & Eg & R1 & K & D). rewrite Eg.
    destruct D as [(_ & Nb & _)|(-> & s' & w & t' & b & Ei & Ws & Tk & Rw & Vs & Bi & _ & Pt)]; [now apply Nb in B|].
    rewrite Ei. destruct (Bi _ _ _ Hx B) as (b0 & Bb).
    destruct (IH x s' b b0 (inq s q) n t' w Ws Tk Hx Bb Rw) as (w' & b' & Ez & Bb' & Rw' & Kw & Mw). rewrite Ez.
    assert (Sb : store_below (i :: r, x) = is_store x) by now destruct x.
    destruct (Pt (chg s (i :: r) x q) (n && negb (store_below (i :: r, x))) b' w') as (a' & Ra & Ka & Dv & Ba & _ & Ma); auto.
    + apply chg_le.
    + intros N. now apply andb_true_iff in N.
    + eapply rep_weaken; [| |exact Rw'].
      * cbn [chg]. destruct (is_store x) eqn:Sx; [rewrite inq_stale; auto|]. destruct (visible s (i :: r)) eqn:V; [|rewrite inq_stale; auto].
        unfold inq. destruct (is_choice s) eqn:Cs; [destruct s; discriminate|]. rewrite (Vs _ eq_refl) in V.
        destruct r; cbn [chg]; [apply le_meet|]. rewrite Sx, V. auto.
      * rewrite Sb. intros N. apply andb_true_iff in N as [N1 N2]. rewrite N1. destruct r; destruct x; cbn in N2 |- *; auto.
    + rewrite Sb. intros N Dw. apply andb_true_iff in N as [_ N]. apply negb_true_iff in N. destruct (Mw N) as [Dt _]. congruence.
    + intros A. right. cbn [chg] in A |- *. destruct (is_store x) eqn:Sx; [discriminate|]. destruct (visible s (i :: r)) eqn:V; [|discriminate].
      split; [destruct q; auto; discriminate|]. destruct (is_choice s) eqn:Cs; [destruct s; discriminate|]. split; auto.
      rewrite (Vs _ eq_refl) in V. now apply (Mw eq_refl).
    + eexists _, _. split; [reflexivity|]. split; [apply Ba; eauto|]. split; [exact Ra|]. split; [eapply kept_trans; eauto|].
      intros Sx. destruct (Mw Sx) as [Dt Mv]. destruct K as [K1 _]. split.
      * rewrite <- K1, Dv. destruct (is_choice s); auto.
      * intros V. destruct (is_choice s) eqn:Cs; [destruct s; discriminate|]. apply Ma; auto. apply Mv. now rewrite <- (Vs r eq_refl).
Qed.

(* ---- several operations ---- *)
Definition mode_of (q : trust) : mode := match q with Lost => Stale | Pending => Right | Clean => Own end.

Lemma step_ok p x s a a0 q n t v : wf s -> tagging_ok t -> becomes p x s a a0 -> rep (mode_of q) n s t a v ->
  exists b, becomes p x s a b /\ rep (mode_of (next s (p, x) q)) (n && negb (store_below (p, x))) s t b (fst (through p x s v)) /\
    (reading x = false -> snd (through p x s v) = Ok RNone).
Proof.
  intros W Ht B R. destruct (reading x) eqn:Hx.
  - destruct (read_ok p x s _ _ _ _ _ W Hx Ht R) as (v' & r & E & R' & _ & M). exists a. rewrite E. cbn [fst snd].
    split; [now constructor|]. split; [|discriminate].
    assert (Sb : store_below (p, x) = false) by (destruct p; auto; destruct x; auto; discriminate). rewrite Sb, andb_true_r.
    destruct p as [|i p]; cbn [next read_mode] in *.
    + destruct x; try discriminate Hx; cbn [rk] in R'; auto.
      * destruct q; cbn [mode_of] in *; auto. apply promote; auto.
      * destruct force; cbn [join] in R'; auto. destruct q; cbn [mode_of] in *; auto. apply promote; auto.
    + rewrite Hx. destruct q; exact R'.
  - destruct (change_ok p x s a a0 _ n t v W Ht Hx B R) as (v' & b & E & B' & R' & _ & _). exists b. rewrite E. cbn [fst snd].
    split; auto. split; auto. eapply rep_weaken; [| |exact R']; auto.
    destruct p as [|i p]; cbn [next chg]; [destruct x; try discriminate; auto|]. rewrite Hx.
    destruct x; try discriminate Hx; cbn [is_store store_below]; auto; destruct (visible s (i :: p)); auto; destruct q; cbn; auto.
Qed.


Theorem history_ok s t : wf s -> tagging_ok t -> forall h a q n v, safe s h a -> rep (mode_of q) n s t a v ->
  exists b, leads s h a b /\ rep (mode_of (trusted s h q)) (n && negb (stores_below h)) s t b (after s h v).
Proof.
  intros W Ht. induction h as [|[p x] h IH]; intros a q n v Sf R.
  - exists a. split; [constructor|]. cbn. now rewrite andb_true_r.
  - cbn [safe] in Sf. destruct Sf as [(a0 & B) Sf]. destruct (step_ok p x s a a0 q n t v W Ht B R) as (b & B' & R' & _).
    destruct (IH b _ _ _ (Sf b B') R') as (c & L & Rc). exists c. split; [econstructor; eauto|].
    cbn [trusted after stores_below existsb]. rewrite negb_orb, andb_assoc. exact Rc.
Qed.

(* ---- the object at a path ---- *)
Lemma reach_at : forall p s t a s' t' b, sits p s t a s' t' b -> forall q n v, wf s -> tagging_ok t -> rep q n s t a v ->
  exists q' w, wf s' /\ tagging_ok t' /\ rep q' n s' t' b w /\ acc q' = acc q /\ forall x, snd (through p x s v) = snd (perform s' x w).
Proof.
  induction p as [|i r IH]; intros s t a s' t' b Si q n v W Ht R.
  - inversion Si; subst. exists q, v. auto.
  - pose proof (rep_void _ _ _ _ _ _ R) as Nv. 
    destruct (enter_ok s W _ _ _ _ _ i Ht R) as (v1 & y & Eg & R1 & K & D).
    destruct D as [(_ & _ & Ns)|(-> & s1 & w & t1 & b1 & Ei & Ws & Tk & Rw & _ & _ & Si' & _)]; [now apply Ns in Si|].
    destruct (IH _ _ _ _ _ _ (Si' _ _ _ _ Si) _ _ _ Ws Tk Rw) as (q' & u & W' & T' & R' & A & E). exists q', u.
    split; auto. split; auto. split; auto. split.
    + rewrite A. unfold inq. destruct (is_choice s); auto. now rewrite acc_under.
    + intros x. rewrite through_step by auto. rewrite Eg, Ei, <- E. now destruct (through r x s1 w).
Qed.

Lemma seq_length c fs q n t la e ch m nc : rep q n (SSeq c fs) t (ADict la) (VSeq t e ch m nc) -> forall v1 l,
  ensure (fields fs) false (VSeq t e ch m nc) = (v1, Ok l) -> length l = length fs /\ length la = length fs.
Proof.
  intros R v1 l E. destruct (ensure_ok c fs _ _ _ _ _ _ _ _ R) as (l' & E' & A & _). rewrite E in E'. injection E' as -> ->.
  apply all3_length in A. intuition congruence.
Qed.
Lemma len_answer s q n t a v : wf s -> rep q n s t a v ->
  match a with AList l => snd (perform s ALen v) = Ok (RLen (len l)) | ADict l => snd (perform s ALen v) = Ok (RLen (len l)) | _ => True end.
Proof.
  intros W R. rewrite perform_step by (eapply rep_void; eauto).
  assert (G : forall c e sorted l, rep q n (LS c e sorted) t (AList l) v ->
    snd (reply RLen (x_len (methods (LS c e sorted)) v)) = Ok (RLen (len l))).
  { clear. intros c e sorted la R. pose proof R as R0. apply rep_list_eq in R0 as (la' & t' & e0 & ch & m & nc & E & -> & -> & _). injection E as <-.
    destruct (ensure_list_ok c e sorted _ _ _ _ _ _ _ _ R) as (l & E & A & _).
    replace (x_len (methods (LS c e sorted))) with len_list by now destruct sorted.
    unfold len_list. rewrite E. cbn. unfold len. now rewrite (all2_length _ _ _ A). }
  destruct a; auto; destruct s as [k c|c fs|c fs|c s|c s|ex alts]; try (exfalso; cbn [rep] in R; unfold rep_seq, rep_list in R; exact R); try (exfalso; exact W).
  - pose proof R as R0. apply rep_seq_eq in R0 as (la & t' & e & ch & m & nc & E & -> & -> & _). injection E as <-.
    destruct (ensure_ok c fs _ _ _ _ _ _ _ _ R) as (x & E & A & _). change (x_len (methods (SSeq c fs))) with (len_seq (fields fs) false).
    unfold len_seq. rewrite E. cbn. apply all3_length in A. unfold len. destruct A as [A1 A2]. repeat f_equal. congruence.
  - now apply (G c s false).
  - now apply (G c s true).
Qed.

(* an index past the end *)
Lemma index_answer s e x q n t l v : wf s -> list_class s e -> past x (length l) -> rep q n s t (AList l) v ->
  snd (perform s x v) = Err IndexError.
Proof.
  intros W L P R. rewrite perform_step by (eapply rep_void; eauto).
  assert (exists c sorted, s = LS c e sorted) as (c & sorted & ->).
  { destruct L as (c & [->| ->]); [exists c, false|exists c, true]; reflexivity. }
  pose proof R as R0. apply rep_list_eq in R0 as (la' & t' & e0 & ch & m & nc & E & -> & -> & _). injection E as <-.
  destruct (ensure_list_ok c e sorted _ _ _ _ _ _ _ _ R) as (l' & E & A & _). pose proof (all2_length _ _ _ A) as Ll. destruct x; try contradiction; cbn [past] in P.
  - rewrite LS_get. unfold get_list. rewrite E. replace (nth_error l' i) with (@None value); auto. symmetry. apply nth_error_None. lia.
  - replace (x_del (methods (LS c e sorted))) with del_list by now destruct sorted. unfold del_list. rewrite E.
    replace (Nat.ltb i (length l')) with false; auto. symmetry. apply Nat.ltb_ge. lia.
Qed.

Theorem follows_from_ok q s t a v : wf s -> tagging_ok t -> rep (mode_of q) true s t a v -> follows_from q s t a v.
Proof.
  intros W Ht R h Sf. destruct (history_ok s t W Ht h a q true v Sf R) as (b & L & Rb). exists b. split; auto. split.
  - intros p x Hx (c & B). now destruct (step_ok p x s b c _ _ _ _ W Ht B Rb) as (_ & _ & _ & E); auto.
  - intros p s' t' c Si. destruct (reach_at _ _ _ _ _ _ _ Si _ _ _ W Ht Rb) as (q' & w & W' & T' & Rw & A & E). pose proof (contract_all s' W') as C. split.
    + destruct (K_native s' C _ _ _ _ _ T' Rw) as (w' & y & En & _ & _ & _ & _ & Sh). exists y. rewrite E, perform_step by (eapply rep_void; eauto).
      rewrite En. split; auto. intros N. apply Sh. cbn. now rewrite N.
    + split.
      * intros f. destruct (K_dump s' C _ _ _ _ _ f T' Rw) as (w' & d & Ed & _ & _ & _ & De). exists d. rewrite E, perform_step by (eapply rep_void; eauto).
        rewrite Ed. split; auto. intros H Ld. apply (proj1 (encodes_der_both s' W' t' T')); auto. apply De.
        destruct H as [H|H]; auto. left. rewrite A. destruct (trusted s h q); auto; congruence.
      * split.
        -- destruct c; auto; intros; rewrite E; [exact (len_answer _ _ _ _ _ _ W' Rw)|exact (len_answer _ _ _ _ _ _ W' Rw)].
        -- intros e l x Lc -> P. rewrite E. eapply index_answer; eauto.
Qed.
Theorem follows_ok s t a v : wf s -> tagging_ok t -> rep Own true s t a v -> follows s t a v.
Proof. exact (follows_from_ok Clean s t a v). Qed.
