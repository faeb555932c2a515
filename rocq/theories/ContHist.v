(* Operations on structured objects and on the objects inside them: what is kept. *)
Require Import Verif.Base Verif.BaseFacts Verif.IntModel Verif.IntSpec Verif.IntProofs
  Verif.ParserModel Verif.ParserSpec Verif.ParserProofs Verif.ParserFacts Verif.Text Verif.CodecModel Verif.TagSpec Verif.TagProofs
  Verif.PrimModel Verif.PrimSpec Verif.PrimProofs Verif.PrimSet Verif.PrimDump Verif.PrimLoad Verif.HistSpec Verif.PrimHist
  Verif.PrimRead Verif.PrimSide Verif.ContModel Verif.ContSpec Verif.ContBase Verif.ContRep Verif.ContPrim Verif.ContSeq Verif.ContSeq2 Verif.ContList
  Verif.ContChoice Verif.ContPath Verif.ContHistSpec.
Require Import Sorting.Permutation Sorting.Sorted.

Lemma nth_mid {A} (l r : list A) x : nth_error (l ++ x :: r) (length l) = Some x.
Proof. rewrite nth_error_app2 by lia. now rewrite Nat.sub_diag. Qed.
Lemma update_same {A} (l : list A) : forall i x, nth_error l i = Some x -> update l i x = l.
Proof. induction l as [|y l IH]; intros [|i] x; cbn; try discriminate; [now intros [= ->]|intros H; f_equal; auto]. Qed.
Lemma update_length {A} (l : list A) : forall i x, length (update l i x) = length l.
Proof. induction l as [|y l IH]; intros [|i] x; cbn; auto. Qed.
Lemma nth_update {A} (l : list A) : forall i j x, nth_error (update l i x) j =
  if Nat.eqb i j then (match nth_error l j with Some _ => Some x | None => None end) else nth_error l j.
Proof. induction l as [|y l IH]; intros [|i] [|j] x; cbn; auto; now destruct (Nat.eqb i j). Qed.
Lemma nth_update_same {A} (l : list A) i x y : nth_error l i = Some y -> nth_error (update l i x) i = Some x.
Proof. intros H. now rewrite nth_update, Nat.eqb_refl, H. Qed.
Lemma nth_update_other {A} (l : list A) i j x : i <> j -> nth_error (update l i x) j = nth_error l j.
Proof. intros H. rewrite nth_update. apply Nat.eqb_neq in H. now rewrite H. Qed.
Lemma all3_update {A B C} (R R' : A -> B -> C -> Prop) (fs : list A) : forall la vs i f na v,
  (forall f na v, In f fs -> R f na v -> R' f na v) -> all3 R fs la vs -> nth_error fs i = Some f -> R' f na v ->
  all3 R' fs (update la i na) (update vs i v).
Proof.
  induction fs as [|g fs IH]; intros [|nb la] [|w vs] [|i] f na v M; cbn; try tauto; try discriminate.
  - intros [H1 H2] [= ->] K. split; auto. eapply all3_impl; [|exact H2]. intros x y z Hx. apply M. now right.
  - intros [H1 H2] Hf K. split; [apply M; [now left|auto]|]. eapply IH; eauto. intros x y z Hx. apply M. now right.
Qed.
Lemma all2_update {A B} (R R' : A -> B -> Prop) : forall la vs i na v,
  (forall na v, R na v -> R' na v) -> all2 R la vs -> R' na v -> all2 R' (update la i na) (update vs i v).
Proof.
  induction la as [|nb la IH]; intros [|w vs] [|i] na v M; cbn; try tauto.
  - intros [H1 H2] K. split; auto. eapply all2_impl; [|exact H2]. auto.
  - intros [H1 H2] K. split; auto.
Qed.
Lemma existsb_update_true {A} (P : A -> bool) l i x y : nth_error l i = Some y -> P x = true -> existsb P (update l i x) = true.
Proof. intros H K. apply existsb_exists. exists x. split; auto. eapply nth_error_In. eapply nth_update_same; eauto. Qed.
Lemma existsb_update_false {A} (P : A -> bool) l i x y : nth_error l i = Some y -> P y = false ->
  existsb P (update l i x) = false -> existsb P l = false.
Proof.
  intros H K E. destruct (existsb P l) eqn:E'; auto. apply existsb_exists in E' as (z & Hz & Pz).
  apply In_nth_error in Hz as (j & Hj). destruct (Nat.eq_dec i j) as [->|N]; [congruence|].
  assert (X : existsb P (update l i x) = true); [|congruence].
  apply existsb_exists. exists z. split; auto. eapply nth_error_In. erewrite nth_update_other; eauto.
Qed.

Lemma nth_error_ext {A} : forall l m : list A, (forall i, nth_error l i = nth_error m i) -> l = m.
Proof.
  induction l as [|x l IH]; intros [|y m] H; auto; [now specialize (H 0%nat)|now specialize (H 0%nat)|].
  f_equal; [specialize (H 0%nat); cbn in H; congruence|]. apply IH. intros i. exact (H (S i)).
Qed.
Lemma kept_trans v w u : kept v w -> kept w u -> kept v u.
Proof. intros [A B] [D E]. split; [congruence|auto]. Qed.

(* what is said about the contents after a change inside *)
Definition meet (q : mode) : mode := match q with Stale => Stale | _ => Right end.
Lemma le_meet q : le_mode q (meet q).
Proof. destruct q; split; auto; discriminate. Qed.

(* nothing is marked as changed, so everything stored is right by itself *)
Lemma promote s : forall n t a v, rep Right n s t a v -> mutated v = false -> rep Own n s t a v.
Proof.
  induction s as [k cl|cl fs IH|cl fs IH|cl s IH|cl s IH|ex alts IH] using spec_rect'; intros n t a v H M; cbn [rep] in *; auto.
  - unfold rep_seq in *. destruct a as [| |la| | |]; try contradiction. destruct v as [| | |t' e ch m nc| |]; try contradiction.
    destruct H as (H1 & H2 & H3 & H4 & H5 & H6). split; [exact H1|]. split; [exact H2|]. split; [exact H3|].
    split; [intros _ _; apply H4; [reflexivity|exact M]|]. split; [exact H5|].
    destruct ch as [l|]; auto. cbn in M. apply orb_false_iff in M as [_ M].
    assert (G : forall l la fs', incl fs' fs -> existsb mutated l = false -> all3 (crep Right n) fs' la l -> all3 (crep Own n) fs' la l).
    { clear - IH. induction l as [|v l IHl]; intros la [|f fs'] I M; destruct la as [|na la]; cbn; try tauto. intros [K1 K2].
      cbn in M. apply orb_false_iff in M as [M1 M2]. split; [|apply IHl; auto; intros x Hx; apply I; now right].
      apply crep_cases in K1 as (E & K). apply crep_cases. split; auto. destruct K as [K|[K|K]]; auto. right. right.
      rewrite Forall_forall in IH. apply IH; auto. apply I. now left. }
    eapply (G l la fs (incl_refl _) M). exact H6.
  - unfold rep_list in *. destruct a as [| | |la| |]; try contradiction. destruct v as [| | | |t' e ch m nc|]; try contradiction.
    destruct H as (H1 & H2 & H3 & H4 & H5 & H6). split; [exact H1|]. split; [exact H2|]. split; [exact H3|].
    split; [intros _ _; apply H4; [reflexivity|exact M]|]. split; [exact H5|].
    destruct ch as [l|]; auto. cbn in M. apply orb_false_iff in M as [_ M].
    assert (G : forall l la, existsb mutated l = false -> all2 (erep Right n s) la l -> all2 (erep Own n s) la l).
    { clear - IH. induction l as [|v l IHl]; intros [|a la] M; cbn; try tauto. intros [K1 K2].
      cbn in M. apply orb_false_iff in M as [M1 M2]. split; [|apply IHl; auto].
      apply erep_cases in K1 as [K|K]; apply erep_cases; auto. }
    eapply (G l la M). exact H6.
  - unfold rep_list in *. destruct a as [| | |la| |]; try contradiction. destruct v as [| | | |t' e ch m nc|]; try contradiction.
    destruct H as (H1 & H2 & H3 & H4 & H5 & H6). split; [exact H1|]. split; [exact H2|]. split; [exact H3|].
    split; [intros _ _; apply H4; [reflexivity|exact M]|]. split; [exact H5|].
    destruct ch as [l|]; auto. cbn in M. apply orb_false_iff in M as [_ M].
    assert (G : forall l la, existsb mutated l = false -> all2 (erep Right n s) la l -> all2 (erep Own n s) la l).
    { clear - IH. induction l as [|v l IHl]; intros [|a la] M; cbn; try tauto. intros [K1 K2].
      cbn in M. apply orb_false_iff in M as [M1 M2]. split; [|apply IHl; auto].
      apply erep_cases in K1 as [K|K]; apply erep_cases; auto. }
    eapply (G l la M). exact H6.
Qed.

(* ---- sequences ---- *)
Section Seq3.
  Variable c : pcls.
  Variable fs : list (fld * spec).
  Hypothesis W : wf (SSeq c fs).
  Hypothesis C : forall f, In f fs -> contract (snd f).

  Lemma seq_put q n q' n' t la e l m nc i f na w w' b' :
    rep q n (SSeq c fs) t (ADict la) (VSeq t e (Some l) m nc) ->
    nth_error fs i = Some f -> nth_error la i = Some na -> nth_error l i = Some w ->
    le_mode q q' -> le_bool n n' -> crep q' n' f (fst na, b') w' ->
    (n' = true -> nc <> None -> is_lazy w' = false /\ kept w w' /\ (dictlike w = false -> b' = snd na)) ->
    (acc q' = true -> flagged q' (VSeq t e (Some (update l i w')) m nc) = false ->
       b' = snd na /\ flagged q (VSeq t e (Some l) m nc) = false) ->
    rep q' n' (SSeq c fs) t (ADict (update la i (fst na, b'))) (VSeq t e (Some (update l i w')) m nc).
  Proof.
    intros R Hf Hn Hw Lq Ln Rw Hk Hq. apply rep_seq_eq in R as (la' & t' & e' & ch' & m' & nc' & [= <-] & [= <- <- <- <- <-] & _ & Em & R2 & R3 & R4 & R5).
    apply rep_seq_eq. exists (update la i (fst na, b')), t, e, (Some (update l i w')), m, nc. do 3 (split; [reflexivity|]). split; auto. split; auto. split.
    { intros Q F. destruct (Hq Q F) as [-> F']. destruct (R3 (proj1 Lq Q) F') as (x & Hx & En). exists x. split; auto.
      rewrite update_same; auto. rewrite Hn. now destruct na. }
    split.
    - intros N. specialize (R4 (Ln N)). destruct nc as [d|]; auto. destruct (Hk N) as (Lz & [Kd Kh] & Kb); [discriminate|].
      destruct R4 as (Ld & H). split; auto. intros j g nb v Hg Hnb Hv. destruct (Nat.eq_dec i j) as [<-|Nj].
      + rewrite (nth_update_same _ _ _ _ Hn) in Hnb. injection Hnb as <-. rewrite (nth_update_same _ _ _ _ Hw) in Hv. injection Hv as <-.
        destruct (H i g na w Hg Hn Hw) as (ne & Hd & _ & E). exists ne. split; auto. split; auto. unfold ent_ok in *. rewrite Kd.
        destruct (dictlike w); [destruct E; auto|]. now rewrite (Kb eq_refl).
      + rewrite nth_update_other in Hnb by auto. rewrite nth_update_other in Hv by auto. eauto.
    - eapply all3_update; [|exact R5|exact Hf|exact Rw]. intros g nb v _. now apply crep_weaken.
  Qed.

  (* obj[i] *)
  Lemma seq_get q n t la e ch m nc i f na : rep q n (SSeq c fs) t (ADict la) (VSeq t e ch m nc) ->
    nth_error fs i = Some f -> nth_error la i = Some na ->
    exists l w, get_seq (fields fs) false i (VSeq t e ch m nc) = (VSeq t e (Some l) m nc, Ok tt) /\ nth_error l i = Some w /\
      rep q n (SSeq c fs) t (ADict la) (VSeq t e (Some l) m nc) /\
      ((w = VVoid /\ fpres f = Optional /\ snd na = ANone) \/ rep q n (snd f) (ftags f) (snd na) w).
  Proof.
    intros R Hf Hn. destruct (ensure_ok c fs _ _ _ _ _ _ _ _ R) as (l & El & A & _ & R').
    destruct (all3_nth _ _ _ _ _ _ A Hf) as (na' & v & Hn' & Hv & K). assert (na' = na) by congruence. subst na'.
    pose proof (nth_error_In _ _ Hf) as Inf.
    destruct (built_ok fs q n f na v Inf K) as (b & Eb & E & Hb & Kb & Lb).
    exists (update l i b), b. unfold get_seq. rewrite El, Hv, (meth_nth fs _ _ Hf), Eb.
    assert (Hlz : match v with VLazy _ => True | _ => b = v end) by (destruct v; auto).
    split; [destruct v; auto|]. split; [eapply nth_update_same; eauto|]. split; [|destruct Hb as [(-> & _ & X)|X]; auto].
    replace (ADict la) with (ADict (update la i (fst na, snd na))) by (f_equal; apply update_same; rewrite Hn; now destruct na).
    eapply seq_put; eauto.
    - apply crep_cases. cbn. split; auto. destruct Hb as [(-> & _ & X)|X]; auto.
    - intros N Nc. split; auto. split; [|auto]. assert (Lz : is_lazy v = false); [|rewrite (Kb Lz); apply kept_refl].
      apply rep_seq_eq in R' as (la' & t' & e' & ch' & m' & nc' & [= <-] & [= <- <- <- <- <-] & _ & _ & _ & _ & R4 & _).
      specialize (R4 N). destruct nc as [d|]; [|contradiction]. destruct R4 as (_ & R4). destruct (R4 i f na v Hf Hn Hv) as (ne & _ & Z & _). exact Z.
    - intros Q F. split; auto. unfold flagged in *. destruct (own q); auto. cbn [mutated] in *. apply orb_false_iff in F as [-> F]. cbn.
      destruct (is_lazy v) eqn:Lz.
      + eapply existsb_update_false; [exact Hv| |exact F]. now destruct v.
      + rewrite (Kb eq_refl) in F. now rewrite (update_same _ _ _ Hv) in F.
  Qed.
  Lemma seq_get_none q n t la e ch m nc i : rep q n (SSeq c fs) t (ADict la) (VSeq t e ch m nc) -> nth_error fs i = None ->
    exists l, get_seq (fields fs) false i (VSeq t e ch m nc) = (VSeq t e (Some l) m nc, Err KeyError) /\ rep q n (SSeq c fs) t (ADict la) (VSeq t e (Some l) m nc).
  Proof.
    intros R Hf. destruct (ensure_ok c fs _ _ _ _ _ _ _ _ R) as (l & El & A & _ & R'). exists l. split; auto. unfold get_seq. rewrite El.
    apply all3_length in A as [_ A]. apply nth_error_None in Hf. destruct (nth_error l i) eqn:X; auto. assert (Y : nth_error l i <> None) by congruence.
    apply nth_error_Some in Y. lia.
  Qed.

  Lemma dict_set_nth : forall (d : list (text * nent)) i n x y, nth_error d i = Some (n, x) -> NoDup (map fst d) ->
    dict_set d n y = update d i (n, y).
  Proof.
    induction d as [|[m z] d IH]; intros [|i] n x y; cbn; try discriminate.
    - intros [= -> ->] _. now rewrite (proj2 (eqb_text_spec n n) eq_refl).
    - intros H N. inversion N as [|? ? A B0]; subst. destruct (eqb_text m n) eqn:E.
      + apply eqb_text_spec in E. subst m. exfalso. apply A. apply nth_error_In in H. apply (in_map fst) in H. exact H.
      + f_equal. eapply IH; eauto.
  Qed.
  Lemma ents_names la l d : all3 (fun (f : fld * spec) (na : text * aval) (v : value) => True) fs la l -> ents_seq fs la l d -> map fst d = map fname fs.
  Proof.
    intros A (Ld & H). apply all3_length in A as [L1 L2]. apply nth_error_ext. intros i. rewrite !nth_error_map.
    destruct (nth_error fs i) as [f|] eqn:Ef.
    - assert (Hi : (i < length fs)%nat) by (apply nth_error_Some; congruence).
      destruct (nth_error_ex la i) as [na Hna]; [lia|]. destruct (nth_error_ex l i) as [v Hv]; [lia|].
      destruct (H i f na v Ef Hna Hv) as (ne & -> & _). reflexivity.
    - apply nth_error_None in Ef. assert (E : nth_error d i = None) by (apply nth_error_None; lia). now rewrite E.
  Qed.

  (* what _make_value makes of an argument *)
  Lemma assigned_made f x b0 : In f fs -> assigned f x b0 -> exists v b, make_value (fmeth f) x = Ok v /\ assigned f x b /\
    ((v = VVoid /\ fpres f = Optional /\ b = ANone) \/ (rep Own true (snd f) (ftags f) b v /\ has_dict v = false)).
  Proof.
    intros Hf A.
    assert (AC : accepted (snd f) true x b0 -> (x = ANone -> fpres f = Required) ->
       exists v b, make_value (fmeth f) x = Ok v /\ accepted (snd f) true x b /\ rep Own true (snd f) (ftags f) b v /\ has_dict v = false).
    { intros (a & G & F & _) No. destruct (make_value_ok c fs W C f x a Hf F G No) as (v & a' & Ev & S1 & R & Hd). exists v, a'. split; auto. split; auto. exists a. auto. }
    assert (Hx : x = ANone \/ (forall b, assigned f x b <-> accepted (snd f) true x b) /\ x <> ANone)
      by (destruct x; [left; reflexivity|..]; right; (split; [intros; reflexivity|discriminate])).
    destruct Hx as [-> |[Hx Nx]]; [|destruct AC as (v & b & Ev & Ac & R); [now apply Hx|contradiction|]; exists v, b; split; auto; split; auto; now apply Hx].
    unfold assigned in *. destruct (fpres f) as [| |d] eqn:X.
    - destruct AC as (v & b & Ev & Ac & R); auto. exists v, b. auto.
    - exists VVoid, ANone. split; [unfold make_value, fmeth; unfold fpres in X; now rewrite X|]. unfold cleared. rewrite X. auto.
    - destruct (make_value_default c fs W C f d Hf X) as (v & ad & a' & Ev & D & S1 & R & Hd). exists v, a'. split; auto. unfold cleared. rewrite X. split; eauto.
  Qed.

  (* the children list with one replaced, the object marked *)
  Lemma seq_mark q n t la e l m nc nc' i f n0 b w b' : rep q n (SSeq c fs) t (ADict la) (VSeq t e (Some l) m nc) ->
    nth_error fs i = Some f -> nth_error la i = Some (n0, b) -> crep q n f (n0, b') w -> is_lazy w = false ->
    (n = true -> match nc, nc' with None, None => True
       | Some d, Some d' => exists ne, d' = dict_set d (fname f) ne /\ ent_ok (showf f b') i w ne | _, _ => False end) ->
    rep q n (SSeq c fs) t (ADict (update la i (n0, b'))) (VSeq t e (Some (update l i w)) true nc').
  Proof.
    intros R Hf Hn Rw Lz Hnc. apply rep_seq_eq in R as (la' & t' & e' & ch' & m' & nc0 & [= <-] & [= <- <- <- <- <-] & _ & Em & R2 & R3 & R4 & R5).
    apply rep_seq_eq. exists (update la i (n0, b')), t, e, (Some (update l i w)), true, nc'. do 3 (split; [reflexivity|]). split; auto. split; [discriminate|].
    split. { intros _ F. unfold flagged in F. destruct (own q); discriminate F. }
    split; [|eapply all3_update; [|exact R5|exact Hf|exact Rw]; auto].
    intros N. specialize (R4 N). specialize (Hnc N). destruct nc as [d|], nc' as [d'|]; auto; try contradiction. destruct Hnc as (ne & -> & E).
    assert (A0 : all3 (fun (f : fld * spec) (na : text * aval) (v : value) => True) fs la l) by (eapply all3_impl; [|exact R5]; auto).
    assert (Nd : NoDup (map fst d)) by (rewrite (ents_names la l d A0 R4); apply W).
    destruct (all3_nth _ _ _ _ _ _ A0 Hf) as (na1 & v & Hn1 & Hv & _). destruct R4 as (Ld & H).
    destruct (H i f na1 v Hf Hn1 Hv) as (ne0 & Hd & _). rewrite (dict_set_nth d i (fname f) ne0 ne Hd Nd).
    split; [now rewrite update_length|]. intros j g nb u Hg Hnb Hu. destruct (Nat.eq_dec i j) as [<-|Nj].
    - rewrite (nth_update_same _ _ _ _ Hn) in Hnb. injection Hnb as <-. rewrite (nth_update_same _ _ _ _ Hv) in Hu. injection Hu as <-.
      rewrite (nth_update_same _ _ _ _ Hd). assert (g = f) by congruence. subst g. exists ne. auto.
    - rewrite nth_update_other in Hnb by auto. rewrite nth_update_other in Hu by auto. rewrite nth_update_other by auto. eauto.
  Qed.

  Lemma set_seq_ok q n t la e ch m nc i f n0 b x b0 : rep q n (SSeq c fs) t (ADict la) (VSeq t e ch m nc) ->
    nth_error fs i = Some f -> nth_error la i = Some (n0, b) -> assigned f x b0 ->
    exists ch' nc' b', set_seq (fields fs) false i x (VSeq t e ch m nc) = (VSeq t e ch' true nc', Ok tt) /\ assigned f x b' /\
      rep q n (SSeq c fs) t (ADict (update la i (n0, b'))) (VSeq t e ch' true nc') /\ (nc <> None -> nc' <> None).
  Proof.
    intros R Hf Hn A. pose proof (nth_error_In _ _ Hf) as Inf. destruct (wf_tags c fs f W Inf) as (Wf & T & Tk).
    destruct (ensure_ok c fs _ _ _ _ _ _ _ _ R) as (l & El & Al & _ & R'). destruct (all3_nth _ _ _ _ _ _ Al Hf) as (na & v & Hn' & Hv & K).
    assert (na = (n0, b)) by congruence. subst na. apply crep_cases in K as (En & _). cbn in En.
    destruct (assigned_made f x b0 Inf A) as (nv & b' & Em & Ab & Hb).
    assert (exists nv1 y, child_contents (methods (snd f)) nv = (nv1, Ok (Some y)) /\ crep Own true f (n0, b') nv1 /\ is_lazy nv1 = false /\
       ((nv1 = VVoid /\ fpres f = Optional /\ b' = ANone) \/ rep Own true (snd f) (ftags f) b' nv1)) as (nv1 & y & Ec & R1 & L1 & Hb1).
    { destruct Hb as [(-> & X & ->)|(Rv & Hd)].
      - exists VVoid, []. split; [reflexivity|]. split; [apply crep_cases; cbn; auto|auto].
      - destruct (K_contents _ (C f Inf) _ _ _ _ _ Tk Rv) as (v1 & y & Ec & R1 & _). exists v1, y.
        split; [destruct nv; auto; now apply rep_not_void in Rv|]. split; [apply crep_cases; cbn; auto|]. split; [eapply rep_lazy; eauto|auto]. }
    unfold set_seq. rewrite El, (meth_nth fs _ _ Hf), Em. cbn [snd fmeth]. rewrite Ec. destruct nc as [d|].
    - assert (exists nv2 x, child_native (methods (snd f)) nv1 = (nv2, Ok x) /\ crep Own true f (n0, b') nv2 /\ is_lazy nv2 = false /\
        ent_ok (showf f b') i nv2 (entry i nv2 x)) as (nv2 & x2 & E2 & R2 & L2 & Eo).
      { destruct Hb1 as [(-> & X & ->)|Rv].
        - exists VVoid, ANone. split; [reflexivity|]. split; auto. split; auto. cbn. exists ANone. split; auto. unfold showf. now rewrite X.
        - destruct (K_native _ (C f Inf) _ _ _ _ _ Tk Rv) as (v1 & a & Ea & Ra & Kn & M1 & Dd & Sh). exists v1, a.
          split; [destruct nv1; auto; now apply rep_not_void in Rv|]. split; [apply crep_cases; cbn; auto|]. split; [eapply rep_lazy; eauto|].
          unfold ent_ok, entry. rewrite Dd. destruct (has_dict v1); auto. exists a. split; auto. unfold showf. specialize (Sh eq_refl).
          destruct (fpres f); auto. destruct b'; auto. now apply rep_not_none in Ra. }
      rewrite E2. eexists _, _, b'. split; [reflexivity|]. split; auto. split; [|intros _; discriminate].
      eapply seq_mark; eauto. { eapply crep_weaken; [| |exact R2]; auto. }
      intros _. eexists. split; [reflexivity|exact Eo].
    - eexists _, _, b'. split; [reflexivity|]. split; auto. split; [|intros X; contradiction].
      eapply seq_mark; eauto; [eapply crep_weaken; [| |exact R1]; auto|intros _; exact I].
  Qed.

  Lemma del_seq_ok q n t la e ch m nc i f n0 b b0 : rep q n (SSeq c fs) t (ADict la) (VSeq t e ch m nc) ->
    nth_error fs i = Some f -> nth_error la i = Some (n0, b) -> cleared f b0 ->
    exists ch' nc' b', del_seq (fields fs) false i (VSeq t e ch m nc) = (VSeq t e ch' true nc', Ok tt) /\ cleared f b' /\
      rep q n (SSeq c fs) t (ADict (update la i (n0, b'))) (VSeq t e ch' true nc') /\ (nc <> None -> nc' <> None).
  Proof.
    intros R Hf Hn A. pose proof (nth_error_In _ _ Hf) as Inf.
    destruct (ensure_ok c fs _ _ _ _ _ _ _ _ R) as (l & El & Al & _ & R'). destruct (all3_nth _ _ _ _ _ _ Al Hf) as (na & v & Hn' & Hv & K).
    assert (na = (n0, b)) by congruence. subst na. apply crep_cases in K as (En & _). cbn in En.
    unfold del_seq. rewrite El, (meth_nth fs _ _ Hf). cbn [fst fmeth]. pose proof A as A0. unfold cleared in A. unfold fpres in A. destruct (f_pres (fst f)) as [| |d] eqn:X; [contradiction| |].
    - eexists _, _, ANone. split; [reflexivity|]. split; [unfold cleared, fpres; now rewrite X|]. split; [|destruct nc; auto; discriminate].
      eapply seq_mark; eauto; [apply crep_cases; cbn; unfold fpres; auto|]. intros _. destruct nc as [d|]; auto.
      eexists. split; [reflexivity|]. cbn. exists ANone. split; auto. unfold showf, fpres. now rewrite X.
    - destruct (set_seq_ok q n t la e (Some l) m nc i f n0 b ANone b0 R' Hf Hn) as (ch' & nc' & b' & Es & Ab & R1 & K1).
      { unfold assigned, fpres. rewrite X. exact A0. }
      exists ch', nc', b'. split; auto. split; auto. unfold assigned, fpres in Ab. now rewrite X in Ab.
  Qed.
End Seq3.

(* ---- lists ---- *)
Lemma remove_mid {A} (l r : list A) x : remove_nth (l ++ x :: r) (length l) = l ++ r.
Proof. induction l; cbn; auto. now f_equal. Qed.
Lemma nth_remove {A} (l : list A) : forall i j, nth_error (remove_nth l i) j = nth_error l (if Nat.ltb j i then j else S j).
Proof.
  assert (N : forall k, nth_error (@nil A) k = None) by (intros [|k]; auto).
  induction l as [|x l IH]; intros i j; [destruct i; cbn [remove_nth]; now rewrite !N|]. destruct i as [|i]; [reflexivity|].
  destruct j as [|j]; [reflexivity|]. cbn [remove_nth nth_error]. rewrite IH. destruct (Nat.ltb_spec j i), (Nat.ltb_spec (S j) (S i)); try lia; auto.
Qed.
Lemma all2_remove {A B} (R : A -> B -> Prop) : forall l m i, all2 R l m -> all2 R (remove_nth l i) (remove_nth m i).
Proof. induction l as [|x l IH]; intros [|y m] [|i]; cbn; try tauto. intros [H1 H2]. auto. Qed.
Lemma remove_length {A} (l : list A) : forall i, (i < length l)%nat -> S (length (remove_nth l i)) = length l.
Proof. induction l as [|x l IH]; intros [|i]; cbn; try lia. intros H. f_equal. apply IH. lia. Qed.

Section Elts3.
  Variable c : pcls.
  Variable s : spec.
  Variable sorted : bool.
  Let L := LS c s sorted.
  Hypothesis W : wf L.
  Hypothesis C : contract s.
  Let T0 := stags s no_params.

  Lemma list_put q n q' n' t la e l m nc i a w w' b' :
    rep q n L t (AList la) (VList t e (Some l) m nc) ->
    nth_error la i = Some a -> nth_error l i = Some w ->
    le_mode q q' -> le_bool n n' -> rep q' n' s T0 b' w' ->
    (n' = true -> nc <> None -> kept w w' /\ (dictlike w = false -> b' = a)) ->
    (acc q' = true -> flagged q' (VList t e (Some (update l i w')) m nc) = false ->
       b' = a /\ flagged q (VList t e (Some l) m nc) = false) ->
    rep q' n' L t (AList (update la i b')) (VList t e (Some (update l i w')) m nc).
  Proof.
    intros R Hn Hw Lq Ln Rw Hk Hq. apply rep_list_eq in R as (la' & t' & e' & ch' & m' & nc' & [= <-] & [= <- <- <- <- <-] & _ & Em & R2 & R3 & R4 & R5).
    apply rep_list_eq. exists (update la i b'), t, e, (Some (update l i w')), m, nc. do 3 (split; [reflexivity|]). split; auto. split; auto. split.
    { intros Q F. destruct (Hq Q F) as [-> F']. destruct (R3 (proj1 Lq Q) F') as (x & Hx & En). exists x. split; auto.
      rewrite update_same; auto. }
    split.
    - intros N. specialize (R4 (Ln N)). destruct nc as [d|]; auto. destruct (Hk N) as ([Kd Kh] & Kb); [discriminate|].
      destruct R4 as (Ld & H). split; [now rewrite update_length|]. intros j nb v Hnb Hv. destruct (Nat.eq_dec i j) as [<-|Nj].
      + rewrite (nth_update_same _ _ _ _ Hn) in Hnb. injection Hnb as <-. rewrite (nth_update_same _ _ _ _ Hw) in Hv. injection Hv as <-.
        destruct (H i a w Hn Hw) as (ne & Hd & _ & E). exists ne. split; auto. split; [eapply rep_lazy; eauto|]. unfold ent_ok in *. rewrite Kd.
        destruct (dictlike w); [destruct E; auto|]. now rewrite (Kb eq_refl).
      + rewrite nth_update_other in Hnb by auto. rewrite nth_update_other in Hv by auto. eauto.
    - eapply all2_update; [|exact R5|apply erep_cases; right; exact Rw]. intros nb v. now apply erep_weaken.
  Qed.

  Lemma list_get q n t la e ch m nc i a : rep q n L t (AList la) (VList t e ch m nc) -> nth_error la i = Some a ->
    exists l w, get_list (methods s) i (VList t e ch m nc) = (VList t e (Some l) m nc, Ok tt) /\ nth_error l i = Some w /\
      rep q n L t (AList la) (VList t e (Some l) m nc) /\ rep q n s T0 a w.
  Proof.
    intros R Hn. destruct (ensure_list_ok c s sorted _ _ _ _ _ _ _ _ R) as (l & El & A & _ & R').
    destruct (all2_nth _ _ _ _ _ A Hn) as (v & Hv & K).
    destruct (built_elt_ok s q n a v K) as (b & Eb & Hb & Kb & Lb).
    exists (update l i b), b. unfold get_list. rewrite El, Hv, Eb.
    split; [auto|]. split; [eapply nth_update_same; eauto|]. split; [|auto].
    replace (AList la) with (AList (update la i a)) by (f_equal; now apply update_same).
    eapply list_put; eauto.
    - intros N Nc. split; [|auto]. assert (Lz : is_lazy v = false); [|rewrite (Kb Lz); apply kept_refl].
      apply rep_list_eq in R' as (la' & t' & e' & ch' & m' & nc' & [= <-] & [= <- <- <- <- <-] & _ & _ & _ & _ & R4 & _).
      specialize (R4 N). destruct nc as [d|]; [|contradiction]. destruct R4 as (_ & R4). destruct (R4 i a v Hn Hv) as (ne & _ & Z & _). exact Z.
    - intros Q F. split; auto. unfold flagged in *. destruct (own q); auto. cbn [mutated] in *. apply orb_false_iff in F as [-> F]. cbn.
      destruct (is_lazy v) eqn:Lz.
      + eapply existsb_update_false; [exact Hv| |exact F]. now destruct v.
      + rewrite (Kb eq_refl) in F. now rewrite (update_same _ _ _ Hv) in F.
  Qed.
  Lemma list_get_none q n t la e ch m nc i : rep q n L t (AList la) (VList t e ch m nc) -> nth_error la i = None ->
    exists l, get_list (methods s) i (VList t e ch m nc) = (VList t e (Some l) m nc, Err IndexError) /\ rep q n L t (AList la) (VList t e (Some l) m nc).
  Proof.
    intros R Hf. destruct (ensure_list_ok c s sorted _ _ _ _ _ _ _ _ R) as (l & El & A & _ & R'). exists l. split; auto. unfold get_list. rewrite El.
    apply all2_length in A. apply nth_error_None in Hf. destruct (nth_error l i) eqn:X; auto. assert (Y : nth_error l i <> None) by congruence.
    apply nth_error_Some in Y. lia.
  Qed.

  Lemma accepted_made x b0 : accepted s (negb (is_choice s)) x b0 -> exists v b, make_elt (methods s) [] x = Ok v /\
    accepted s (negb (is_choice s)) x b /\ rep Own true s T0 b v /\ has_dict v = false.
  Proof.
    intros (a & G & F & _). destruct (make_elt_ok c s sorted W C x a F G) as (v & a' & Ev & S1 & R & Hd). exists v, a'. split; auto. split; auto. exists a. auto.
  Qed.
  Lemma tags_T0 : tagging_ok T0.
  Proof. exact (T0_ok c s sorted W). Qed.

  (* the children changed, the object marked *)
  Lemma list_mark q n t la la' e e0 l l' nc m : e_method e = 1 -> rep q n L t (AList la) (VList t e0 (Some l) m nc) ->
    all2 (erep q n s) la' l' -> forall nc', (n = true -> match nc' with None => True | Some d => ents_list s la' l' d end) ->
    rep q n L t (AList la') (VList t e (Some l') true nc').
  Proof.
    intros Em _ A nc' H. apply rep_list_eq. exists la', t, e, (Some l'), true, nc'. do 3 (split; [reflexivity|]). split; auto. split; [discriminate|].
    split. { intros _ F. unfold flagged in F. destruct (own q); discriminate F. }
    split; auto.
  Qed.

  Lemma native_new q n b nv : le_mode Own q -> rep Own true s T0 b nv -> forall i,
    exists nv2 x, x_native (methods s) nv = (nv2, Ok x) /\ rep q n s T0 b nv2 /\ is_lazy nv2 = false /\ ent_ok (shows s b) i nv2 (entry i nv2 x).
  Proof.
    intros Lq R i. destruct (K_native _ C _ _ _ _ _ tags_T0 R) as (v1 & a & Ea & Ra & Kn & M1 & Dd & Sh). exists v1, a. split; auto.
    split; [eapply rep_weaken; [| |exact Ra]; auto|]. split; [eapply rep_lazy; eauto|]. unfold ent_ok, entry. rewrite Dd. destruct (has_dict v1); auto. exists a. auto.
  Qed.

  Lemma ents_update la l d i b w ne : ents_list s la l d -> (i < length l)%nat -> length la = length l -> is_lazy w = false -> ent_ok (shows s b) i w ne ->
    ents_list s (update la i b) (update l i w) (update d i ne).
  Proof.
    intros (Ld & H) Hi Hl Lz E. split; [now rewrite !update_length|]. intros j a v Ha Hv. destruct (Nat.eq_dec i j) as [<-|N].
    - destruct (nth_error_ex d i) as [z Hz]; [lia|]. destruct (nth_error_ex l i) as [y Hy]; [lia|]. destruct (nth_error_ex la i) as [x Hx]; [lia|].
      rewrite (nth_update_same _ _ _ _ Hx) in Ha. injection Ha as <-. rewrite (nth_update_same _ _ _ _ Hy) in Hv. injection Hv as <-.
      rewrite (nth_update_same _ _ _ _ Hz). eauto.
    - rewrite nth_update_other in Ha by auto. rewrite nth_update_other in Hv by auto. rewrite nth_update_other by auto. eauto.
  Qed.
  Lemma ents_snoc la l d b w ne : ents_list s la l d -> length la = length l -> is_lazy w = false -> ent_ok (shows s b) (length l) w ne ->
    ents_list s (la ++ [b]) (l ++ [w]) (d ++ [ne]).
  Proof.
    intros (Ld & H) Hl Lz E. split; [rewrite !app_length; cbn; lia|]. intros j a v Ha Hv.
    assert (Hj : (j < length (l ++ [w]))%nat) by (apply nth_error_Some; congruence). rewrite app_length in Hj. cbn in Hj.
    destruct (Nat.eq_dec j (length l)) as [->|N].
    - rewrite nth_mid in Hv. injection Hv as <-. rewrite <- Hl in Ha. rewrite nth_mid in Ha. injection Ha as <-. rewrite <- Ld, nth_mid. rewrite Ld. eauto.
    - rewrite nth_error_app1 in Ha by lia. rewrite nth_error_app1 in Hv by lia. rewrite nth_error_app1 by lia. eauto.
  Qed.
  Lemma ents_remove la l d i : ents_list s la l d -> (i < length l)%nat -> length la = length l ->
    ents_list s (remove_nth la i) (remove_nth l i) (map (shift i) (remove_nth d i)).
  Proof.
    intros (Ld & H) Hi Hl. split.
    - rewrite map_length. pose proof (remove_length l i Hi). pose proof (remove_length d i ltac:(lia)). lia.
    - intros j a v Ha Hv. rewrite nth_remove in Ha. rewrite nth_remove in Hv. rewrite nth_error_map, nth_remove.
      destruct (H _ a v Ha Hv) as (ne & Hd & Lz & E). rewrite Hd. exists (shift i ne). split; auto. split; auto.
      unfold ent_ok in *. destruct (dictlike v).
      + destruct E as [E ->]. split; auto. cbn [shift]. f_equal. destruct (Nat.ltb_spec j i).
        * destruct (Nat.ltb_spec i j); lia.
        * destruct (Nat.ltb_spec i (S j)); lia.
      + destruct E as (x & -> & E). exists x. auto.
  Qed.

  Lemma set_list_ok q n t la e ch m nc i x b0 : rep q n L t (AList la) (VList t e ch m nc) -> (i <= length la)%nat ->
    accepted s (negb (is_choice s)) x b0 ->
    exists ch' nc' b', set_list (methods s) [] i x (VList t e ch m nc) = (VList t e ch' true nc', Ok tt) /\ accepted s (negb (is_choice s)) x b' /\
      rep q n L t (AList (if Nat.eqb i (length la) then la ++ [b'] else update la i b')) (VList t e ch' true nc') /\ (nc <> None -> nc' <> None).
  Proof.
    intros R Hi A. destruct (ensure_list_ok c s sorted _ _ _ _ _ _ _ _ R) as (l & El & Al & _ & R'). pose proof (all2_length _ _ _ Al) as Ll.
    destruct (accepted_made x b0 A) as (nv & b' & Em & Ab & Rv & Hd).
    apply rep_list_eq in R as (la' & t' & e' & ch' & m' & nc' & [= <-] & [= <- <- <- <- <-] & _ & Me & _).
    pose proof R' as R0. apply rep_list_eq in R0 as (la' & t' & e' & ch' & m' & nc' & [= <-] & [= <- <- <- <- <-] & _ & _ & _ & _ & R4 & _).
    unfold set_list. rewrite El, Em. assert (Hlt : Nat.ltb (length l) i = false) by (apply Nat.ltb_ge; lia). rewrite Hlt. rewrite <- Ll.
    assert (PUT : forall w, rep q n s T0 b' w -> all2 (erep q n s) (if Nat.eqb i (length la) then la ++ [b'] else update la i b')
       (if Nat.eqb i (length la) then l ++ [w] else update l i w)).
    { intros w Rw. assert (E : erep q n s b' w) by (apply erep_cases; right; exact Rw). destruct (Nat.eqb i (length la)).
      - apply all2_app; auto. cbn. auto.
      - eapply all2_update; [|exact Al|exact E]. auto. }
    destruct nc as [d|].
    - destruct (native_new q n b' nv (le_own q) Rv i) as (nv2 & x2 & E2 & R2 & L2 & Eo). rewrite E2.
      eexists _, _, b'. split; [reflexivity|]. split; auto. split; [|intros _; discriminate].
      eapply list_mark; eauto. intros N. specialize (R4 N). cbn in R4. destruct (Nat.eqb i (length la)) eqn:Ei.
      + apply Nat.eqb_eq in Ei. assert (Ed : i = length d) by (destruct R4; lia). rewrite Ed at 1. rewrite update_end.
        apply ents_snoc; auto. now rewrite <- Ll, <- Ei.
      + apply Nat.eqb_neq in Ei. apply ents_update; auto. lia.
    - eexists _, _, b'. split; [reflexivity|]. split; auto. split; [|intros X; contradiction].
      eapply list_mark; eauto. apply PUT. eapply rep_weaken; [| |exact Rv]; auto.
  Qed.

  Lemma append_list_ok q n t la e ch m nc x b0 : rep q n L t (AList la) (VList t e ch m nc) ->
    accepted s (negb (is_choice s)) x b0 ->
    exists ch' nc' b', append_list (methods s) [] x (VList t e ch m nc) = (VList t e ch' true nc', Ok tt) /\ accepted s (negb (is_choice s)) x b' /\
      rep q n L t (AList (la ++ [b'])) (VList t e ch' true nc') /\ (nc <> None -> nc' <> None).
  Proof.
    intros R A. destruct (ensure_list_ok c s sorted _ _ _ _ _ _ _ _ R) as (l & El & Al & _ & R'). pose proof (all2_length _ _ _ Al) as Ll.
    destruct (accepted_made x b0 A) as (nv & b' & Em & Ab & Rv & Hd).
    apply rep_list_eq in R as (la' & t' & e' & ch' & m' & nc' & [= <-] & [= <- <- <- <- <-] & _ & Me & _).
    pose proof R' as R0. apply rep_list_eq in R0 as (la' & t' & e' & ch' & m' & nc' & [= <-] & [= <- <- <- <- <-] & _ & _ & _ & _ & R4 & _).
    unfold append_list. rewrite El, Em.
    assert (PUT : forall w, rep q n s T0 b' w -> all2 (erep q n s) (la ++ [b']) (l ++ [w])).
    { intros w Rw. apply all2_app; auto. cbn. split; auto. apply erep_cases. now right. }
    destruct nc as [d|].
    - destruct (native_new q n b' nv (le_own q) Rv (length l)) as (nv2 & x2 & E2 & R2 & L2 & Eo). rewrite E2.
      eexists _, _, b'. split; [reflexivity|]. split; auto. split; [|intros _; discriminate].
      eapply list_mark; eauto. intros N. specialize (R4 N). cbn in R4. apply ents_snoc; auto.
    - eexists _, _, b'. split; [reflexivity|]. split; auto. split; [|intros X; contradiction].
      eapply list_mark; eauto. apply PUT. eapply rep_weaken; [| |exact Rv]; auto.
  Qed.

  Lemma del_list_ok q n t la e ch m nc i : rep q n L t (AList la) (VList t e ch m nc) -> (i < length la)%nat ->
    exists ch' nc', del_list i (VList t e ch m nc) = (VList t e ch' true nc', Ok tt) /\
      rep q n L t (AList (remove_nth la i)) (VList t e ch' true nc') /\ (nc <> None -> nc' <> None).
  Proof.
    intros R Hi. destruct (ensure_list_ok c s sorted _ _ _ _ _ _ _ _ R) as (l & El & Al & _ & R'). pose proof (all2_length _ _ _ Al) as Ll.
    apply rep_list_eq in R as (la' & t' & e' & ch' & m' & nc' & [= <-] & [= <- <- <- <- <-] & _ & Me & _).
    pose proof R' as R0. apply rep_list_eq in R0 as (la' & t' & e' & ch' & m' & nc' & [= <-] & [= <- <- <- <- <-] & _ & _ & _ & _ & R4 & _).
    unfold del_list. rewrite El. assert (Hlt : Nat.ltb i (length l) = true) by (apply Nat.ltb_lt; lia). rewrite Hlt.
    eexists _, _. split; [reflexivity|]. split; [|destruct nc; auto; discriminate].
    eapply list_mark; eauto; [now apply all2_remove|]. intros N. specialize (R4 N). destruct nc as [d|]; auto. apply ents_remove; auto. lia.
  Qed.
End Elts3.
