(* Which objects of the model stand for which structured value, and what the methods of
   a class have to do for that to be kept. *)
Require Import Verif.Base Verif.BaseFacts Verif.IntModel Verif.IntSpec Verif.IntProofs
  Verif.ParserModel Verif.ParserSpec Verif.ParserProofs Verif.ParserFacts Verif.Text Verif.CodecModel Verif.TagSpec Verif.TagProofs
  Verif.PrimModel Verif.PrimSpec Verif.PrimProofs Verif.PrimSet Verif.PrimDump Verif.PrimLoad Verif.HistSpec Verif.PrimHist
  Verif.PrimRead Verif.PrimSide Verif.ContModel Verif.ContSpec Verif.ContBase.
Require Import Sorting.Permutation Sorting.Sorted.

Definition fields (fs : list (fld * spec)) : list (fld * ops) := map (fun f => (fst f, methods (snd f))) fs.
Definition fmeth (f : fld * spec) : fld * ops := (fst f, methods (snd f)).

(* contents x stored, with no header or the right one *)
Definition has_hdr (t : tagging) (e : enc) (x : bytes) : Prop :=
  e_contents e = Some x /\ (e_header e = None \/ (e_header e = Some (full_header t 1 x) /\ e_trailer e = [])).

Definition is_lazy (v : value) : bool := match v with VLazy _ => true | _ => false end.
(* the native of the object is a dict or list that later reads return again *)
Fixpoint dictlike (v : value) : bool :=
  match v with
  | VSeq _ _ _ _ _ | VList _ _ _ _ _ => true
  | VChoice _ _ _ (Some p) => dictlike p
  | _ => false
  end.

Definition showf (f : fld * spec) (a x : aval) : Prop :=
  match fpres f, a with
  | Optional, ANone => x = ANone
  | _, a => shows (snd f) a x
  end.
(* an entry of a cached native is right for child number i *)
Definition ent_ok (S : aval -> Prop) (i : nat) (v : value) (ne : nent) : Prop :=
  if dictlike v then has_dict v = true /\ ne = Alias i else exists x, ne = Snap x /\ S x.
Definition ents_seq (fs : list (fld * spec)) (la : list (text * aval)) (l : list value) (d : list (text * nent)) : Prop :=
  length d = length fs /\
  forall i f na v, nth_error fs i = Some f -> nth_error la i = Some na -> nth_error l i = Some v ->
    exists ne, nth_error d i = Some (fname f, ne) /\ is_lazy v = false /\ ent_ok (showf f (snd na)) i v ne.
Definition ents_list (s : spec) (la : list aval) (l : list value) (d : list nent) : Prop :=
  length d = length l /\
  forall i a v, nth_error la i = Some a -> nth_error l i = Some v ->
    exists ne, nth_error d i = Some ne /\ is_lazy v = false /\ ent_ok (shows s a) i v ne.

(* an object just built from its encoding: _parse_children(recurse=True) works on it *)
Definition fresh (o : ops) (R : value -> Prop) (b : value) : Prop :=
  R b /\ has_dict b = false /\
  match b with
  | VSeq _ _ _ _ _ | VList _ _ _ _ _ =>
      exists b', x_parse o true b = (b', Ok tt) /\ R b' /\ has_dict b' = false
  | _ => True
  end.

Definition childrep (q : bool) (R R1 : tagging -> aval -> value -> Prop) (f : fld * spec) (na : text * aval) (v : value) : Prop :=
  fst na = fname f /\
  match v with
  | VVoid => fpres f = Optional /\ snd na = ANone
  | VLazy i =>
      ber_info max_budget i /\ (q = true -> encodes (snd f) (ftags f) (snd na) (encoding_of i)) /\
      exists b, x_build (methods (snd f)) (f_params (fst f)) (default_of (fst f)) i = Ok b /\ fresh (methods (snd f)) (R1 (ftags f) (snd na)) b
  | _ => R (ftags f) (snd na) v
  end.
Definition eltrep (q : bool) (s : spec) (R R1 : tagging -> aval -> value -> Prop) (a : aval) (v : value) : Prop :=
  match v with
  | VLazy i =>
      ber_info max_budget i /\ (q = true -> encodes s (stags s no_params) a (encoding_of i)) /\
      exists b, x_build (methods s) no_params None i = Ok b /\ fresh (methods s) (R1 (stags s no_params) a) b
  | _ => R (stags s no_params) a v
  end.

(* How far what an object stores as its contents and header is right.
   Own: unless the object itself was changed since.  Right: unless the object or one of
   its children (as far as _is_mutated looks) was changed since.  Stale: nothing is said. *)
Inductive mode := Stale | Right | Own.
Coercion acc (q : mode) : bool := match q with Stale => false | _ => true end.
Definition own (q : mode) : bool := match q with Own => true | _ => false end.
Definition join (q : mode) (f : bool) : mode := if f then Own else q.
(* what was not parsed yet was not changed either *)
Definition low (q : mode) : mode := match q with Stale => Stale | _ => Own end.
(* _is_mutated does not look into choices *)
Definition under (q : mode) : mode := match q with Right => Own | _ => q end.
Lemma acc_under q : acc (under q) = acc q.
Proof. now destruct q. Qed.
Lemma join_under q f : join (under q) f = under (join q f).
Proof. now destruct f. Qed.
Lemma acc_join q f : acc (join q f) = acc q || f.
Proof. now destruct q, f. Qed.
Lemma acc_low q : acc (low q) = acc q.
Proof. now destruct q. Qed.
Lemma low_low q : low (low q) = low q.
Proof. now destruct q. Qed.
Lemma low_under q : low (under q) = low q.
Proof. now destruct q. Qed.
Definition own_mut (v : value) : bool := match v with VSeq _ _ _ m _ | VList _ _ _ m _ => m | _ => false end.
Definition flagged (q : mode) (v : value) : bool := if own q then own_mut v else mutated v.
Lemma mutated_own v : mutated v = false -> own_mut v = false.
Proof. destruct v; cbn; auto; intros H; now apply orb_false_iff in H. Qed.
Lemma not_flagged q v : mutated v = false -> flagged q v = false.
Proof. unfold flagged. destruct (own q); auto. apply mutated_own. Qed.

Definition rep_seq (q : mode) (n : bool) (fs : list (fld * spec)) (R R1 : fld * spec -> text * aval -> value -> Prop)
  (t : tagging) (a : aval) (v : value) : Prop :=
  match a, v with
  | ADict la, VSeq t' e ch m nc =>
      t' = t /\ e_method e = 1 /\
      (m = false -> e_contents e <> None) /\
      (acc q = true -> flagged q v = false -> exists x, has_hdr t e x /\ enc_fields fs la x) /\
      (n = true -> match nc, ch with
                   | None, _ => True
                   | Some d, Some l => ents_seq fs la l d
                   | Some _, None => False
                   end) /\
      match ch with
      | Some l => all3 R fs la l
      | None => m = false /\ exists x l, e_contents e = Some x /\ seq_children (fields fs) x = Ok l /\ all3 R1 fs la l
      end
  | _, _ => False
  end.
Definition list_children (x : bytes) : res (list value) := list_loop (S (length x)) x 0.
Definition rep_list (q : mode) (n sorted : bool) (s : spec) (R R1 : aval -> value -> Prop)
  (t : tagging) (a : aval) (v : value) : Prop :=
  match a, v with
  | AList la, VList t' e ch m nc =>
      t' = t /\ e_method e = 1 /\
      (m = false -> e_contents e <> None) /\
      (acc q = true -> flagged q v = false -> exists x, has_hdr t e x /\ enc_elts sorted s la x) /\
      (n = true -> match nc, ch with
                   | None, _ => True
                   | Some d, Some l => ents_list s la l d
                   | Some _, None => False
                   end) /\
      match ch with
      | Some l => all2 R la l
      | None => m = false /\ exists x l, e_contents e = Some x /\ list_children x = Ok l /\ all2 R1 la l
      end
  | _, _ => False
  end.

(* a primitive object just loaded: its contents are read as v, but need not be DER *)
Definition raw (k : kind) (c : pcls) (t : tagging) (v : native) (o : obj) : Prop :=
  k <> KNull /\ o_tagging o = t /\ o_width o = None /\ meth_ok k o /\ (e_indef (o_enc o) = true -> constructable k = true) /\
  e_header (o_enc o) <> None /\
  exists x, contents o = Some x /\ exists o' v', get_native k c o = (o', Ok v') /\ same_value k v v' /\ holds k None v'.

(* v stands for the value a.  q: what is stored as contents and header is right unless
   the object counts as mutated.  n: what is stored as native is right. *)
Fixpoint rep (q : mode) (n : bool) (s : spec) (t : tagging) (a : aval) (v : value) {struct s} : Prop :=
  match s with
  | SPrim k c =>
      match a, v with
      | APrim x, VPrim o => holds k None x /\ (settled k c t None x o \/ (acc q = false /\ raw k c t x o))
      | _, _ => False
      end
  | SSeq c fs =>
      rep_seq q n fs (fun f na v => childrep q (rep q n (snd f)) (rep (low q) true (snd f)) f na v)
        (fun f na v => childrep (low q) (rep (low q) true (snd f)) (rep (low (low q)) true (snd f)) f na v) t a v
  | SSet _ _ => False
  | SSeqOf c s' =>
      rep_list q n false s' (fun a v => eltrep q s' (rep q n s') (rep (low q) true s') a v)
        (fun a v => eltrep (low q) s' (rep (low q) true s') (rep (low (low q)) true s') a v) t a v
  | SSetOf c s' =>
      rep_list q n true s' (fun a v => eltrep q s' (rep q n s') (rep (low q) true s') a v)
        (fun a v => eltrep (low q) s' (rep (low q) true s') (rep (low (low q)) true s') a v) t a v
  | SChoice ex alts =>
      match a, v with
      | AChoice nm b, VChoice t' e (Some k) (Some w) =>
          t' = t /\
          (acc q = true -> e_header e = None \/ exists y, e_header e = Some (wrap (t_explicit t) [] y) /\
             at_nth (fun f => encodes (snd f) (ftags f) b y) alts k) /\
          at_nth (fun f => fname f = nm /\ rep (under q) n (snd f) (ftags f) b w) alts k
      | _, _ => False
      end
  end.

Definition crep (q : mode) (n : bool) (f : fld * spec) := childrep q (rep q n (snd f)) (rep (low q) true (snd f)) f.
Definition erep (q : mode) (n : bool) (s : spec) := eltrep q s (rep q n s) (rep (low q) true s).

Lemma rep_not_void q n s t a : ~ rep q n s t a VVoid.
Proof. destruct s; cbn; destruct a; auto. Qed.
Lemma rep_not_lazy q n s t a i : ~ rep q n s t a (VLazy i).
Proof. destruct s; cbn; destruct a; auto. Qed.
Lemma rep_not_none q n s t v : ~ rep q n s t ANone v.
Proof. destruct s; cbn; auto. Qed.
Lemma rep_tagging q n s t a v : rep q n s t a v -> tagging_of v = t.
Proof.
  destruct s; cbn; destruct a; try contradiction; destruct v; try contradiction; cbn; try tauto.
  - intros (_ & [((E & _) & _)|(_ & (_ & E & _))]); exact E.
  - destruct idx; try contradiction. destruct parsed; try contradiction. tauto.
Qed.

Lemma crep_cases q n f na v : crep q n f na v <->
  fst na = fname f /\
  ((v = VVoid /\ fpres f = Optional /\ snd na = ANone) \/
   (exists i b, v = VLazy i /\ ber_info max_budget i /\ (acc q = true -> encodes (snd f) (ftags f) (snd na) (encoding_of i)) /\
      x_build (methods (snd f)) (f_params (fst f)) (default_of (fst f)) i = Ok b /\ fresh (methods (snd f)) (rep (low q) true (snd f) (ftags f) (snd na)) b) \/
   rep q n (snd f) (ftags f) (snd na) v).
Proof.
  unfold crep, childrep. split.
  - intros [H K]. split; auto. destruct v; auto. destruct K as (B & E & b & Hb & R). right. left. eauto 10.
  - intros [H K]. split; auto. destruct K as [(-> & K)|[(i & b & -> & B & E & Hb & R)|K]]; auto; [eauto|].
    destruct v; auto; [now apply rep_not_void in K|now apply rep_not_lazy in K].
Qed.
Lemma erep_cases q n s a v : erep q n s a v <->
  ((exists i b, v = VLazy i /\ ber_info max_budget i /\ (acc q = true -> encodes s (stags s no_params) a (encoding_of i)) /\
      x_build (methods s) no_params None i = Ok b /\ fresh (methods s) (rep (low q) true s (stags s no_params) a) b) \/
   rep q n s (stags s no_params) a v).
Proof.
  unfold erep, eltrep. split.
  - intros K. destruct v; auto. destruct K as (B & E & b & Hb & R). left. eauto 10.
  - intros [(i & b & -> & B & E & Hb & R)|K]; [eauto|].
    destruct v; auto. now apply rep_not_lazy in K.
Qed.

(* ---- weaker modes ---- *)
Definition le_mode (q q' : mode) : Prop := (acc q' = true -> acc q = true) /\ (own q' = true -> own q = true).
Definition le_bool (n n' : bool) : Prop := n' = true -> n = true.
Lemma le_under q q' : le_mode q q' -> le_mode (under q) (under q').
Proof. destruct q, q'; intros [H K]; split; auto. Qed.
Lemma flagged_weaken q q' v : le_mode q q' -> flagged q' v = false -> flagged q v = false.
Proof.
  intros [_ H]. unfold flagged. destruct (own q') eqn:E; [now rewrite (H eq_refl)|]. destruct (own q); auto. apply mutated_own.
Qed.
Lemma le_low q q' : le_mode q q' -> le_mode (low q) (low q').
Proof. destruct q, q'; intros [H K]; split; auto. Qed.
Lemma fresh_impl o (R R' : value -> Prop) b : (forall v, R v -> R' v) -> fresh o R b -> fresh o R' b.
Proof.
  intros M (H & D & K). split; auto. split; auto. destruct b; auto; destruct K as (b' & E & K & D'); exists b'; auto.
Qed.
Definition weakens (s : spec) : Prop :=
  forall q n q' n' t a v, le_mode q q' -> le_bool n n' -> rep q n s t a v -> rep q' n' s t a v.
Lemma crep_mono f : weakens (snd f) -> forall q n q' n' na v, le_mode q q' -> le_bool n n' -> crep q n f na v -> crep q' n' f na v.
Proof.
  intros H q n q' n' na v Q N K. apply crep_cases in K as (E & K). apply crep_cases. split; auto.
  destruct K as [K|[(i & b & -> & B & X & Hb & F)|K]]; auto; [|right; right; eapply H; eauto].
  right. left. exists i, b. split; auto. split; auto. split; [intros A; apply X, Q, A|]. split; auto.
  eapply fresh_impl; [|exact F]. intros w. apply H; [now apply le_low|now intros _].
Qed.
Lemma erep_mono s : weakens s -> forall q n q' n' a v, le_mode q q' -> le_bool n n' -> erep q n s a v -> erep q' n' s a v.
Proof.
  intros H q n q' n' a v Q N K. apply erep_cases in K. apply erep_cases.
  destruct K as [(i & b & -> & B & X & Hb & F)|K]; [|right; eapply H; eauto].
  left. exists i, b. split; auto. split; auto. split; [intros A; apply X, Q, A|]. split; auto.
  eapply fresh_impl; [|exact F]. intros w. apply H; [now apply le_low|now intros _].
Qed.
Lemma rep_weaken s : weakens s.
Proof.
  induction s as [k cl|cl fs IH|cl fs IH|cl s IH|cl s IH|ex alts IH] using spec_rect'; intros q n q' n' t a v Q N H; cbn [rep] in *; auto.
  - destruct a; auto. destruct v; auto. destruct H as (H & [K|(A & K)]); split; auto. right. split; auto.
    destruct (acc q') eqn:E; auto. now rewrite (proj1 Q E) in A.
  - unfold rep_seq in *. destruct a as [| |la| | |]; try contradiction. destruct v as [| | |t' e ch m nc| |]; try contradiction.
    destruct H as (H1 & H2 & H3 & H4 & H5 & H6). split; [exact H1|]. split; [exact H2|]. split; [exact H3|]. split; [intros E; intros F; exact (H4 (proj1 Q E) (flagged_weaken _ _ _ Q F))|]. split; [intros E; exact (H5 (N E))|].
    rewrite Forall_forall in IH. destruct ch as [l|].
    + eapply all3_impl; [|exact H6]. intros f na v Hf K. eapply (crep_mono f (IH f Hf) q n q' n'); eauto.
    + destruct H6 as (M & x & l & E & Cl & A). split; auto. exists x, l. split; auto. split; auto.
      eapply all3_impl; [|exact A]. intros f na v Hf K. eapply (crep_mono f (IH f Hf) (low q) true (low q') true); eauto; [now apply le_low|now intros _].
  - unfold rep_list in *. destruct a as [| | |la| |]; try contradiction. destruct v as [| | | |t' e ch m nc|]; try contradiction.
    destruct H as (H1 & H2 & H3 & H4 & H5 & H6). split; [exact H1|]. split; [exact H2|]. split; [exact H3|]. split; [intros E; intros F; exact (H4 (proj1 Q E) (flagged_weaken _ _ _ Q F))|]. split; [intros E; exact (H5 (N E))|].
    destruct ch as [l|].
    + eapply all2_impl; [|exact H6]. intros x v _ K. eapply (erep_mono s IH q n q' n'); eauto.
    + destruct H6 as (M & x & l & E & Cl & A). split; auto. exists x, l. split; auto. split; auto.
      eapply all2_impl; [|exact A]. intros y v _ K. eapply (erep_mono s IH (low q) true (low q') true); eauto; [now apply le_low|now intros _].
  - unfold rep_list in *. destruct a as [| | |la| |]; try contradiction. destruct v as [| | | |t' e ch m nc|]; try contradiction.
    destruct H as (H1 & H2 & H3 & H4 & H5 & H6). split; [exact H1|]. split; [exact H2|]. split; [exact H3|]. split; [intros E; intros F; exact (H4 (proj1 Q E) (flagged_weaken _ _ _ Q F))|]. split; [intros E; exact (H5 (N E))|].
    destruct ch as [l|].
    + eapply all2_impl; [|exact H6]. intros x v _ K. eapply (erep_mono s IH q n q' n'); eauto.
    + destruct H6 as (M & x & l & E & Cl & A). split; auto. exists x, l. split; auto. split; auto.
      eapply all2_impl; [|exact A]. intros y v _ K. eapply (erep_mono s IH (low q) true (low q') true); eauto; [now apply le_low|now intros _].
  - destruct a; try contradiction. destruct v as [| | | | |t' e [k|] [w|]]; try contradiction. destruct H as (H1 & H2 & H3). split; [exact H1|]. split; [intros E; exact (H2 (proj1 Q E))|].
    apply at_nth_iff in H3 as (f & Hf & E & H3). apply at_nth_iff. exists f. split; auto. split; auto.
    rewrite Forall_forall in IH. eapply (IH f); [now apply nth_error_In in Hf|apply le_under; exact Q|exact N|exact H3].
Qed.
Lemma crep_weaken q n q' n' f na v : le_mode q q' -> le_bool n n' -> crep q n f na v -> crep q' n' f na v.
Proof. intros Q N. apply crep_mono; auto. apply rep_weaken. Qed.
Lemma erep_weaken q n q' n' s a v : le_mode q q' -> le_bool n n' -> erep q n s a v -> erep q' n' s a v.
Proof. intros Q N. apply erep_mono; auto. apply rep_weaken. Qed.
Lemma le_low_self q : le_mode (low q) q.
Proof. destruct q; split; auto. Qed.
Lemma le_own q : le_mode Own q. Proof. split; auto. Qed.
Lemma le_stale q : le_mode q Stale. Proof. split; discriminate. Qed.
Lemma le_refl q : le_mode q q. Proof. split; auto. Qed.
Lemma le_join q f : le_mode (join q f) q. Proof. destruct f; [apply le_own|apply le_refl]. Qed.
Lemma le_true b : le_bool true b. Proof. now intros _. Qed.
Lemma le_false b : le_bool b false. Proof. intros H; discriminate H. Qed.
Lemma le_bool_refl b : le_bool b b. Proof. now intros H. Qed.
#[export] Hint Resolve le_own le_stale le_refl le_join le_true le_false le_bool_refl : core.

(* ---- an object stands for one value only ---- *)
Definition prep (q : mode) (k : kind) (c : pcls) (t : tagging) (v : native) (o : obj) : Prop :=
  settled k c t None v o \/ (acc q = false /\ raw k c t v o).
Lemma prep_reads q k c t v o : prep q k c t v o -> exists o' v', get_native k c o = (o', Ok v') /\ same_value k v v' /\ holds k None v'.
Proof.
  intros [((_ & _ & _ & x & _ & _ & _ & o1 & v1 & G & S & H & _) & _)|(_ & _ & _ & _ & _ & _ & _ & x & _ & o1 & v1 & G & S & H)]; eauto 8.
Qed.
Lemma settled_same q q' k c t t' v v' o : prep q k c t v o -> prep q' k c t' v' o -> same_value k v v'.
Proof.
  intros H H'. destruct (prep_reads _ _ _ _ _ _ H) as (o1 & v1 & G & S & _), (prep_reads _ _ _ _ _ _ H') as (o2 & v2 & G' & S' & _).
  rewrite G in G'. injection G' as <- <-. eapply same_value_trans; [exact S|]. now apply same_value_sym.
Qed.

Lemma rep_fun s : forall q n q' n' t t' a a' v, rep q n s t a v -> rep q' n' s t' a' v -> sim s a a'.
Proof.
  induction s as [k cl|cl fs IH|cl fs IH|cl s IH|cl s IH|ex alts IH] using spec_rect'; intros q n q' n' t t' a a' v H K; cbn [rep] in *; auto.
  - destruct a; try contradiction. destruct v; try contradiction. destruct a'; try contradiction. cbn.
    destruct H as [H S], K as [K S']. split; auto. split; auto. eapply (settled_same q q'); [exact S|exact S'].
  - unfold rep_seq in *. destruct a as [| |la| | |]; try contradiction. destruct v as [| | |tv e ch m nc| |]; try contradiction.
    destruct a' as [| |lb| | |]; try contradiction. destruct H as (_ & _ & _ & _ & _ & H), K as (_ & _ & _ & _ & _ & K). rewrite sim_seq.
    assert (G : forall q n q' n' fs la lb l, (forall x, In x fs -> forall q n q' n' t t' a a' v, rep q n (snd x) t a v -> rep q' n' (snd x) t' a' v -> sim (snd x) a a') ->
       all3 (crep q n) fs la l -> all3 (crep q' n') fs lb l -> all3 simf fs la lb).
    { clear. induction fs as [|f fs IHl]; intros [|na la] [|nb lb] [|v l] IH; cbn; try tauto. intros [H1 H2] [K1 K2].
      split; [|eapply IHl; eauto; intros; eapply IH; cbn; eauto].
      specialize (IH f (or_introl eq_refl)). apply crep_cases in H1 as (E & H1), K1 as (E' & K1). apply simf_cases. split; auto. split; auto.
      destruct H1 as [(-> & X & Y)|[(i & b & -> & _ & _ & B & R)|R]], K1 as [(Z & X' & Y')|[(i' & b' & Z & _ & _ & B' & R')|R']]; try congruence.
      - left. auto.
      - now apply rep_not_void in R'.
      - injection Z as <-. rewrite B in B'. injection B' as <-. right. eapply IH; [apply R|apply R'].
      - now apply rep_not_lazy in R'.
      - subst v. now apply rep_not_void in R.
      - subst v. now apply rep_not_lazy in R.
      - right. eapply IH; eauto. }
    rewrite Forall_forall in IH. destruct ch as [l|].
    + eapply (G q n q' n'); eauto.
    + destruct H as (_ & x & l & Ex & C & H), K as (_ & x' & l' & Ex' & C' & K).
      rewrite Ex in Ex'. injection Ex' as <-. rewrite C in C'. injection C' as <-. eapply (G (low q) true (low q') true); eauto.
  - unfold rep_list in *. destruct a as [| | |la| |]; try contradiction. destruct v as [| | | |tv e ch m nc|]; try contradiction.
    destruct a' as [| | |lb| |]; try contradiction. destruct H as (_ & _ & _ & _ & _ & H), K as (_ & _ & _ & _ & _ & K).
    assert (G : forall q n q' n' la lb l, all2 (erep q n s) la l -> all2 (erep q' n' s) lb l -> all2 (sim s) la lb).
    { clear - IH. induction la as [|a la IHl]; intros [|b lb] [|v l]; cbn; try tauto. intros [H1 H2] [K1 K2].
      split; [|eapply IHl; eauto]. apply erep_cases in H1, K1.
      destruct H1 as [(i & b0 & -> & _ & _ & B & R)|R], K1 as [(i' & b' & Z & _ & _ & B' & R')|R'].
      - injection Z as <-. rewrite B in B'. injection B' as <-. eapply IH; [apply R|apply R'].
      - now apply rep_not_lazy in R'.
      - subst v. now apply rep_not_lazy in R.
      - eapply IH; eauto. }
    destruct ch as [l|]; cbn [sim].
    + eapply (G q n q' n'); eauto.
    + destruct H as (_ & x & l & Ex & C & H), K as (_ & x' & l' & Ex' & C' & K).
      rewrite Ex in Ex'. injection Ex' as <-. rewrite C in C'. injection C' as <-. eapply (G (low q) true (low q') true); eauto.
  - unfold rep_list in *. destruct a as [| | |la| |]; try contradiction. destruct v as [| | | |tv e ch m nc|]; try contradiction.
    destruct a' as [| | |lb| |]; try contradiction. destruct H as (_ & _ & _ & _ & _ & H), K as (_ & _ & _ & _ & _ & K).
    assert (G : forall q n q' n' la lb l, all2 (erep q n s) la l -> all2 (erep q' n' s) lb l -> all2 (sim s) la lb).
    { clear - IH. induction la as [|a la IHl]; intros [|b lb] [|v l]; cbn; try tauto. intros [H1 H2] [K1 K2].
      split; [|eapply IHl; eauto]. apply erep_cases in H1, K1.
      destruct H1 as [(i & b0 & -> & _ & _ & B & R)|R], K1 as [(i' & b' & Z & _ & _ & B' & R')|R'].
      - injection Z as <-. rewrite B in B'. injection B' as <-. eapply IH; [apply R|apply R'].
      - now apply rep_not_lazy in R'.
      - subst v. now apply rep_not_lazy in R.
      - eapply IH; eauto. }
    destruct ch as [l|]; cbn [sim].
    + exists la. split; auto. eapply (G q n q' n'); eauto.
    + destruct H as (_ & x & l & Ex & C & H), K as (_ & x' & l' & Ex' & C' & K).
      rewrite Ex in Ex'. injection Ex' as <-. rewrite C in C'. injection C' as <-. exists la. split; auto. eapply (G (low q) true (low q') true); eauto.
  - destruct a; try contradiction. destruct v as [| | | | |tv e [k|] [w|]]; try contradiction. destruct a'; try contradiction.
    destruct H as (_ & _ & H), K as (_ & _ & K). cbn. apply at_nth_iff in H as (f & Hf & <- & H), K as (g & Hg & <- & K).
    rewrite Hf in Hg. injection Hg as <-. split; auto. apply some_ex. exists f. apply nth_error_In in Hf. split; auto. split; auto.
    rewrite Forall_forall in IH. eapply (IH f); eauto.
Qed.

(* ---- cached natives ---- *)
Lemma nth_map_error {A B} (g : A -> B) l i d : nth i (map g l) d = match nth_error l i with Some x => g x | None => d end.
Proof. revert i. induction l as [|x l IH]; intros [|i]; cbn; auto. Qed.

Lemma dictlike_has v : has_dict v = true -> dictlike v = true.
Proof.
  revert v. fix IH 1. intros v. destruct v as [| | |t e ch m nc|t e ch m nc|t e idx [p|]]; cbn; auto. 
Qed.

Lemma all3_of_nth {A B C} (R : A -> B -> C -> Prop) : forall l m n, length l = length m -> length l = length n ->
  (forall i x y z, nth_error l i = Some x -> nth_error m i = Some y -> nth_error n i = Some z -> R x y z) -> all3 R l m n.
Proof.
  induction l as [|x l IH]; intros [|y m] [|z n]; cbn; try discriminate; auto. intros E1 E2 H. split.
  - apply (H 0%nat); reflexivity.
  - apply IH; auto. intros i. apply (H (Datatypes.S i)).
Qed.
Lemma all2_of_nth {A B} (R : A -> B -> Prop) : forall l m, length l = length m ->
  (forall i x y, nth_error l i = Some x -> nth_error m i = Some y -> R x y) -> all2 R l m.
Proof.
  induction l as [|x l IH]; intros [|y m]; cbn; try discriminate; auto. intros E1 H. split.
  - apply (H 0%nat); reflexivity.
  - apply IH; auto. intros i. apply (H (Datatypes.S i)).
Qed.
Lemma nth_error_ex {A} (l : list A) i : (i < length l)%nat -> exists x, nth_error l i = Some x.
Proof. intros H. destruct (nth_error l i) eqn:E; eauto. apply nth_error_None in E. lia. Qed.

Lemma cached_shows s : forall q t a v, rep q true s t a v -> has_dict v = true -> shows s a (cached_native v).
Proof.
  induction s as [k cl|cl fs IH|cl fs IH|cl s IH|cl s IH|ex alts IH] using spec_rect'; intros q t a v H D; cbn [rep] in *; auto.
  - destruct a; try contradiction. destruct v; try contradiction. discriminate.
  - unfold rep_seq in *. destruct a as [| |la| | |]; try contradiction. destruct v as [| | |tv e ch m nc| |]; try contradiction.
    destruct H as (_ & _ & _ & _ & N & H). specialize (N eq_refl). destruct nc as [d|]; [|discriminate]. destruct ch as [l|]; [|contradiction].
    cbn [shows cached_native]. eexists. split; [reflexivity|]. destruct N as [Ld N]. pose proof (all3_length _ _ _ _ H) as [L1 L2].
    apply all3_of_nth; [auto|now rewrite map_length|]. intros i f na nx Hf Ha Hx.
    destruct (all3_nth _ _ _ _ _ _ H Hf) as (na' & v & Ha' & Hv & C). rewrite Ha in Ha'. injection Ha' as <-.
    destruct (N i f na v Hf Ha Hv) as (ne & Hd & Lz & Eo). rewrite nth_error_map, Hd in Hx. injection Hx as <-. cbn [fst snd].
    change (crep q true f na v) in C. apply crep_cases in C as (E & C). split; auto. split; auto.
    enough (X : showf f (snd na) (resolve (map cached_native l) ne)) by (unfold showf in X; destruct (fpres f), (snd na); exact X).
    unfold ent_ok in Eo. destruct (dictlike v) eqn:Dv.
    + destruct Eo as [Hd' ->]. cbn [resolve]. rewrite nth_map_error, Hv.
      destruct C as [(-> & _)|[(j & b & -> & _)|C]]; try discriminate.
      rewrite Forall_forall in IH. pose proof (IH f (nth_error_In _ _ Hf) _ _ _ _ C Hd') as S. unfold showf.
      destruct (fpres f); auto. destruct (snd na); auto. now apply rep_not_none in C.
    + destruct Eo as (x & -> & S). exact S.
  - unfold rep_list in *. destruct a as [| | |la| |]; try contradiction. destruct v as [| | | |tv e ch m nc|]; try contradiction.
    destruct H as (_ & _ & _ & _ & N & H). specialize (N eq_refl). destruct nc as [d|]; [|discriminate]. destruct ch as [l|]; [|contradiction].
    cbn [shows cached_native]. eexists. split; [reflexivity|]. destruct N as [Ld N]. pose proof (all2_length _ _ _ H) as L1.
    apply all2_of_nth; [rewrite map_length; congruence|]. intros i a nx Ha Hx.
    destruct (all2_nth _ _ _ _ _ H Ha) as (v & Hv & C).
    destruct (N i a v Ha Hv) as (ne & Hd & Lz & Eo). rewrite nth_error_map, Hd in Hx. injection Hx as <-.
    change (erep q true s a v) in C. apply erep_cases in C. unfold ent_ok in Eo. destruct (dictlike v) eqn:Dv.
    + destruct Eo as [Hd' ->]. cbn [resolve]. rewrite nth_map_error, Hv. destruct C as [(j & b & -> & _)|C]; try discriminate. eapply IH; eauto.
    + destruct Eo as (x & -> & S). exact S.
  - unfold rep_list in *. destruct a as [| | |la| |]; try contradiction. destruct v as [| | | |tv e ch m nc|]; try contradiction.
    destruct H as (_ & _ & _ & _ & N & H). specialize (N eq_refl). destruct nc as [d|]; [|discriminate]. destruct ch as [l|]; [|contradiction].
    cbn [shows cached_native]. eexists. split; [reflexivity|]. destruct N as [Ld N]. pose proof (all2_length _ _ _ H) as L1.
    apply all2_of_nth; [rewrite map_length; congruence|]. intros i a nx Ha Hx.
    destruct (all2_nth _ _ _ _ _ H Ha) as (v & Hv & C).
    destruct (N i a v Ha Hv) as (ne & Hd & Lz & Eo). rewrite nth_error_map, Hd in Hx. injection Hx as <-.
    change (erep q true s a v) in C. apply erep_cases in C. unfold ent_ok in Eo. destruct (dictlike v) eqn:Dv.
    + destruct Eo as [Hd' ->]. cbn [resolve]. rewrite nth_map_error, Hv. destruct C as [(j & b & -> & _)|C]; try discriminate. eapply IH; eauto.
    + destruct Eo as (x & -> & S). exact S.
  - destruct a; try contradiction. destruct v as [| | | | |tv e [k|] [w|]]; try contradiction. destruct H as (_ & _ & H).
    apply at_nth_iff in H as (f & Hf & E & H). cbn in D |- *. apply some_ex. exists f. apply nth_error_In in Hf. split; auto. split; auto.
    rewrite Forall_forall in IH. eapply (IH f); eauto.
Qed.

(* ---- what a class has to provide ---- *)
(* the object was only read: nothing about it changed but what it stores *)
Definition kept (v v' : value) : Prop := dictlike v' = dictlike v /\ (has_dict v = true -> has_dict v' = true).

(* a default the class is built with *)
Definition default_fine (s : spec) (p : params) (dflt : option aval) : Prop :=
  match dflt with
  | None => True
  | Some d => is_choice s = false /\ class_explicit s = [] /\ default_ok (Fld [] p Required) s d /\ exists ad, denotes s d ad /\ fits s ad
  end.

Record contract (s : spec) : Prop := {
  K_make : forall p i a, taggable s p -> denotes s i a -> fits s a ->
    exists v a', x_make (methods s) p None i = Ok v /\ sim s a a' /\ rep Own true s (stags s p) a' v /\ has_dict v = false;
  K_build : forall p dflt i a, taggable s p -> default_fine s p dflt -> ber_info max_budget i -> der s (stags s p) a (encoding_of i) ->
    exists v a', x_build (methods s) p dflt i = Ok v /\ sim s a a' /\ fresh (methods s) (rep Own true s (stags s p) a') v;
  K_contents : forall q n t a v, tagging_ok t -> rep q n s t a v ->
    exists v' x, x_contents (methods s) v = (v', Ok (Some x)) /\ rep q n s t a v' /\ kept v v' /\
      (has_dict v = false -> has_dict v' = false);
  K_dump : forall q n t a v f, tagging_ok t -> rep q n s t a v ->
    exists v' d, x_dump (methods s) f v = (v', Ok d) /\ kept v v' /\ mutated v' = false /\
      rep (join q f) n s t a v' /\ (acc q = true \/ f = true -> encodes s t a d);
  K_native : forall q n t a v, tagging_ok t -> rep q n s t a v ->
    exists v' x, x_native (methods s) v = (v', Ok x) /\ rep q n s t a v' /\ kept v v' /\ mutated v' = false /\
      dictlike v' = has_dict v' /\ (n = true -> shows s a x);
  K_retag : forall p q n t a v, acc q = true -> taggable s p -> tagging_ok t -> fits s a -> rep q n s t a v ->
    exists v' a', x_retag (methods s) p v = Ok v' /\ sim s a a' /\ rep Own (negb (has_dict v)) s (stags s p) a' v' /\ has_dict v' = has_dict v;
  K_copy : forall q n t a v, acc q = true -> tagging_ok t -> fits s a -> rep q n s t a v ->
    exists v' a', x_copy (methods s) v = Ok v' /\ sim s a a' /\ rep Own (negb (has_dict v)) s t a' v' /\ has_dict v' = has_dict v }.
