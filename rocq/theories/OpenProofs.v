(* A sequence with a field of open type behaves as the sequence with the class its object
   identifier selects. *)
Require Import Verif.Base Verif.BaseFacts Verif.IntModel Verif.IntSpec Verif.IntProofs
  Verif.ParserModel Verif.ParserSpec Verif.ParserProofs Verif.ParserFacts Verif.Text Verif.CodecModel Verif.TagSpec Verif.TagProofs
  Verif.PrimModel Verif.PrimSpec Verif.PrimProofs Verif.PrimSet Verif.PrimDump Verif.PrimLoad Verif.HistSpec Verif.PrimHist
  Verif.PrimRead Verif.PrimSide Verif.ContModel Verif.ContSpec Verif.ContBase Verif.ContRep Verif.ContPrim Verif.ContReq Verif.ContList Verif.ContSeq Verif.ContSeq2
  Verif.ContPath Verif.ContHistSpec Verif.ContHist Verif.ContHist2 Verif.ContChoice Verif.ContFinal Verif.BerSpec Verif.BerProofs Verif.BerFinal Verif.CopySpec Verif.CopyProofs Verif.OpenModel Verif.OpenSpec.

(* ---- field lists that differ where no object is ---- *)
Definition alike1 (a b : fld * ops) (v : value) : Prop :=
  a = b \/ (fst a = fst b /\ v = VVoid /\ forall d, f_pres (fst a) <> Default d).
Definition alike : list (fld * ops) -> list (fld * ops) -> list value -> Prop := all3 alike1.

Lemma alike_same F : forall l, length F = length l -> alike F F l.
Proof. induction F as [|f F IH]; intros [|v l]; cbn; try discriminate; auto. intros [= H]. split; [now left|]. now apply IH. Qed.
Lemma alike_update : forall F G l n w, alike F G l -> nth_error F n = nth_error G n -> alike F G (update l n w).
Proof.
  induction F as [|f F IH]; intros [|g G] [|v l] n w; cbn; try tauto. intros [H1 H2] N. destruct n as [|n]; cbn in *.
  - injection N as ->. split; [now left|auto].
  - split; [exact H1|]. now apply IH.
Qed.
Lemma alike_nth : forall F G l n v, alike F G l -> nth_error l n = Some v ->
  exists f g, nth_error F n = Some f /\ nth_error G n = Some g /\ alike1 f g v.
Proof.
  induction F as [|f F IH]; intros [|g G] [|v l] [|n] w; cbn [alike all3 nth_error]; try tauto; try discriminate.
  - intros [H _] [= <-]. eauto.
  - intros [_ H] E. eapply IH; eauto.
Qed.
Lemma alike_nil F G l : alike F G l -> (F = [] <-> G = []).
Proof. destruct F, G, l; cbn; try tauto; intros; split; discriminate. Qed.
Lemma alike_isnil {A} F G l (x y : A) : alike F G l -> match F with [] => x | _ => y end = match G with [] => x | _ => y end.
Proof. destruct F, G, l; cbn; try tauto. Qed.

Lemma is_default_void f o o' b : (forall d, f_pres f <> Default d) -> is_default (f, o) b = is_default (f, o') b.
Proof. intros H. unfold is_default, default_dump. destruct (f_pres f); auto. now elim (H d). Qed.

Lemma dump_alike force : forall F G l, alike F G l -> dump_fields force F l = dump_fields force G l /\ alike F G (fst (dump_fields force G l)).
Proof.
  induction F as [|f F IH]; intros [|g G] [|v l]; cbn [alike all3]; try contradiction; [cbn; auto|].
  intros [H1 H2]. destruct (IH G l H2) as [E A]. cbn [dump_fields].
  destruct H1 as [<- |(Ef & -> & Nd)].
  - set (X := match v with VLazy i => _ | _ => _ end). destruct X as [v1 [b|e]]; [|split; auto; cbn; split; [now left|exact H2]].
    destruct (is_default f b) as [dflt|e]; [|split; auto; cbn; split; [now left|exact H2]].
    rewrite E. destruct (dump_fields force G l) as [vr y]. split; auto. cbn. split; [now left|exact A].
  - destruct f as [f o], g as [g o']. cbn [fst snd] in *. subst g. cbn [child_dump].
    rewrite (is_default_void f o o' _ Nd). destruct (is_default (f, o') []) as [dflt|e]; [|split; auto; cbn; split; [right; auto|exact H2]].
    rewrite E. destruct (dump_fields force G l) as [vr y]. split; auto. cbn. split; [right; auto|exact A].
Qed.
Lemma natives_alike : forall F G l n, alike F G l -> natives n F l = natives n G l /\ alike F G (fst (fst (natives n G l))).
Proof.
  induction F as [|f F IH]; intros [|g G] [|v l] n; cbn [alike all3]; try contradiction; [cbn; auto|].
  intros [H1 H2]. destruct (IH G l (S n) H2) as [E A]. cbn [natives]. destruct H1 as [<- |(Ef & -> & Nd)].
  - destruct (built f v) as [b|e]; [|split; auto; cbn; split; [now left|exact H2]].
    destruct (child_native (snd f) b) as [v1 [a|e]]; [|split; auto; cbn; split; [now left|exact H2]].
    rewrite E. destruct (natives (S n) G l) as [[vr ns] y]. split; auto. cbn. split; [now left|exact A].
  - destruct f as [f o], g as [g o']. cbn [fst snd] in *. subst g. cbn [built child_native fst snd].
    rewrite E. destruct (natives (S n) G l) as [[vr ns] y]. split; auto. cbn. split; [right; auto|exact A].
Qed.
Lemma missing_alike : forall F G l, alike F G l -> missing F l = missing G l.
Proof.
  induction F as [|f F IH]; intros [|g G] [|v l]; cbn [alike all3]; try tauto.
  intros [H1 H2]. cbn [missing]. destruct f as [f o], g as [g o'].
  assert (f = g) by (destruct H1 as [[= -> _]|(E & _)]; auto). subst g. now rewrite (IH G l H2).
Qed.
Lemma build_alike : forall F G l, alike F G l -> build_all F l = build_all G l /\ forall l', build_all G l = Ok l' -> alike F G l'.
Proof.
  induction F as [|f F IH]; intros [|g G] [|v l]; cbn [alike all3]; try contradiction; [cbn; split; auto; now intros l' [= <-]|].
  intros [H1 H2]. destruct (IH G l H2) as [E A]. cbn [build_all]. destruct H1 as [<- |(Ef & -> & Nd)].
  - rewrite E. split; auto. intros l'. set (X := match v with VLazy i => _ | _ => _ end). destruct X as [v1|e]; [|discriminate]. cbn [bind].
    destruct (build_all G l) as [r|e]; [|discriminate]. cbn [bind]. intros [= <-]. cbn. split; [now left|]. now apply A.
  - cbn [bind]. rewrite E. split; auto. intros l'. destruct (build_all G l) as [r|e]; [|discriminate]. cbn [bind]. intros [= <-]. cbn. split; [right; auto|]. now apply A.
Qed.

(* the children agree on an object, if it has any *)
Definition good (F G : list (fld * ops)) (v : value) : Prop :=
  match v with VSeq _ _ (Some l) _ _ => alike F G l | VSeq _ _ None _ _ => True | _ => False end.
Definition parsed (v : value) : Prop := match v with VSeq _ _ (Some _) _ _ => True | _ => False end.

Lemma contents_alike F G v : good F G v -> contents_seq F false v = contents_seq G false v /\ good F G (fst (contents_seq G false v)) /\
  (parsed v -> parsed (fst (contents_seq G false v))).
Proof.
  destruct v as [| | |t e [l|] m nc| |]; cbn [good]; try contradiction; [|cbn; auto]. intros A. unfold contents_seq.
  destruct (mutated (VSeq t e (Some l) m nc)); [|cbn; auto]. unfold set_contents_seq. cbn [ensure].
  destruct (dump_alike false F G l A) as [E A']. rewrite E. destruct (dump_fields false G l) as [l' [b|x]]; cbn; auto.
Qed.
Lemma dump_seq_alike F G f v : good F G v -> parsed v -> dump_seq F false f v = dump_seq G false f v /\ good F G (fst (dump_seq G false f v)).
Proof.
  destruct v as [| | |t e [l|] m nc| |]; cbn [good parsed]; try contradiction. intros A _. unfold dump_seq.
  rewrite (alike_isnil F G l false true A). set (fc := (f || ends_80 (e_header e)) && _).
  assert (Q : forall v1, good F G v1 -> parsed v1 -> 
     match v1 with VSeq _ _ (Some l) _ _ => if missing F l then (v1, Err ValueError) else
                match contents_seq F false v1 with
                | (VSeq t e ch m nc, Ok c) => let '(e', r) := finish_dump t e c in (VSeq t e' ch m nc, r)
                | (v2, Ok _) => (v2, Err TypeError)
                | (v2, Err y) => (v2, Err y)
                end
            | VSeq t e None m nc => let '(e', r) := finish_dump t e (e_contents e) in (VSeq t e' None m nc, r)
            | _ => (v1, Err TypeError) end =
     match v1 with VSeq _ _ (Some l) _ _ => if missing G l then (v1, Err ValueError) else
                match contents_seq G false v1 with
                | (VSeq t e ch m nc, Ok c) => let '(e', r) := finish_dump t e c in (VSeq t e' ch m nc, r)
                | (v2, Ok _) => (v2, Err TypeError)
                | (v2, Err y) => (v2, Err y)
                end
            | VSeq t e None m nc => let '(e', r) := finish_dump t e (e_contents e) in (VSeq t e' None m nc, r)
            | _ => (v1, Err TypeError) end /\ good F G (fst (
     match v1 with VSeq _ _ (Some l) _ _ => if missing G l then (v1, Err ValueError) else
                match contents_seq G false v1 with
                | (VSeq t e ch m nc, Ok c) => let '(e', r) := finish_dump t e c in (VSeq t e' ch m nc, r)
                | (v2, Ok _) => (v2, Err TypeError)
                | (v2, Err y) => (v2, Err y)
                end
            | VSeq t e None m nc => let '(e', r) := finish_dump t e (e_contents e) in (VSeq t e' None m nc, r)
            | _ => (v1, Err TypeError) end))).
  { intros v1 G1 P1. destruct v1 as [| | |t1 e1 [l1|] m1 nc1| |]; try contradiction. rewrite (missing_alike F G l1 G1).
    destruct (missing G l1); [cbn; auto|]. destruct (contents_alike F G _ G1) as (E & Gc & Pc). rewrite E. split; auto.
    destruct (contents_seq G false (VSeq t1 e1 (Some l1) m1 nc1)) as [v2 [c|y]]; [|destruct v2; exact Gc]. cbn [fst] in Gc, Pc.
    destruct v2 as [| | |t2 e2 [l2|] m2 nc2| |]; try contradiction; [|now elim (Pc Logic.I)]. destruct (finish_dump t2 e2 c). exact Gc. }
  destruct fc; [|exact (Q (VSeq t e (Some l) m nc) A Logic.I)]. unfold set_contents_seq. cbn [ensure].
  destruct (dump_alike true F G l A) as [E A']. rewrite E. destruct (dump_fields true G l) as [l' [b|x]]; [|cbn; auto]. exact (Q (VSeq t (Enc (e_method e) None (Some b) [] (e_indef e)) (Some l') false nc) A' Logic.I).
Qed.
Lemma native_seq_alike F G v : good F G v -> (match v with VSeq _ e None _ nc => e_contents e = None \/ nc <> None | _ => True end) ->
  native_seq F false v = native_seq G false v /\ good F G (fst (native_seq G false v)).
Proof.
  intros Gv Hp. unfold native_seq. destruct (contents_alike F G v Gv) as (E & Gc & Pc). rewrite E.
  assert (X : match v with VSeq t e None m nc => contents_seq G false v = (v, Ok (e_contents e)) | _ => True end) by (destruct v as [| | |? ? [?|] ? ?| |]; auto).
  destruct (contents_seq G false v) as [v1 [[b|]|x]]; [|cbn; auto..]. cbn [fst] in Gc, Pc.
  destruct v1 as [| | |t1 e1 ch1 m1 [nc1|]| |]; try contradiction; [cbn; auto|].
  destruct ch1 as [l1|].
  - cbn [good] in Gc. destruct (natives_alike F G l1 0 Gc) as [En A]. rewrite En. destruct (natives 0 G l1) as [[l' ns] y]. cbn [fst] in A.
    split; auto. now destruct y.
  - exfalso. destruct v as [| | |t e [l|] m nc| |]; try contradiction; [now apply Pc|].
    destruct Hp as [Hp|Hp]; injection X; intros; subst; [congruence|contradiction].
Qed.
Lemma get_alike F G n v : good F G v -> parsed v -> get_seq F false n v = get_seq G false n v /\ good F G (fst (get_seq G false n v)).
Proof.
  destruct v as [| | |t e [l|] m nc| |]; cbn [good parsed]; try contradiction. intros A _. unfold get_seq. cbn [ensure].
  destruct (nth_error l n) as [v|] eqn:Ev; [|cbn; auto]. destruct (alike_nth _ _ _ _ _ A Ev) as (f & g & Hf & Hg & H). rewrite Hf, Hg.
  assert (B : built f v = built g v) by (destruct H as [->|(_ & -> & _)]; auto; destruct f, g; reflexivity).
  rewrite B. destruct (built g v) as [b|y] eqn:Eb; [|destruct v; cbn; auto].
  assert (alike F G (update l n b)).
  { destruct H as [->|(_ & -> & _)]; [apply alike_update; congruence|]. assert (b = VVoid) as -> by (destruct g; cbn in Eb; congruence).
    now rewrite update_same. }
  destruct v; cbn; auto.
Qed.
Lemma set_alike F G n a v : good F G v -> parsed v -> nth_error F n = nth_error G n ->
  set_seq F false n a v = set_seq G false n a v /\ good F G (fst (set_seq G false n a v)).
Proof.
  destruct v as [| | |t e [l|] m nc| |]; cbn [good parsed]; try contradiction. intros A _ N. unfold set_seq. cbn [ensure]. rewrite N.
  split; auto. destruct (nth_error G n) as [fo|] eqn:Hn; [|exact A]. destruct (make_value fo a) as [nv|x]; [|exact A].
  destruct (child_contents (snd fo) nv) as [nv1 [[b|]|x]]; [|exact A..].
  assert (U : forall w, alike F G (update l n w)) by (intros w; apply alike_update; congruence).
  destruct nc as [d|]; [|apply U]. destruct (child_native (snd fo) nv1) as [nv2 [x|x]]; apply U.
Qed.
Lemma alike_length F : forall G l, alike F G l -> length F = length l /\ length G = length l.
Proof. induction F as [|f F IH]; intros [|g G] [|v l]; cbn [alike all3]; try tauto. intros [_ H]. destruct (IH G l H). cbn. auto. Qed.
Lemma del_alike F G n v : good F G v -> parsed v -> del_seq F false n v = del_seq G false n v /\ good F G (fst (del_seq G false n v)).
Proof.
  intros Gv Pv. pose proof (set_alike F G n ANone v Gv Pv) as Hs.
  destruct v as [| | |t e [l|] m nc| |]; cbn [good parsed] in *; try contradiction. unfold del_seq. cbn [ensure].
  destruct (nth_error l n) as [v|] eqn:Ev.
  - destruct (alike_nth _ _ _ _ _ Gv Ev) as (f & g & Hf & Hg & H). rewrite Hf, Hg in *. destruct H as [->|(Ef & -> & Nd)].
    + destruct (Hs eq_refl) as [Es Gs]. rewrite Es. split; auto. destruct (f_pres (fst g)); [exact Gv| |exact Gs]. cbn [fst good]. apply alike_update; [exact Gv|congruence].
    + rewrite <- Ef. destruct (f_pres (fst f)); [split; [reflexivity|exact Gv]| |now elim (Nd d)]. rewrite (update_same _ _ _ Ev). split; [reflexivity|exact Gv].
  - destruct (alike_length _ _ _ Gv) as [L1 L2]. apply nth_error_None in Ev.
    replace (nth_error F n) with (@None (fld * ops)) by (symmetry; apply nth_error_None; lia).
    replace (nth_error G n) with (@None (fld * ops)) by (symmetry; apply nth_error_None; lia). split; [reflexivity|exact Gv].
Qed.

(* one operation that finds the children it needs *)
Definition ready (x : act) (v : value) : Prop :=
  match v with
  | VSeq _ _ (Some _) _ _ => True
  | VSeq _ e None _ nc =>
      match x with
      | ARead => e_contents e = None \/ nc <> None
      | ADump f => f || ends_80 (e_header e) = false
      | AContents | AAppend _ | AStore _ => True
      | _ => False
      end
  | _ => False
  end.
Lemma act_alike F G x v : good F G v -> ready x v -> (forall n a, x = ASet n a -> nth_error F n = nth_error G n) ->
  seq_act F x v = seq_act G x v /\ good F G (fst (seq_act G x v)).
Proof.
  intros Gv Rv Hs.
  destruct x; cbn [seq_act]; unfold reply; cbn [fst].
  - destruct (native_seq_alike F G v Gv) as [E Gn]; [|now rewrite E]. destruct v as [| | |t e [l|] m nc| |]; auto.
  - destruct v as [| | |t e [l|] m nc| |]; try contradiction.
    + destruct (dump_seq_alike F G force _ Gv Logic.I) as [E Gn]. now rewrite E.
    + cbn in Rv. unfold dump_seq. rewrite Rv. cbn [andb]. destruct (finish_dump t e (e_contents e)). cbn. auto.
  - destruct (contents_alike F G v Gv) as (E & Gn & _). now rewrite E.
  - destruct v as [| | |t e [l|] m nc| |]; try contradiction. cbn. auto.
  - destruct v as [| | |t e [l|] m nc| |]; try contradiction. destruct (get_alike F G i _ Gv Logic.I) as [E Gn]. now rewrite E.
  - destruct v as [| | |t e [l|] m nc| |]; try contradiction. destruct (set_alike F G i x _ Gv Logic.I) as [E Gn]; [now apply (Hs i x)|]. now rewrite E.
  - destruct v as [| | |t e [l|] m nc| |]; try contradiction. destruct (del_alike F G i _ Gv Logic.I) as [E Gn]. now rewrite E.
  - auto.
  - auto.
Qed.

Lemma map_update {A B} (g : A -> B) : forall l n x, map g (update l n x) = update (map g l) n (g x).
Proof. induction l as [|y l IH]; intros [|n] x; cbn; auto. now rewrite IH. Qed.

(* the loop of _parse_children on the two lists of fields, from position pos on *)
Fixpoint twin (j pos : nat) (l1 l2 : list (fld * ops)) : Prop :=
  match l1, l2 with
  | [], [] => True
  | a :: r1, b :: r2 =>
      (if Nat.eqb pos j then fst a = fst b /\ (f_pres (fst a) = Required \/ (f_pres (fst a) = Optional /\ r1 = []))
       else a = b) /\ twin j (S pos) r1 r2
  | _, _ => False
  end.
Lemma twin_nil j pos l : twin j pos [] l -> l = [].
Proof. destruct l; cbn; tauto. Qed.
Lemma twin_absent j : forall l1 l2 pos, twin j pos l1 l2 -> absent_children l1 = absent_children l2.
Proof.
  induction l1 as [|[f o] l1 IH]; intros [|[g o'] l2] pos; cbn [twin absent_children]; try tauto. intros [H T]. rewrite (IH _ _ T).
  destruct (Nat.eqb pos j); [|now injection H as -> ->]. cbn [fst] in H. destruct H as [-> H]. unfold absent_child.
  destruct H as [-> |(-> & _)]; reflexivity.
Qed.
Lemma twin_init j : forall l1 l2 pos, twin j pos l1 l2 -> init_children l1 = init_children l2.
Proof.
  induction l1 as [|[f o] l1 IH]; intros [|[g o'] l2] pos; cbn [twin init_children]; try tauto. intros [H T]. rewrite (IH _ _ T).
  destruct (Nat.eqb pos j); [|now injection H as -> ->]. cbn [fst] in H. destruct H as [-> H].
  destruct H as [-> |(-> & _)]; reflexivity.
Qed.
Lemma absent_at : forall l n r, absent_children l = Ok r -> (match nth_error l n with Some f => forall d, f_pres (fst f) <> Default d | None => True end) ->
  match nth_error r n with Some (VLazy _) | Some VVoid | None => True | _ => False end.
Proof.
  induction l as [|[f o] l IH]; intros n r; cbn [absent_children]; [intros [= <-] _; now destruct n|].
  destruct (absent_child (f, o)) as [v|x] eqn:E; [|discriminate]. cbn [bind]. destruct (absent_children l) as [vs|x]; [|discriminate]. cbn [bind]. intros [= <-] H.
  destruct n as [|n]; cbn [nth_error] in *; [|now apply IH]. cbn [fst] in H. unfold absent_child in E. destruct (f_pres f); [discriminate|injection E as <-; exact Logic.I|now elim (H d)].
Qed.
Lemma seq_loop_more : forall fuel cont x ptr r, seq_loop fuel cont [] (Some x) ptr = Ok r -> r <> [].
Proof. destruct fuel; intros cont x ptr r; cbn [seq_loop]; [discriminate|]. destruct (seq_loop fuel cont [] None ptr); [|discriminate]. cbn. now intros [= <-]. Qed.
Lemma loop_twin j cont : forall fuel l1 l2 pos parts ptr r, twin j pos l1 l2 -> seq_loop fuel cont l2 parts ptr = Ok r -> length r = length l2 ->
  open_loop j fuel cont l1 pos parts ptr = Ok r.
Proof.
  induction fuel as [|fuel IH]; intros l1 l2 pos parts ptr r T; cbn [seq_loop open_loop]; [discriminate|].
  destruct parts as [x|].
  - destruct l1 as [|a r1], l2 as [|b r2]; try contradiction.
    + destruct (seq_loop fuel cont [] None ptr) as [vs|e]; [|discriminate]. cbn [bind]. intros [= <-]. discriminate.
    + cbn [twin] in T. destruct T as [H T]. destruct (Nat.eqb pos j) eqn:Ep; cbn [orb].
      * destruct H as [Ef H]. destruct (takes b x) eqn:Tk.
        -- destruct (seq_loop fuel cont r2 None ptr) as [vs|e] eqn:El; [|discriminate]. cbn [bind]. intros [= <-] [= L]. now rewrite (IH _ _ _ _ _ _ T El L).
        -- destruct a as [a o], b as [b o']. cbn [fst] in *. subst b. unfold takes in Tk. destruct H as [H|[H ->]]; [rewrite H in Tk; discriminate|].
           apply twin_nil in T. subst r2. destruct (absent_child (a, o')) as [v|e]; [|discriminate]. cbn [bind].
           destruct (seq_loop fuel cont [] (Some x) ptr) as [vs|e] eqn:El; [|discriminate]. cbn [bind]. intros [= <-] [= L].
           apply seq_loop_more in El. destruct vs; [congruence|discriminate].
      * subst b. destruct (takes a x).
        -- destruct (seq_loop fuel cont r2 None ptr) as [vs|e] eqn:El; [|discriminate]. cbn [bind]. intros [= <-] [= L]. now rewrite (IH _ _ _ _ _ _ T El L).
        -- destruct (absent_child a) as [v|e]; [|discriminate]. cbn [bind].
           destruct (seq_loop fuel cont r2 (Some x) ptr) as [vs|e] eqn:El; [|discriminate]. cbn [bind]. intros [= <-] [= L]. now rewrite (IH _ _ _ _ _ _ T El L).
  - destruct (ptr <? len cont); [|intros H _; now rewrite (twin_absent _ _ _ _ T)].
    destruct (parse_ cont (len cont) ptr) as [[x p']|e]; [|discriminate]. cbn [bind]. intros H L. now apply IH with l2.
Qed.

Lemma loop_at j cont : forall fuel l pos parts ptr r, (pos <= j)%nat ->
  match nth_error l (j - pos) with Some f => forall d, f_pres (fst f) <> Default d | None => True end ->
  open_loop j fuel cont l pos parts ptr = Ok r ->
  match nth_error r (j - pos) with Some (VLazy _) | Some VVoid | None => True | _ => False end.
Proof.
  induction fuel as [|fuel IH]; intros l pos parts ptr r Hp Hd; cbn [open_loop]; [discriminate|].
  destruct parts as [x|].
  - assert (R : forall r1 ps (v : value) vs, open_loop j fuel cont r1 (S pos) ps ptr = Ok vs -> (pos = j -> is_lazy v = true) ->
        (forall n, nth_error r1 n = nth_error l (S n)) ->
        match nth_error (v :: vs) (j - pos) with Some (VLazy _) | Some VVoid | None => True | _ => False end).
    { intros r1 ps v vs El Hv Hl. destruct (Nat.eq_dec pos j) as [->|Np].
      - rewrite Nat.sub_diag. cbn. specialize (Hv eq_refl). now destruct v.
      - replace (j - pos)%nat with (S (j - S pos)) in * by lia. cbn [nth_error]. eapply (IH r1 (S pos)); [lia| |exact El]. now rewrite Hl. }
    destruct l as [|a l].
    + destruct (open_loop j fuel cont [] pos None ptr) as [vs|e] eqn:El; [|discriminate]. cbn [bind]. intros [= <-].
      (* more elements than fields: position j may be any element *)
      clear R. revert vs El. assert (Q : forall f ps p vs, open_loop j f cont [] pos ps p = Ok vs -> Forall (fun v => is_lazy v = true) vs).
      { induction f as [|f IHf]; intros ps p vs; cbn [open_loop]; [discriminate|]. destruct ps as [y|].
        - destruct (open_loop j f cont [] pos None p) as [ws|e] eqn:El; [|discriminate]. cbn [bind]. intros [= <-]. constructor; auto. eapply IHf; eauto.
        - destruct (p <? len cont); [|intros [= <-]; constructor]. destruct (parse_ cont (len cont) p) as [[y p']|e]; [|discriminate]. cbn [bind]. apply IHf. }
      intros vs El. apply Q in El. destruct (nth_error (VLazy x :: vs) (j - pos)) as [w|] eqn:Ew; auto.
      assert (is_lazy w = true). { destruct (j - pos)%nat as [|n]; cbn in Ew; [now injection Ew as <-|]. apply nth_error_In in Ew. rewrite Forall_forall in El. auto. }
      now destruct w.
    + destruct (Nat.eqb pos j || takes a x) eqn:Tk.
      * destruct (open_loop j fuel cont l (S pos) None ptr) as [vs|e] eqn:El; [|discriminate]. cbn [bind]. intros [= <-]. eapply R; eauto.
      * apply orb_false_iff in Tk as [Np _]. apply Nat.eqb_neq in Np. destruct (absent_child a) as [v|e]; [|discriminate]. cbn [bind].
        destruct (open_loop j fuel cont l (S pos) (Some x) ptr) as [vs|e] eqn:El; [|discriminate]. cbn [bind]. intros [= <-]. eapply R; eauto.
  - destruct (ptr <? len cont); [|intros H; eapply absent_at; eauto].
    destruct (parse_ cont (len cont) ptr) as [[x p']|e]; [|discriminate]. cbn [bind]. intros H. eapply IH; eauto.
Qed.

Lemma nth_nonnil (A : Type) (l : list A) n x : nth_error l n = Some x -> match l with [] => false | _ => true end = true.
Proof. destruct l; auto. destruct n; discriminate. Qed.

Section Open.
  Variable any : ops.
  Variable c : pcls.
  Variable fs : list (fld * spec).
  Variables i j : nat.
  Variable tbl : list (text * spec).
  Variable m : list (text * text).
  Variables (fi fj : fld * spec) (ci : pcls) (o : text) (sn : spec) (k : nat).
  Hypothesis Hij : i <> j.
  Hypothesis Hi : nth_error fs i = Some fi.
  Hypothesis Si : snd fi = SPrim (KOid m) ci.
  Hypothesis Pi : fpres fi = Required.
  Hypothesis Hj : nth_error fs j = Some fj.
  Hypothesis Pj : fpres fj = Required \/ (fpres fj = Optional /\ S j = length fs).
  Hypothesis Hk : nth_error tbl k = Some (o, sn).
  Hypothesis Hx : key_index tbl o 0 = Some k.
  Let fn : list (fld * spec) := update fs j (fst fj, sn).
  Hypothesis W : wf (SSeq c fn).
  Let FA := fields_as any fs j tbl.
  Let det := determine any fs i j tbl.

  Lemma open_contracts : forall f, In f fn -> contract (snd f).
  Proof. intros f Hf. apply contract_all. exact (wf_wf c fn W f Hf). Qed.
  Lemma fa_eq k' : FA k' = update (fields fs) j (fst fj, value_ops any tbl k').
  Proof. unfold FA, fields_as. now rewrite Hj. Qed.
  Lemma fa_some : FA (Some k) = fields fn.
  Proof. rewrite fa_eq. unfold fields, fn. rewrite map_update. unfold value_ops. now rewrite Hk. Qed.
  Lemma fn_eq : fields fn = update (fields fs) j (fst fj, methods sn).
  Proof. unfold fields, fn. now rewrite map_update. Qed.
  Lemma fn_length : length fn = length fs.
  Proof. apply update_length. Qed.
  Lemma fa_length k' : length (FA k') = length fs.
  Proof. rewrite fa_eq, update_length. unfold fields. apply map_length. Qed.
  Lemma fields_j : nth_error (fields fs) j = Some (fst fj, methods (snd fj)).
  Proof. unfold fields. erewrite map_nth_error by exact Hj. reflexivity. Qed.
  Lemma fn_i : nth_error fn i = Some fi.
  Proof. unfold fn. rewrite nth_update_other by auto. exact Hi. Qed.
  Lemma fn_j : nth_error fn j = Some (fst fj, sn).
  Proof. unfold fn. now apply nth_update_same with fj. Qed.
  Lemma fa_nth k' n : n <> j -> nth_error (FA k') n = nth_error (fields fn) n.
  Proof. intros N. rewrite fa_eq, fn_eq. now rewrite !nth_update_other by auto. Qed.
  Lemma no_default d : f_pres (fst fj) <> Default d.
  Proof. unfold fpres in Pj. destruct Pj as [->|[-> _]]; discriminate. Qed.

  Lemma alike_updates : forall (L : list (fld * ops)) f o1 o2 l n, length l = length L -> nth_error l n = Some VVoid ->
    (forall d, f_pres f <> Default d) -> alike (update L n (f, o1)) (update L n (f, o2)) l.
  Proof.
    induction L as [|x L IH]; intros f o1 o2 [|v l] n; cbn [length]; try discriminate; [destruct n; discriminate|].
    intros [= Hl] Hv Hd. destruct n as [|n]; cbn in *.
    - injection Hv as ->. split; [right; auto|]. now apply alike_same.
    - split; [now left|]. now apply IH.
  Qed.
  Lemma fa_alike k' l : length l = length fs -> nth_error l j = Some VVoid -> alike (FA k') (fields fn) l.
  Proof. intros Hl Hv. rewrite fa_eq, fn_eq. apply alike_updates; auto; [|apply no_default]. unfold fields. now rewrite map_length. Qed.
  Lemma twin_updates : forall (L : list (fld * ops)) f o1 o2 n pos, (f_pres f = Required \/ (f_pres f = Optional /\ S n = length L)) ->
    twin (n + pos) pos (update L n (f, o1)) (update L n (f, o2)).
  Proof.
    assert (Q : forall (L : list (fld * ops)) p q, (p < q)%nat -> twin p q L L).
    { induction L as [|x L IH]; intros p q H; cbn [twin]; auto. replace (Nat.eqb q p) with false by (symmetry; apply Nat.eqb_neq; lia). split; auto. }
    induction L as [|x L IH]; intros f o1 o2 n pos H; [destruct n; exact Logic.I|]. destruct n as [|n]; cbn [update twin plus].
    - rewrite Nat.eqb_refl. cbn [fst]. split; [|apply Q; lia]. split; auto. destruct H as [H|[H K]]; auto. right. split; auto. destruct L; [auto|discriminate].
    - replace (Nat.eqb pos (S (n + pos))) with false by (symmetry; apply Nat.eqb_neq; lia). split; auto.
      rewrite plus_n_Sm. apply IH. destruct H as [H|[H K]]; auto.
  Qed.
  Lemma fa_twin k' : twin j 0 (FA k') (fields fn).
  Proof.
    rewrite fa_eq, fn_eq. rewrite <- (Nat.add_0_r j) at 1. apply twin_updates. unfold fields. rewrite map_length. exact Pj.
  Qed.

  Lemma open_children_ok x l : seq_children (fields fn) x = Ok l -> length l = length fs -> open_children any fs j tbl x = Ok l.
  Proof.
    intros H L. unfold open_children. unfold seq_children in H. unfold fields in H at 1. rewrite map_length, fn_length in H.
    apply loop_twin with (fields fn); auto; [apply fa_twin|]. unfold fields. now rewrite map_length, fn_length.
  Qed.
  Lemma open_children_at x l : open_children any fs j tbl x = Ok l ->
    match nth_error l j with Some (VLazy _) | Some VVoid | None => True | _ => False end.
  Proof.
    unfold open_children. intros H. pose proof (fun D => loop_at j x _ _ 0%nat None 0 l (Nat.le_0_l _) D H) as Q. rewrite Nat.sub_0_r in Q. apply Q. fold FA. rewrite fa_eq. rewrite (nth_update_same _ _ _ _ fields_j). cbn [fst]. apply no_default.
  Qed.

  (* reading the object identifier *)
  Lemma oid_at q n l nm w : nth_error l i = Some w -> crep q n fi (nm, APrim (NText o)) w ->
    exists w', det l = (update l i w', Ok (Some k)) /\ crep q n fi (nm, APrim (NText o)) w' /\
      mutated w = false /\ mutated w' = false /\ is_lazy w' = false /\ (is_lazy w = false -> kept w w').
  Proof.
    intros Hw K.
    assert (Inf : In fi fn) by (eapply nth_error_In; exact fn_i). destruct (wf_tags c fn fi W Inf) as (_ & _ & Tk).
    destruct (built_ok fn q n fi _ w Inf K) as (b & Eb & E & Hb & Kb & Lb). cbn [snd] in Hb.
    destruct Hb as [(_ & _ & _ & X)|Rb]; [discriminate|].
    assert (Rb1 : rep q true (snd fi) (ftags fi) (APrim (NText o)) b) by (rewrite Si in *; exact Rb).
    destruct (K_native _ (open_contracts fi Inf) _ _ _ _ _ Tk Rb1) as (w' & x & En & R' & Kw & M' & _ & Sh).
    assert (R2 : rep q n (snd fi) (ftags fi) (APrim (NText o)) w') by (rewrite Si in *; exact R').
    exists w'. split.
    { unfold det, determine. rewrite Hw. fold FA. rewrite (fa_nth None i Hij). unfold fields. erewrite map_nth_error by exact fn_i. fold (fmeth fi). rewrite Eb.
      replace (child_native (snd (fmeth fi)) b) with (x_native (methods (snd fi)) b) by (destruct b; auto; now apply rep_not_void in Rb).
      rewrite En. specialize (Sh eq_refl). rewrite Si in Sh. cbn in Sh. destruct Sh as (v' & Sv & ->). destruct v'; try (discriminate Sv; fail). injection Sv as <-. cbn [native_of]. now rewrite Hx. }
    split; [apply crep_cases; cbn; auto|].
    assert (Pr : forall v, rep q n (snd fi) (ftags fi) (APrim (NText o)) v -> exists u, v = VPrim u).
    { intros v Rv. rewrite Si in Rv. cbn in Rv. destruct v; try contradiction. eauto. }
    destruct (Pr b Rb) as (u & ->). destruct (Pr w' R2) as (u' & ->).
    split; [destruct (is_lazy w) eqn:Lw; [now destruct w|now rewrite <- (Kb eq_refl)]|]. split; auto. split; auto. intros Lw. now rewrite <- (Kb Lw).
  Qed.
  Lemma oid_read q n la l nm : all3 (crep q n) fn la l -> nth_error la i = Some (nm, APrim (NText o)) ->
    exists w w', nth_error l i = Some w /\ det l = (update l i w', Ok (Some k)) /\ crep q n fi (nm, APrim (NText o)) w' /\
      mutated w = false /\ mutated w' = false /\ is_lazy w' = false /\ (is_lazy w = false -> kept w w').
  Proof.
    intros A Hn. destruct (all3_nth _ _ _ _ _ _ A fn_i) as (na & w & Hna & Hw & K). assert (na = (nm, APrim (NText o))) by congruence. subst na.
    destruct (oid_at q n l nm w Hw K) as (w' & H). exists w, w'. auto.
  Qed.

  (* a list of fields that agrees with fn only where child j is void *)
  Definition twist (x : ops) : ops :=
    Ops (x_id x) (negb (x_choice x)) (x_validate x) (x_make x) (x_build x) (x_contents x) (x_dump x) (x_parse x) (x_native x)
      (x_retag x) (x_copy x) (x_get x) (x_set x) (x_del x) (x_append x) (x_len x).
  Let FX := update (fields fs) j (fst fj, twist (methods sn)).
  Lemma twist_alike l : alike FX (fields fn) l <-> length l = length fs /\ nth_error l j = Some VVoid.
  Proof.
    split.
    - intros A. pose proof (alike_length _ _ _ A) as [L1 L2]. unfold FX in L1. rewrite update_length in L1. unfold fields in L1. rewrite map_length in L1.
      split; [congruence|]. destruct (nth_error_ex l j) as [w Hw]. { assert (H : nth_error fs j <> None) by congruence. apply nth_error_Some in H. lia. }
      destruct (alike_nth _ _ _ _ _ A Hw) as (f & g & Hf & Hg & H). unfold FX in Hf. rewrite (nth_update_same _ _ _ _ fields_j) in Hf. injection Hf as <-.
      rewrite fn_eq, (nth_update_same _ _ _ _ fields_j) in Hg. injection Hg as <-. destruct H as [H|(_ & -> & _)]; [|exact Hw].
      exfalso. injection H as H. apply (f_equal x_choice) in H. cbn in H. now destruct (x_choice (methods sn)).
    - intros [Ll Hv]. unfold FX. rewrite fn_eq. apply alike_updates; auto; [|apply no_default]. unfold fields. now rewrite map_length.
  Qed.

  (* objects: class number and value *)
  Definition fine (k' : option nat) (v : value) : Prop :=
    match v with
    | VSeq _ _ (Some l) _ _ => length l = length fs /\ (k' = Some k \/ nth_error l j = Some VVoid)
    | VSeq _ _ None _ _ => True
    | _ => False
    end.
  Definition vok (a : aval) : Prop := names_oid i o a.
  Definition orep (q : mode) (n : bool) (t : tagging) (a : aval) (x : oobj) : Prop :=
    rep q n (SSeq c fn) t a (w_value x) /\ vok a /\ fine (w_class x) (w_value x).

  Lemma rep_shape q n t a v : rep q n (SSeq c fn) t a v ->
    match v with VSeq _ _ (Some l) _ _ => length l = length fs | VSeq _ _ None _ _ => True | _ => False end.
  Proof.
    intros R. apply rep_seq_eq in R as (la & t' & e & ch & m0 & nc & -> & -> & _ & _ & _ & _ & _ & R). destruct ch as [l|]; auto.
    apply all3_length in R. rewrite fn_length in R. destruct R; congruence.
  Qed.
  Lemma fine_some q n t a v : rep q n (SSeq c fn) t a v -> fine (Some k) v.
  Proof. intros R. apply rep_shape in R. destruct v as [| | |t0 e [l|] m0 nc| |]; cbn; auto. Qed.
  Lemma fine_good k' v : fine k' v -> good (FA k') (fields fn) v.
  Proof.
    destruct v as [| | |t e [l|] m0 nc| |]; cbn; auto. intros [L [->|H]]; [|now apply fa_alike].
    rewrite fa_some. apply alike_same. unfold fields. now rewrite map_length, fn_length.
  Qed.
  Lemma fine_void k' v : k' <> Some k -> fine k' v <-> good FX (fields fn) v.
  Proof.
    intros N. destruct v as [| | |t e [l|] m0 nc| |]; cbn; try tauto. rewrite twist_alike. tauto.
  Qed.
  Lemma class_dec k' : k' = Some k \/ k' <> Some k.
  Proof. destruct k' as [x|]; [|right; discriminate]. destruct (Nat.eq_dec x k) as [->|N]; [now left|right; congruence]. Qed.

  (* the children that parsing found *)
  Lemma rep_with q n t la e m0 nc l : rep q n (SSeq c fn) t (ADict la) (VSeq t e None m0 nc) -> all3 (crep (low q) true) fn la l ->
    rep q n (SSeq c fn) t (ADict la) (VSeq t e (Some l) m0 nc).
  Proof.
    intros R A. apply rep_seq_eq in R as (la' & t' & e' & ch' & m' & nc' & [= <-] & [= <- <- <- <- <-] & _ & Em & R2 & R3 & R4 & -> & x & l0 & Hx0 & El & R5).
    assert (A' : all3 (crep q n) fn la l) by (eapply all3_impl; [|exact A]; intros f na v _; apply crep_weaken; auto; apply le_low_self).
    apply rep_seq_eq. exists la, t, e, (Some l), false, nc. do 3 (split; [reflexivity|]). split; auto. split; [intros _; rewrite Hx0; discriminate|].
    split; [intros Q _; apply R3; auto; now apply not_flagged|]. split; auto. intros N. specialize (R4 N). destruct nc; auto. contradiction.
  Qed.

  Lemma open_parse_ok q n t a e m0 nc k' rc : orep q n t a (OObj k' (VSeq t e None m0 nc)) ->
    exists k1 l, open_parse any fs i j tbl rc (OObj k' (VSeq t e None m0 nc)) = (OObj k1 (VSeq t e (Some l) m0 nc), Ok tt) /\
      orep q n t a (OObj k1 (VSeq t e (Some l) m0 nc)).
  Proof.
    intros (R & (la & nm & -> & Hn) & _). cbn [w_value] in R. pose proof R as R0.
    apply rep_seq_eq in R0 as (la' & t' & e' & ch' & m' & nc' & [= <-] & [= <- <- <- <- <-] & _ & _ & _ & _ & _ & -> & x & l & Hc & El & R5).
    assert (Ll : length l = length fs) by (apply all3_length in R5; rewrite fn_length in R5; destruct R5; congruence).
    pose proof (open_children_ok x l El Ll) as Eo. pose proof (open_children_at x l Eo) as At.
    unfold open_parse. cbn [w_value]. rewrite Hc, Eo.
    assert (exists k1 l1, (match nth_error l j with Some (VLazy _) => determine any fs i j tbl l | _ => (l, Ok None) end) = (l1, Ok k1) /\
      all3 (crep (low q) true) fn la l1 /\ fine k1 (VSeq t e (Some l1) false nc)) as (k1 & l1 & E1 & A1 & G1).
    { destruct (nth_error l j) as [w|] eqn:Hw.
      2: { exfalso. apply nth_error_None in Hw. assert (nth_error fs j <> None) by congruence. apply nth_error_Some in H. lia. }
      destruct w; try contradiction.
      - exists None, l. split; auto. split; auto. cbn. auto.
      - destruct (oid_read _ _ la l nm R5 Hn) as (w & w' & Hw' & Ed & Kw & _). unfold det in Ed. rewrite Ed. exists (Some k), (update l i w'). split; auto.
        assert (A : all3 (crep (low q) true) fn la (update l i w')).
        { replace la with (update la i (nm, APrim (NText o))) by (now apply update_same). eapply all3_update; [|exact R5|exact fn_i|exact Kw]. auto. }
        split; auto. cbn. rewrite update_length. auto. }
    rewrite E1. destruct rc.
    - destruct (build_all_ok fn (low q) fn (fun f Hf => Hf) la l1 A1) as (l2 & E2 & A2). 
      destruct (build_alike _ _ _ (fine_good _ _ G1)) as [Eb _].
      fold FA. rewrite Eb, E2. exists k1, l2. split; auto. split; [now apply rep_with|]. split; [now exists la, nm|]. cbn [w_class w_value].
      destruct (class_dec k1) as [->|N]; [exact (fine_some _ _ _ _ _ (rep_with _ _ _ _ _ _ _ _ R A2))|]. apply fine_void; auto. apply (fine_void k1 _ N) in G1.
      cbn [good] in *. now apply (build_alike _ _ _ G1).
    - exists k1, l1. split; auto. split; [|split; [now exists la, nm|exact G1]]. now apply rep_with.
  Qed.

  Lemma orep_shape q n t a X : orep q n t a X -> exists e ch m0 nc, w_value X = VSeq t e ch m0 nc.
  Proof. intros (R & _). apply rep_seq_eq in R as (la & t' & e & ch & m0 & nc & -> & E & -> & _). eauto. Qed.

  (* before an operation *)
  Lemma prepared_ok q n t a X x : orep q n t a X ->
    exists k1 v1, prepared any fs i j tbl x X = (OObj k1 v1, Ok tt) /\ orep q n t a (OObj k1 v1) /\ ready x v1.
  Proof.
    intros O. destruct (orep_shape _ _ _ _ _ O) as (e & ch & m0 & nc & Ev). destruct X as [k' v]. cbn in Ev. subst v. unfold prepared. cbn [w_value].
    destruct ch as [l|]; [exists k', (VSeq t e (Some l) m0 nc); cbn; auto|].
    assert (Hc : e_contents e <> None).
    { destruct O as (R & _). cbn [w_value] in R. apply rep_seq_eq in R as (la & t' & e' & ch' & m' & nc' & _ & [= <- <- <- <- <-] & _ & _ & _ & _ & _ & _ & y & l & Hy & _). congruence. }
    assert (P : forall rc, exists k1 v1, open_parse any fs i j tbl rc (OObj k' (VSeq t e None m0 nc)) = (OObj k1 v1, Ok tt) /\ orep q n t a (OObj k1 v1) /\ ready x v1).
    { intros rc. destruct (open_parse_ok _ _ _ _ _ _ _ _ rc O) as (k1 & l & E & O'). exists k1, (VSeq t e (Some l) m0 nc). cbn. auto. }
    assert (Nf : match fs with [] => false | _ => true end = true) by (apply (nth_nonnil _ _ _ _ Hi)).
    destruct x; cbn [parses]; auto.
    - destruct (e_contents e) eqn:Ec; [|contradiction]. destruct nc as [d|]; auto. exists k', (VSeq t e None m0 (Some d)). split; auto. split; auto. cbn. right. discriminate.
    - rewrite Nf, andb_true_r. destruct (force || ends_80 (e_header e)) eqn:Ef; auto. exists k', (VSeq t e None m0 nc). split; auto.
    - exists k', (VSeq t e None m0 nc). cbn. auto.
    - exists k', (VSeq t e None m0 nc). cbn. auto.
    - exists k', (VSeq t e None m0 nc). cbn. auto.
  Qed.

  Lemma act_perform x v : v <> VVoid -> seq_act (fields fn) x v = perform (SSeq c fn) x v.
  Proof. intros N. rewrite perform_step by auto. destruct x; auto. Qed.

  (* obj[j] = b *)
  Lemma oid_reread q n t a e l m0 nc k' : orep q n t a (OObj k' (VSeq t e (Some l) m0 nc)) ->
    exists l1, det l = (l1, Ok (Some k)) /\ orep q n t a (OObj (Some k) (VSeq t e (Some l1) m0 nc)).
  Proof.
    intros (R & (la & nm & -> & Hn) & _). cbn [w_value] in R. pose proof R as R0.
    apply rep_seq_eq in R0 as (la' & t' & e' & ch' & m' & nc' & [= <-] & [= <- <- <- <- <-] & _ & _ & _ & _ & R4 & A).
    destruct (oid_read _ _ la l nm A Hn) as (w & w' & Hw & Ed & Kw & Mw & Mw' & Lw & Kp). exists (update l i w'). split; auto.
    assert (R' : rep q n (SSeq c fn) t (ADict la) (VSeq t e (Some (update l i w')) m0 nc)).
    { replace (ADict la) with (ADict (update la i (fst (nm, APrim (NText o)), APrim (NText o)))) by (f_equal; now apply update_same).
      eapply (seq_put c fn q n q n t la e l m0 nc i fi (nm, APrim (NText o)) w w'); eauto; [exact fn_i| |].
      - intros N Nc. split; auto. split; auto. apply Kp. destruct nc as [d|]; [|contradiction]. destruct (R4 N) as (_ & H).
        destruct (H i fi (nm, APrim (NText o)) w fn_i Hn Hw) as (ne & _ & Z & _). exact Z.
      - intros Q F. split; auto. unfold flagged in *. destruct (own q); auto. cbn [mutated] in *. apply orb_false_iff in F as [-> F]. cbn.
        eapply existsb_update_false; [exact Hw|exact Mw|exact F]. }
    split; auto. split; [now exists la, nm|]. eapply fine_some; exact R'.
  Qed.

  (* one operation on the object *)
  Lemma open_act_ok q n t a X x : orep q n t a X -> tagging_ok t -> (forall b, x = ASet j b -> exists a', becomes [] x (SSeq c fn) a a') ->
    exists v1 k2, rep q n (SSeq c fn) t a v1 /\
      open_act any fs i j tbl x X = (OObj k2 (fst (perform (SSeq c fn) x v1)), snd (perform (SSeq c fn) x v1)) /\
      (forall q' n' b, rep q' n' (SSeq c fn) t b (fst (perform (SSeq c fn) x v1)) -> fine k2 (fst (perform (SSeq c fn) x v1))).
  Proof.
    intros O Ht Hb. destruct (prepared_ok q n t a X x O) as (k1 & v1 & Ep & O1 & Rd). unfold open_act. rewrite Ep. fold FA. cbn [w_class w_value].
    assert (Gen : (forall b, x <> ASet j b) -> exists v1' k2, rep q n (SSeq c fn) t a v1' /\
       (let '(v, r) := seq_act (FA k1) x v1 in (OObj k1 v, r)) = (OObj k2 (fst (perform (SSeq c fn) x v1')), snd (perform (SSeq c fn) x v1')) /\
       (forall q' n' b, rep q' n' (SSeq c fn) t b (fst (perform (SSeq c fn) x v1')) -> fine k2 (fst (perform (SSeq c fn) x v1')))).
    { intros Nj. destruct O1 as (R & Vo & Fi). cbn [w_value w_class] in *. pose proof (rep_void _ _ _ _ _ _ R) as Nv. exists v1, k1. split; auto.
      assert (Ns : forall m0 b, x = ASet m0 b -> nth_error (FA k1) m0 = nth_error (fields fn) m0).
      { intros m0 b ->. apply fa_nth. intros Em. rewrite Em in Nj. now apply (Nj b). }
      destruct (act_alike (FA k1) (fields fn) x v1 (fine_good _ _ Fi) Rd Ns) as [E _]. rewrite E, (act_perform x v1 Nv). split; [now destruct (perform (SSeq c fn) x v1)|].
      intros q' n' b R'. destruct (class_dec k1) as [->|N]; [eapply fine_some; exact R'|]. apply fine_void; auto. apply (fine_void k1 _ N) in Fi.
      rewrite <- (act_perform x v1 Nv). eapply act_alike; eauto. intros m0 b0 ->. unfold FX. assert (Nm : m0 <> j) by (intros Em; rewrite Em in Nj; now apply (Nj b0)). rewrite fn_eq, !nth_update_other; auto. }
    destruct x as [| | | | |x b| | |]; try (apply Gen; discriminate).
    destruct (Nat.eqb x j) eqn:Ex; [|apply Gen; intros b0 [= Em _]; now rewrite Em, Nat.eqb_refl in Ex].
    apply Nat.eqb_eq in Ex. subst x. clear Gen. destruct (Hb b eq_refl) as (a0 & Ba).
    destruct (orep_shape _ _ _ _ _ O1) as (e & ch & m0 & nc & Ev). cbn in Ev. subst v1. destruct ch as [l|]; [|contradiction].
    destruct (oid_reread _ _ _ _ _ _ _ _ _ O1) as (l1 & Ed & O2). unfold open_set. cbn [w_value]. unfold det in Ed. rewrite Ed. fold FA. rewrite fa_some.
    destruct O2 as (R2 & _). cbn [w_value] in R2. pose proof (rep_void _ _ _ _ _ _ R2) as Nv. rewrite (act_perform _ _ Nv).
    destruct (change_here (SSeq c fn) (ASet j b) a a0 q n t _ W Ht eq_refl (becomes_here (ASet j b) _ _ _ eq_refl Ba) R2) as (v' & b' & E & _ & R' & _).
    eexists _, _. split; [exact R2|]. rewrite E. cbn [fst snd]. split; [reflexivity|]. intros q' n' b0 R3.
    match goal with |- fine (if ?y then _ else _) _ => assert (Y : y = true) end; [|rewrite Y; eapply fine_some; exact R3].
    rewrite perform_step in E by auto. unfold fields. erewrite map_nth_error by exact fn_j. cbn [fst snd].
    change (x_set (methods (SSeq c fn))) with (set_seq (fields fn) false) in E. unfold set_seq in E. cbn [ensure] in E. unfold fields in E. erewrite map_nth_error in E by exact fn_j. cbn [fst snd] in E.
    destruct (make_value (fst fj, methods sn) b) as [nv|y]; [|discriminate E].
    destruct (child_contents (methods sn) nv) as [nv1 [[y|]|y]]; [reflexivity|discriminate E..].
  Qed.

  (* an operation at a path *)
  Lemma inner_same n k' v : fine k' v -> match open_inner fs j tbl n (OObj k' v) with
    | Some (s, w) => inner (SSeq c fn) n v = Some (s, w) \/ (exists s', w = VVoid /\ inner (SSeq c fn) n v = Some (s', VVoid))
    | None => inner (SSeq c fn) n v = None
    end.
  Proof.
    intros Fi. unfold open_inner, inner. cbn [w_value w_class]. destruct v as [| | |t e [l|] m0 nc| |]; auto. destruct Fi as [L V].
    destruct (Nat.eq_dec n j) as [->|N].
    - rewrite Nat.eqb_refl, Hj, fn_j. destruct (nth_error l j) as [w|]; auto. destruct V as [->|[= ->]]; [|eauto].
      rewrite Hk. destruct w; eauto.
    - rewrite (proj2 (Nat.eqb_neq n j) N). unfold fn. rewrite nth_update_other by auto. destruct (nth_error l n); destruct (nth_error fs n); auto.
  Qed.
  Lemma fine_put n k' v w' : fine k' v -> (n = j -> k' = Some k \/ w' = VVoid) -> fine k' (put_inner n w' v).
  Proof.
    destruct v as [| | |t e [l|] m0 nc| |]; try (cbn; now auto). intros [L V] Hn. cbn. rewrite update_length. split; auto.
    destruct (Nat.eq_dec n j) as [->|N]; [|rewrite nth_update_other by auto; auto]. destruct (Hn eq_refl) as [->| ->]; auto. right.
    destruct (nth_error l j) as [w|] eqn:E; [now apply nth_update_same with w|]. exfalso. apply nth_error_None in E.
    assert (H : nth_error fs j <> None) by congruence. apply nth_error_Some in H. lia.
  Qed.

  Lemma open_through_ok q n t a X p x : orep q n t a X -> tagging_ok t -> (forall b, p = [] -> x = ASet j b -> exists a', becomes [] x (SSeq c fn) a a') ->
    exists v1 k2, rep q n (SSeq c fn) t a v1 /\
      open_through any fs i j tbl p x X = (OObj k2 (fst (through p x (SSeq c fn) v1)), snd (through p x (SSeq c fn) v1)) /\
      (forall q' n' b, rep q' n' (SSeq c fn) t b (fst (through p x (SSeq c fn) v1)) -> fine k2 (fst (through p x (SSeq c fn) v1))).
  Proof.
    intros O Ht Hb. destruct p as [|h p]; [apply open_act_ok; auto; intros b Eb; exact (Hb b eq_refl Eb)|]. cbn [open_through].
    destruct (open_act_ok q n t a X (AGet h) O Ht ltac:(discriminate)) as (v1 & k2 & R & E & Fi). rewrite E. exists v1, k2. split; auto.
    pose proof (rep_void _ _ _ _ _ _ R) as Nv. rewrite through_step by auto.
    destruct (read_here (SSeq c fn) (AGet h) q n t a v1 W eq_refl Ht R) as (v2 & r & Ep & R2 & _). rewrite Ep in *. cbn [fst snd] in *. specialize (Fi _ _ _ R2).
    rewrite perform_step in Ep by auto. destruct (x_get (methods (SSeq c fn)) h v1) as [v3 [[]|y]]; cbn in Ep; injection Ep as -> <-; [|split; auto].
    cbn [w_class w_value]. pose proof (inner_same h _ _ Fi) as In. destruct (open_inner fs j tbl h (OObj k2 v2)) as [[s' w]|] eqn:Eo; [|rewrite In; auto].
    destruct In as [In|(s2 & -> & In)]; rewrite In.
    - destruct (through p x s' w) as [w' y] eqn:Ew. cbn [fst snd]. split; auto. intros _ _ _ _. apply fine_put; auto. intros Eh. rewrite Eh in *.
      unfold inner in In. unfold fine in Fi. destruct v2 as [| | |t2 e2 [l2|] m2 nc2| |]; try discriminate. rewrite fn_j in In. destruct Fi as [_ [->|V]]; auto.
      rewrite V in In. injection In as <- <-. right. destruct (through_void p x sn) as (z & Ez). rewrite Ez in Ew. congruence.
    - replace (through p x s2 VVoid) with (through p x s' VVoid) by (now destruct p). destruct (through_void p x s') as (z & ->). cbn [fst snd]. split; auto. intros _ _ _ _. apply fine_put; auto.
  Qed.

  (* histories *)
  Lemma nth_swap (A : Type) (l r : list A) u w n : length l <> n -> nth_error (l ++ u :: r) n = nth_error (l ++ w :: r) n.
  Proof.
    intros N. destruct (Nat.lt_ge_cases n (length l)) as [L|L]; [now rewrite !nth_error_app1|]. rewrite !nth_error_app2 by auto.
    destruct (n - length l)%nat eqn:E; [lia|reflexivity].
  Qed.
  Lemma spared_names p x a b : spares i (p, x) -> vok a -> becomes p x (SSeq c fn) a b -> vok b.
  Proof.
    intros Sp (la & nm & -> & Hn) B.
    assert (Sw : forall l n1 b1 b2 r, ADict la = ADict (l ++ (n1, b1) :: r) -> length l <> i -> vok (ADict (l ++ (n1, b2) :: r))).
    { intros l n1 b1 b2 r [= ->] N. exists (l ++ (n1, b2) :: r), nm. split; auto. rewrite <- Hn. now apply nth_swap. }
    inversion B; subst; try (now exists la, nm).
    - match goal with H : changes _ _ _ _ |- _ => inversion H; subst end.
      + eapply Sw; eauto.
      + eapply Sw; eauto.
    - eapply Sw; eauto. intros E. cbn in Sp. rewrite (Sp E) in *. discriminate.
  Qed.

  Lemma open_step q n t a X p x a0 : tagging_ok t -> orep (mode_of q) n t a X -> spares i (p, x) -> becomes p x (SSeq c fn) a a0 ->
    exists b, becomes p x (SSeq c fn) a b /\
      orep (mode_of (next (SSeq c fn) (p, x) q)) (n && negb (store_below (p, x))) t b (fst (open_through any fs i j tbl p x X)) /\
      (reading x = false -> snd (open_through any fs i j tbl p x X) = Ok RNone).
  Proof.
    intros Ht O Sp B. destruct (open_through_ok _ _ _ _ _ p x O Ht) as (v1 & k2 & R & E & Fi).
    { intros b -> ->. eauto. }
    destruct (step_ok p x (SSeq c fn) a a0 q n t v1 W Ht B R) as (b & B' & R' & Ok1). exists b. rewrite E. cbn [fst snd]. split; auto. split; auto.
    split; auto. split; [|cbn; eauto]. destruct O as (_ & Vo & _). eapply spared_names; eauto.
  Qed.
  Lemma open_history t : tagging_ok t -> forall h a q n X, safe (SSeq c fn) h a -> Forall (spares i) h -> orep (mode_of q) n t a X ->
    exists b, leads (SSeq c fn) h a b /\ orep (mode_of (trusted (SSeq c fn) h q)) (n && negb (stores_below h)) t b (open_after any fs i j tbl h X).
  Proof.
    intros Ht. induction h as [|[p x] h IH]; intros a q n X Sf Sp O.
    - exists a. split; [constructor|]. cbn. now rewrite andb_true_r.
    - cbn [safe] in Sf. destruct Sf as [(a0 & B) Sf]. inversion Sp as [|? ? S1 S2]; subst.
      destruct (open_step q n t a X p x a0 Ht O S1 B) as (b & B' & R' & _).
      destruct (IH b _ _ _ (Sf b B') S2 R') as (d & L & Rd). exists d. split; [econstructor; eauto|].
      cbn [trusted open_after stores_below existsb]. rewrite negb_orb, andb_assoc. exact Rd.
  Qed.
  Theorem open_tracks_ok nn q t a X : tagging_ok t -> orep (mode_of q) nn t a X -> open_tracks any fs i j tbl nn q (SSeq c fn) t a X.
  Proof.
    intros Ht O h Sf Sp. destruct (open_history t Ht h a q nn X Sf Sp O) as (b & L & Rb). exists b. split; auto. split.
    - intros p x Hr S1 (d & B). now destruct (open_step _ _ _ _ _ p x d Ht Rb S1 B) as (_ & _ & _ & E); auto.
    - intros p s' t' d Sx.
      assert (At : forall x, (forall b0, p = [] -> x <> ASet j b0) -> exists q' w, wf s' /\ tagging_ok t' /\ rep q' (nn && negb (stores_below h)) s' t' d w /\ acc q' = acc (mode_of (trusted (SSeq c fn) h q)) /\
        snd (open_through any fs i j tbl p x (open_after any fs i j tbl h X)) = snd (perform s' x w)).
      { intros x Nx. destruct (open_through_ok _ _ _ _ _ p x Rb Ht) as (v1 & k2 & R & E & _).
        { intros b0 Ep Ex. now destruct (Nx b0 Ep). }
        destruct (reach_at _ _ _ _ _ _ _ Sx _ _ _ W Ht R) as (q' & w & W' & T' & Rw & A & Ew). exists q', w. rewrite E. cbn [snd]. auto. }
      split; [|split; [|split]].
      + destruct (At ARead ltac:(discriminate)) as (q' & w & W' & T' & Rw & A & ->). pose proof (contract_all s' W') as C.
        destruct (K_native s' C _ _ _ _ _ T' Rw) as (w' & y & En & _ & _ & _ & _ & Sh). exists y. rewrite perform_step by (eapply rep_void; eauto).
        rewrite En. split; auto. intros -> N. apply Sh. now rewrite N.
      + intros f. destruct (At (ADump f) ltac:(discriminate)) as (q' & w & W' & T' & Rw & A & ->). pose proof (contract_all s' W') as C.
        destruct (K_dump s' C _ _ _ _ _ f T' Rw) as (w' & y & Ed & _ & _ & _ & De). exists y. rewrite perform_step by (eapply rep_void; eauto).
        rewrite Ed. split; auto. intros H Ld. apply (proj1 (encodes_der_both s' W' t' T')); auto. apply De.
        destruct H as [H|H]; auto. left. rewrite A. destruct (trusted (SSeq c fn) h q); auto; congruence.
      + destruct (At ALen ltac:(discriminate)) as (q' & w & W' & T' & Rw & A & E). pose proof (len_answer _ _ _ _ _ _ W' Rw) as La. destruct d; auto; now rewrite E.
      + intros e l x Lc -> P. destruct (At x) as (q' & w & W' & T' & Rw & A & ->); [intros b0 _ ->; exact P|]. eapply index_answer; eauto.
  Qed.

  Theorem open_follows_ok q t a X : tagging_ok t -> orep (mode_of q) true t a X -> open_follows any fs i j tbl q (SSeq c fn) t a X.
  Proof. exact (open_tracks_ok true q t a X). Qed.

  (* values that agree name the same class *)
  Lemma simf_oid nm nb : simf fi (nm, APrim (NText o)) nb -> nb = (nm, APrim (NText o)).
  Proof.
    intros H. apply simf_cases in H as (E1 & E2 & [(_ & X & _)|H]); [discriminate|]. cbn [fst snd] in *. rewrite Si in H. destruct nb as [n0 b0]. cbn [fst snd] in *.
    destruct b0 as [|v'| | | |]; try contradiction. destruct H as (_ & _ & H). destruct v'; try (discriminate H; fail). cbn in H. congruence.
  Qed.
  Lemma sim_names a b : sim (SSeq c fn) a b -> vok a -> vok b.
  Proof.
    intros S (la & nm & -> & Hn). destruct b as [| |lb| | |]; try contradiction. apply sim_seq in S.
    destruct (all3_nth _ _ _ _ _ _ S fn_i) as (na & nb & Hna & Hnb & H). assert (na = (nm, APrim (NText o))) by congruence. subst na.
    apply simf_oid in H. subst nb. now exists lb, nm.
  Qed.

  (* loading *)
  Lemma plain_none F G p x : plain_seq c F false None p x = plain_seq c G false None p x.
  Proof. reflexivity. Qed.
  Lemma build_none F G p x : build_seq c F false p None x = build_seq c G false p None x.
  Proof.
    unfold build_seq, build_with. cbn [p_no_explicit]. destruct (has_explicit c p); [reflexivity|]. destruct (p_no_explicit p); reflexivity.
  Qed.
  Lemma plain_fresh F p x v : plain_seq c F false None p x = Ok v -> exists t e m0 nc, v = VSeq t e None m0 nc.
  Proof.
    unfold plain_seq. destruct (init_tagging c p); [|discriminate]. cbn [bind]. destruct (check_tags c a x); [|discriminate]. intros [= <-]. cbn. eauto 6.
  Qed.
  Lemma build_fresh F p x v : build_seq c F false p None x = Ok v -> exists t e m0 nc, v = VSeq t e None m0 nc.
  Proof.
    unfold build_seq, build_with. cbn [p_no_explicit]. destruct (has_explicit c p).
    - destruct (do _ <- make_seq c F false p None ANone; Ok tt); [|discriminate]. cbn [bind]. destruct (init_tagging c p) as [t|]; [|discriminate]. cbn [bind].
      destruct (peel (rev (t_explicit t)) x (i_header x) (i_trailer x)) as [[[y hd] tl]|]; [|discriminate]. cbn [bind].
      destruct (plain_seq c F false None (Params [] None true) y) as [w|] eqn:E; [|discriminate]. cbn [bind]. intros [= <-].
      apply plain_fresh in E as (t' & e & m0 & nc & ->). cbn. eauto 6.
    - intros H. replace (if p_no_explicit p then None else None) with (@None aval) in H by (now destruct (p_no_explicit p)). eapply plain_fresh; exact H.
  Qed.
  Lemma open_load_ok p d strict v : cload (SSeq c fn) p d strict = Ok v -> open_load any c fs j tbl p d strict = Ok (OObj None v) /\ fine None v.
  Proof.
    unfold cload, open_load. fold FA. destruct (parse_ d (len d) 0) as [[x e]|]; [|discriminate]. cbn [bind]. destruct (strict && negb (e =? len d)); [discriminate|].
    change (x_build (methods (SSeq c fn)) p None x) with (build_seq c (fields fn) false p None x). rewrite (build_none (FA None) (fields fn)). intros H. rewrite H. split; auto.
    apply build_fresh in H as (t & e0 & m0 & nc & ->). exact Logic.I.
  Qed.

  (* making: the fields in their order *)
  Lemma open_keys_make li t vs0 nm : (i < j)%nat -> init_children (fields fn) = Ok vs0 ->
    forall l ls pre ch m0 k' lp lp' vp vr la, fn = pre ++ l -> map fst ls = map fst l -> (m0 = match ch with Some _ => true | None => false end) ->
      cur vs0 ch = vp ++ vr -> (ch = None -> k' = None) -> (length pre <= j -> k' = None)%nat -> (k' = Some k \/ nth_error (vp ++ vr) j = Some VVoid) ->
      all3 simf pre lp lp' -> all3 (crep Own true) pre lp' vp -> nth_error (lp ++ la) i = Some (nm, APrim (NText o)) ->
      all2 (init_of) l vr -> all2 (given_field li) l la -> (forall f na, In (f, na) (combine l la) -> snd na <> ANone -> fits (snd f) (snd na)) ->
      exists k2 ch' m' la', open_keys any fs i j tbl li ls (length pre) (OObj k' (VSeq t no_enc ch m0 None)) = Ok (OObj k2 (VSeq t no_enc ch' m' None)) /\
        m' = match ch' with Some _ => true | None => false end /\ all3 simf fn (lp ++ la) la' /\ all3 (crep Own true) fn la' (cur vs0 ch') /\
        (k2 = Some k \/ nth_error (cur vs0 ch') j = Some VVoid) /\
        ((ch <> None \/ exists f, In f l /\ dict_get li (fname f) <> None) -> ch' <> None).
  Proof.
    intros Lij E0. induction l as [|f l IH]; intros [|g ls] pre ch m0 k' lp lp' vp [|v vr] [|na la] Ef Es Em Ec Kc Kp Kv Sp Rp Ho In0 G F; cbn [all2] in In0, G; try tauto; try discriminate.
    - exists k', ch, m0, lp'. rewrite app_nil_r in *. subst pre. cbn [open_keys]. rewrite Ec. split; auto. split; auto. split; auto. split; auto. split; auto. intros [H|(f & [] & _)]; auto.
    - destruct In0 as [I0 I1], G as [G0 G1]. cbn [map] in Es. injection Es as Eg Es. assert (Hf : In f fn) by (rewrite Ef; apply in_or_app; right; now left).
      destruct (wf_tags c fn f W Hf) as (Wf & T & Tk).
      destruct (all3_length _ _ _ _ Sp) as [Lp Lp']. destruct (all3_length _ _ _ _ Rp) as [_ Lv].
      assert (Nf : nth_error fn (length pre) = Some f) by (rewrite Ef; rewrite nth_error_app2 by lia; now rewrite Nat.sub_diag).
      assert (F0 : snd na <> ANone -> fits (snd f) (snd na)) by (apply F; now left).
      assert (F1 : forall g nb, In (g, nb) (combine l la) -> snd nb <> ANone -> fits (snd g) (snd nb)) by (intros; apply F; auto; now right).
      assert (Step : forall ch1 m1 vp1 v1 na1 k1, m1 = match ch1 with Some _ => true | None => false end -> cur vs0 ch1 = (vp1 ++ [v1]) ++ vr -> simf f na na1 -> crep Own true f na1 v1 ->
         all3 (crep Own true) pre lp' vp1 -> (ch1 = None -> k1 = None) -> (S (length pre) <= j -> k1 = None)%nat -> (k1 = Some k \/ nth_error ((vp1 ++ [v1]) ++ vr) j = Some VVoid) ->
         (ch <> None \/ dict_get li (fname f) <> None -> ch1 <> None) ->
         exists k2 ch' m' la', open_keys any fs i j tbl li ls (S (length pre)) (OObj k1 (VSeq t no_enc ch1 m1 None)) = Ok (OObj k2 (VSeq t no_enc ch' m' None)) /\
        m' = match ch' with Some _ => true | None => false end /\ all3 simf fn (lp ++ na :: la) la' /\ all3 (crep Own true) fn la' (cur vs0 ch') /\
        (k2 = Some k \/ nth_error (cur vs0 ch') j = Some VVoid) /\
        ((ch <> None \/ exists g, In g (f :: l) /\ dict_get li (fname g) <> None) -> ch' <> None)).
      { intros ch1 m1 vp1 v1 na1 k1 M1 C1 S1 R1 Rp1 Kc1 Kp1 Kv1 N1.
        destruct (IH ls (pre ++ [f]) ch1 m1 k1 (lp ++ [na]) (lp' ++ [na1]) (vp1 ++ [v1]) vr la) as (k2 & ch' & m' & la' & K1 & K2 & K3 & K4 & K5 & K6); auto.
        { rewrite <- app_assoc. exact Ef. } { rewrite app_length. cbn. rewrite Nat.add_1_r. exact Kp1. }
        { apply all3_app; cbn; auto. } { apply all3_app; cbn; auto. } { now rewrite <- app_assoc. }
        rewrite app_length in K1. cbn in K1. rewrite Nat.add_1_r in K1. rewrite <- app_assoc in K3.
        exists k2, ch', m', la'. do 5 (split; [assumption|]).
        intros H. apply K6. destruct H as [H|(g0 & [<-|Hg] & H)]; [left; apply N1; auto|left; apply N1; auto|right; eauto]. }
      cbn [open_keys]. rewrite Eg. destruct (dict_get li (f_name (fst f))) as [x|] eqn:Ex.
      + destruct (assign_ok c fn W open_contracts li f na x Hf G0 Ex F0) as (nv & nv1 & y & na1 & E1 & E2 & S1 & R1 & _).
        assert (Pre : prepared any fs i j tbl (ASet (length pre) x) (OObj k' (VSeq t no_enc ch m0 None)) = (OObj k' (VSeq t no_enc (Some (vp ++ v :: vr)) m0 None), Ok tt)).
        { rewrite <- Ec. unfold prepared. cbn [w_value]. destruct ch as [l0|]; [reflexivity|]. cbn [parses]. unfold open_parse. cbn [w_value no_enc e_contents]. fold FA.
          rewrite (twin_init j _ _ 0 (fa_twin None)), E0. rewrite (Kc eq_refl). cbn [cur]. pose proof (nth_nonnil _ _ _ _ Hi) as Nn. destruct fs; [discriminate|reflexivity]. }
        unfold open_act. rewrite Pre. cbn [w_class w_value]. destruct (Nat.eqb (length pre) j) eqn:Ej.
        * apply Nat.eqb_eq in Ej. assert (Li : (i < length pre)%nat) by lia.
          assert (Hlp : nth_error lp i = Some (nm, APrim (NText o))) by (rewrite nth_error_app1 in Ho by lia; exact Ho).
          assert (Hpi : nth_error pre i = Some fi) by (pose proof fn_i as Q; rewrite Ef, nth_error_app1 in Q by lia; exact Q).
          destruct (all3_nth _ _ _ _ _ _ Sp Hpi) as (nx & ny & Hnx & Hny & Sxy). assert (nx = (nm, APrim (NText o))) by congruence. subst nx. apply simf_oid in Sxy. subst ny.
          destruct (all3_nth _ _ _ _ _ _ Rp Hpi) as (nz & w & Hnz & Hw & Kw). assert (nz = (nm, APrim (NText o))) by congruence. subst nz.
          destruct (oid_at Own true (vp ++ v :: vr) nm w) as (w' & Ed & Kw' & _); auto; [rewrite nth_error_app1; [auto|apply nth_error_Some; congruence]|].
          unfold open_set. cbn [w_value w_class]. unfold det in Ed. rewrite Ed. fold FA. rewrite fa_some. unfold seq_act, set_seq. cbn [ensure].
          assert (Nf' : nth_error (fields fn) j = Some (fmeth f)). { unfold fields. rewrite <- Ej. erewrite map_nth_error by exact Nf. reflexivity. }
          rewrite Nf', E1. cbn [snd fmeth]. rewrite E2. cbn [reply].
          assert (Up : update (update (vp ++ v :: vr) i w') j nv1 = (update vp i w' ++ [nv1]) ++ vr).
          { rewrite <- app_assoc. cbn [app]. rewrite <- Ej, Lv. replace (update (vp ++ v :: vr) i w') with (update vp i w' ++ v :: vr); [|].
            - replace (length vp) with (length (update vp i w')) by apply update_length. apply update_mid.
            - assert (Lvi : (i < length vp)%nat) by lia. clear -Lvi. revert i Lvi. induction vp as [|u vp IHv]; intros [|i] L; cbn in *; try lia; auto. f_equal. apply IHv. lia. }
          rewrite Up. apply (Step _ _ (update vp i w') nv1 na1); auto; try discriminate.
          -- replace lp' with (update lp' i (nm, APrim (NText o))) by (now apply update_same). eapply all3_update; [|exact Rp|exact Hpi|exact Kw']. auto.
          -- intros H. exfalso. lia.
        * apply Nat.eqb_neq in Ej. fold FA. unfold seq_act, set_seq. cbn [ensure].
          assert (Nf' : nth_error (FA k') (length pre) = Some (fmeth f)). { rewrite fa_nth by auto. unfold fields. erewrite map_nth_error by exact Nf. reflexivity. }
          rewrite Nf', E1. cbn [snd fmeth]. rewrite E2. cbn [reply]. rewrite Lv, update_mid. rewrite <- Lv.
          apply (Step _ _ vp nv1 na1); auto; try discriminate; try (cbn; now rewrite <- app_assoc).
          -- intros H. apply Kp. lia.
          -- destruct Kv as [Kv|Kv]; auto. right. rewrite <- app_assoc. cbn [app]. rewrite <- Kv. apply nth_swap. now rewrite <- Lv.
      + destruct G0 as (G0 & G0'). unfold fname in G0'. rewrite Ex in G0'. unfold init_of in I0.
        destruct (fpres f) as [| |d] eqn:X; [contradiction| |].
        * subst v. apply (Step _ _ vp VVoid na); auto; try (rewrite <- app_assoc; assumption); [apply simf_cases; auto 10|apply crep_cases; auto| |].
          -- intros H. apply Kp. lia.
          -- intros [H|H]; auto.
        * destruct I0 as (ad & a' & D & S1 & R). assert (ad = snd na) by exact (denotes_fun _ _ _ _ Wf D G0'). subst ad.
          apply (Step _ _ vp v (fname f, a')); auto; try (rewrite <- app_assoc; assumption); [apply simf_cases; cbn; auto 10|apply crep_cases; cbn; auto| |].
          -- intros H. apply Kp. lia.
          -- intros [H|H]; auto.
  Qed.

  Lemma names_same (g : ops) : map fst (update (fields fs) j (fst fj, g)) = map fst fn.
  Proof.
    unfold fn. rewrite !map_update. cbn [fst]. unfold fields. rewrite map_map. reflexivity.
  Qed.
  Lemma known_names (L L' : list (fld * ops)) d : map fst L = map fst L' -> known_keys L d = known_keys L' d.
  Proof.
    intros E. unfold known_keys. induction d as [|x d IH]; auto. cbn [forallb]. rewrite IH. f_equal. clear -E. revert L' E.
    induction L as [|f L IH]; intros [|g L'] E; try discriminate; auto. injection E as E1 E2. cbn [existsb]. now rewrite E1, (IH L' E2).
  Qed.
  Lemma open_make_ok p li la : (i < j)%nat -> taggable (SSeq c fn) p -> denotes (SSeq c fn) (ADict li) (ADict la) -> fits (SSeq c fn) (ADict la) -> vok (ADict la) ->
    exists X la', open_make any c fs i j tbl p li = Ok X /\ sim (SSeq c fn) (ADict la) (ADict la') /\ orep Own true (tags_of c p) (ADict la') X.
  Proof.
    intros Lij T D F Vo. pose proof Vo as (la0 & nm & [= <-] & Hn). cbn [denotes] in D. destruct D as (Nl & Dk & D).
    destruct (init_ok c fn W open_contracts fn (fun f Hf => Hf)) as (vs0 & E0 & I0). set (t := tags_of c p).
    assert (Ls : map fst fs = map fst fn). { unfold fn. rewrite map_update. cbn [fst]. symmetry. apply update_same. erewrite map_nth_error by exact Hj. reflexivity. }
    assert (V0 : nth_error vs0 j = Some VVoid).
    { destruct (all2_nth _ _ _ _ _ I0 fn_j) as (v0 & Hv & H). unfold init_of in H. cbn [fpres fst] in H. pose proof no_default as Nd. unfold fpres in H. cbn [fst] in H.
      destruct (f_pres (fst fj)) as [| |d] eqn:E; [congruence..|]. now destruct (Nd d). }
    destruct (open_keys_make li t vs0 nm Lij E0 fn fs [] None false None [] [] [] vs0 la eq_refl Ls eq_refl eq_refl (fun _ => eq_refl) (fun _ => eq_refl)
      (or_intror V0) Logic.I Logic.I Hn I0 D (fits_each c fn W la F)) as (k2 & ch' & m' & la' & K1 & K2 & K3 & K4 & K5 & K6).
    unfold open_make. rewrite (init_tags c p (proj1 T)). cbn [bind]. fold t. cbn [length] in K1. rewrite K1. cbn [bind]. fold FA.
    rewrite (known_names (FA None) (fields fn)). 2: { rewrite fa_eq, fn_eq, !names_same. reflexivity. }
    assert (Nc : ch' <> None).
    { apply K6. right. destruct li as [|[n x] li]; [contradiction|]. specialize (Dk n x (or_introl eq_refl)). apply in_map_iff in Dk as (f & E & Hf).
      exists f. split; auto. cbn. rewrite E. replace (eqb_text n n) with true; [discriminate|]. symmetry. now apply eqb_text_spec. }
    rewrite (known_ok fn li Dk). destruct ch' as [l|]; [|contradiction]. cbn [cur] in *. subst m'.
    eexists _, la'. split; [reflexivity|]. cbn [app] in K3. split; auto. assert (S1 : sim (SSeq c fn) (ADict la) (ADict la')) by exact K3.
    split; [|split; [eapply sim_names; eauto|]].
    - cbn [w_value]. apply rep_seq_eq. exists la', t, no_enc, (Some l), true, None. do 4 (split; [reflexivity|]). split; [discriminate|]. split; [discriminate|]. split; auto.
    - cbn [w_value w_class fine]. split; auto. apply all3_length in K4. rewrite fn_length in K4. destruct K4; congruence.
  Qed.

  (* ---- copies ---- *)
  Lemma cold_open_parse rc X : cold (w_value X) -> cold (w_value (fst (open_parse any fs i j tbl rc X))).
  Proof.
    intros C. unfold open_parse. destruct X as [k' v]. cbn [w_value] in *. destruct v as [| |b|t e ch m0 nc|t e ch m0 nc|t e kk w]; try exact C.
    assert (N : nc = None) by (destruct nc; [discriminate|reflexivity]). rewrite N. destruct (e_contents e) as [cont|].
    - destruct (open_children _ _ _ _ _) as [l|x]; [|reflexivity]. destruct (match nth_error l j with Some (VLazy _) => _ | _ => _ end) as [l1 [k2|x]]; [|reflexivity].
      destruct rc; [|reflexivity]. destruct (build_all _ _); reflexivity.
    - match goal with |- context [match ?l with [] => _ | _ :: _ => _ end] => destruct l end; [reflexivity|]. destruct (init_children _); reflexivity.
  Qed.
  Lemma cold_seq_act F x v : x <> ARead -> cold v -> cold (fst (seq_act F x v)).
  Proof.
    intros N C. destruct x; unfold seq_act, reply; cbn [fst]; try congruence; auto.
    - now apply cold_dump.
    - now apply cold_contents.
    - now apply cold_len.
    - now apply cold_get.
    - now apply cold_set.
    - now apply cold_del.
  Qed.
  Lemma cold_open_act x X : x <> ARead -> cold (w_value X) -> cold (w_value (fst (open_act any fs i j tbl x X))).
  Proof.
    intros N C. assert (P : cold (w_value (fst (prepared any fs i j tbl x X)))) by (unfold prepared; destruct (parses _ _ _); [now apply cold_open_parse|exact C]).
    unfold open_act. destruct (prepared any fs i j tbl x X) as [X1 [[]|y]]; [|exact P]. cbn [fst] in P.
    assert (G : cold (w_value (fst (let '(v, r) := seq_act (FA (w_class X1)) x (w_value X1) in (OObj (w_class X1) v, r))))).
    { pose proof (cold_seq_act (FA (w_class X1)) x (w_value X1) N P) as G. destruct (seq_act _ x _). exact G. }
    destruct x; try exact G. destruct (Nat.eqb i0 j); [|exact G]. unfold open_set. destruct X1 as [k1 v1]. cbn [w_value] in *.
    destruct v1 as [| |b|t e [l|] m0 nc|t e ch m0 nc|t e kk w]; try exact P. destruct (determine any fs i j tbl l) as [l1 [k2|y]]; [|exact P].
    pose proof (cold_seq_act (fields_as any fs j tbl k2) (ASet j x) (VSeq t e (Some l1) m0 nc) ltac:(discriminate) P) as H. destruct (seq_act _ (ASet j x) _). exact H.
  Qed.
  Lemma cold_put n w v : (match v with VChoice _ _ _ _ => False | _ => True end) -> cold v -> cold (put_inner n w v).
  Proof. intros H C. destruct v as [| |b|t e [l|] m0 nc|t e [l|] m0 nc|t e kk w']; try exact C. contradiction. Qed.
  Lemma cold_open_through p x X : (p = [] -> x <> ARead) -> cold (w_value X) -> cold (w_value (fst (open_through any fs i j tbl p x X))).
  Proof.
    intros N C. destruct p as [|n r]; cbn [open_through]; [apply cold_open_act; auto|].
    pose proof (cold_open_act (AGet n) X ltac:(discriminate) C) as H. destruct (open_act any fs i j tbl (AGet n) X) as [X1 [y|y]]; [|exact H]. cbn [fst] in H.
    destruct (open_inner fs j tbl n X1) as [[s' w]|] eqn:E; [|exact H]. destruct (through r x s' w) as [w' y']. cbn [fst w_value]. apply cold_put; [|exact H].
    unfold open_inner in E. destruct (w_value X1); auto. discriminate.
  Qed.
  Lemma cold_open_after : forall h X, unread (SSeq c fn) h = true -> cold (w_value X) -> cold (w_value (open_after any fs i j tbl h X)).
  Proof.
    induction h as [|[p x] h IH]; intros X U C; [exact C|]. unfold unread in U. cbn [forallb] in U. apply andb_true_iff in U as [U1 U2].
    cbn [open_after]. apply IH; [exact U2|]. apply cold_open_through; [|exact C]. intros -> ->. discriminate.
  Qed.
  Lemma cold_open_keys d : forall l n X Y, open_keys any fs i j tbl d l n X = Ok Y -> cold (w_value X) -> cold (w_value Y).
  Proof.
    induction l as [|f l IH]; intros n X Y E C; cbn [open_keys] in E; [injection E as <-; exact C|]. destruct (dict_get _ _) as [b|]; [|eapply IH; eauto].
    pose proof (cold_open_act (ASet n b) X ltac:(discriminate) C) as H. destruct (open_act _ _ _ _ _ _ X) as [X1 [y|y]]; [|discriminate]. eapply IH; eauto.
  Qed.
  Lemma cold_open_make p li X : open_make any c fs i j tbl p li = Ok X -> cold (w_value X).
  Proof.
    unfold open_make. intros E. apply bind_ok in E as (t & _ & E). apply bind_ok in E as (Y & E & H). destruct (known_keys _ _); [|discriminate]. injection H as <-.
    eapply cold_open_keys; eauto. reflexivity.
  Qed.

  (* a copy is the copy of the sequence it stands for, with children still to be read *)
  Lemma copy_same q n t a X u : orep q n t a X -> copy_seq (FA (w_class X)) false u (w_value X) = copy_seq (fields fn) false u (w_value X).
  Proof. intros (_ & _ & F). unfold copy_seq. now rewrite (proj1 (contents_alike _ _ _ (fine_good _ _ F))). Qed.
  Lemma copy_shape F u v w : copy_seq F false u v = Ok w -> exists t e m0 nc, w = VSeq t e None m0 nc.
  Proof. unfold copy_seq. destruct (contents_seq F false v) as [v1 [x|y]]; [|discriminate]. intros E. injection E as <-. eauto. Qed.

  Theorem open_copies_ok q nn t a X : tagging_ok t -> orep (mode_of q) nn t a X -> cold (w_value X) -> open_copies any fs i j tbl c q (SSeq c fn) t a X.
  Proof.
    intros Ht O Co h Sf Sp Tr. destruct (open_history t Ht h a q nn X Sf Sp O) as (b & L & Rb). exists b. split; auto. intros d D.
    set (Y := open_after any fs i j tbl h X) in *. pose proof Rb as (R & Vo & Fi).
    assert (A : acc (mode_of (trusted (SSeq c fn) h q)) = true) by (destruct (trusted (SSeq c fn) h q); auto; congruence).
    pose proof (der_fits _ _ _ _ Ht D) as F.
    assert (U : unread (SSeq c fn) h = true -> negb (has_dict (w_value Y)) = true) by (intros U; apply negb_true_iff; now apply cold_open_after).
    assert (K : forall t' w e, tagging_ok t' -> rep Own (negb (has_dict (w_value Y))) (SSeq c fn) t' e w -> sim (SSeq c fn) b e ->
      (exists t0 e0 m0 nc, w = VSeq t0 e0 None m0 nc) -> open_tracks any fs i j tbl (unread (SSeq c fn) h) Clean (SSeq c fn) t' e (OObj None w)).
    { intros t' w e T' Rw Se (t0 & e0 & m0 & nc & ->). 
      assert (G : open_tracks any fs i j tbl (negb (has_dict (w_value Y))) Clean (SSeq c fn) t' e (OObj None (VSeq t0 e0 None m0 nc))).
      { apply open_tracks_ok; auto. split; [exact Rw|]. split; [eapply sim_names; eauto|exact Logic.I]. }
      intros h' S' Sp'. destruct (G h' S' Sp') as (b' & L' & H1 & H2). exists b'. split; auto. split; auto. intros p s' t1 g Sx.
      destruct (H2 p s' t1 g Sx) as ((x & E & Sh) & Rest). split; auto. exists x. split; auto. }
    split.
    - destruct (K_copy (SSeq c fn) (contract_all _ W) _ _ _ b _ A Ht F R) as (w & e & E & S & Rc & _). exists (OObj None w), e.
      cbn [methods x_copy seq_ops] in E. pose proof (copy_same _ _ _ _ Y (tagging_of (w_value Y)) Rb) as Cs. unfold FA in Cs. unfold open_copy. rewrite Cs.
      change (map (fun fs : fld * spec => (fst fs, methods (snd fs))) fn) with (fields fn) in E. rewrite E. cbn [bind]. split; auto. split; auto.
      apply K; auto. eapply copy_shape; eauto.
    - intros p T. destruct (K_retag (SSeq c fn) (contract_all _ W) p _ _ _ b _ A T Ht F R) as (w & e & E & S & Rc & _). exists (OObj None w), e.
      cbn [methods x_retag seq_ops] in E. unfold open_retag. apply bind_ok in E as (u & Eu & E). pose proof (copy_same _ _ _ _ Y u Rb) as Cs. unfold FA in Cs. rewrite Eu. cbn [bind]. rewrite Cs.
      change (map (fun fs : fld * spec => (fst fs, methods (snd fs))) fn) with (fields fn) in E. rewrite E. cbn [bind]. split; auto. split; auto.
      apply K; auto; [exact (tok _ p W T)|eapply copy_shape; eauto].
  Qed.

  (* the three ways to get an object *)
  Theorem open_made p li a d : (i < j)%nat -> taggable (SSeq c fn) p -> denotes (SSeq c fn) (ADict li) a -> der (SSeq c fn) (stags (SSeq c fn) p) a d -> vok a ->
    exists X a', open_make any c fs i j tbl p li = Ok X /\ sim (SSeq c fn) a a' /\ open_follows any fs i j tbl Clean (SSeq c fn) (stags (SSeq c fn) p) a' X /\
      open_copies any fs i j tbl c Clean (SSeq c fn) (stags (SSeq c fn) p) a' X.
  Proof.
    intros Lij T Di D Vo. pose proof (tok _ p W T) as Ht. destruct a as [| |la| | |]; try (now destruct Vo as (? & ? & ? & _)).
    destruct (open_make_ok p li la Lij T Di (der_fits _ _ _ _ Ht D) Vo) as (X & la' & E & S & O). exists X, (ADict la'). split; auto. split; auto.
    split; [apply open_follows_ok; auto|]. eapply (open_copies_ok Clean); eauto. eapply cold_open_make; eauto.
  Qed.
  Theorem open_loaded p a d r strict : taggable (SSeq c fn) p -> der (SSeq c fn) (stags (SSeq c fn) p) a d -> (strict = true -> r = []) -> vok a ->
    exists X a', open_load any c fs j tbl p (d ++ r) strict = Ok X /\ sim (SSeq c fn) a a' /\ open_follows any fs i j tbl Clean (SSeq c fn) (stags (SSeq c fn) p) a' X /\
      open_copies any fs i j tbl c Clean (SSeq c fn) (stags (SSeq c fn) p) a' X.
  Proof.
    intros T D Hr Vo. pose proof (tok _ p W T) as Ht. destruct (der_info (SSeq c fn) p a d W D) as (x & Bi & _ & Ei & _). subst d.
    destruct (K_build (SSeq c fn) (contract_all _ W) p None x a T Logic.I Bi D) as (v & a' & E & S & (R & _)).
    assert (El : cload (SSeq c fn) p (encoding_of x ++ r) strict = Ok v).
    { unfold cload. rewrite parse__0_complete by auto. cbn [bind]. destruct strict; cbn [andb]; auto. rewrite (Hr eq_refl), app_nil_r, Z.eqb_refl. exact E. }
    destruct (open_load_ok _ _ _ _ El) as [Eo Fi]. exists (OObj None v), a'. split; auto. split; auto.
    assert (O : orep Own true (stags (SSeq c fn) p) a' (OObj None v)) by (split; auto; split; auto; eapply sim_names; eauto).
    split; [apply open_follows_ok; auto|]. eapply (open_copies_ok Clean); eauto. exact (loaded_cold _ _ _ _ _ El).
  Qed.
  Theorem open_loaded_ber p a d r strict : taggable (SSeq c fn) p -> ber_encodes (SSeq c fn) (stags (SSeq c fn) p) a d -> (strict = true -> r = []) -> vok a ->
    exists X a', open_load any c fs j tbl p (d ++ r) strict = Ok X /\ sim (SSeq c fn) a a' /\ open_follows any fs i j tbl Lost (SSeq c fn) (stags (SSeq c fn) p) a' X /\
      open_copies any fs i j tbl c Lost (SSeq c fn) (stags (SSeq c fn) p) a' X.
  Proof.
    intros T D Hr Vo. pose proof (tok _ p W T) as Ht. destruct (load_rep _ p a d r strict W T D Hr) as (v & a' & El & S & R).
    destruct (open_load_ok _ _ _ _ El) as [Eo Fi]. exists (OObj None v), a'. split; auto. split; auto.
    assert (O : orep Stale true (stags (SSeq c fn) p) a' (OObj None v)) by (split; auto; split; auto; eapply sim_names; eauto).
    split; [apply (open_follows_ok Lost); auto|]. eapply (open_copies_ok Lost); eauto. exact (loaded_cold _ _ _ _ _ El).
  Qed.
End Open.

Lemma key_index_in : forall tbl o s n, NoDup (map fst tbl) -> In (o, s) tbl ->
  exists k, key_index tbl o n = Some (n + k)%nat /\ nth_error tbl k = Some (o, s).
Proof.
  induction tbl as [|[o' s'] tbl IH]; intros o s n Nd Hin; [contradiction|]. cbn [map fst] in Nd. inversion Nd as [|? ? N1 N2]; subst. cbn [key_index].
  destruct Hin as [[= -> ->]|Hin].
  - exists 0%nat. rewrite Nat.add_0_r. replace (eqb_text o o) with true by (symmetry; now apply eqb_text_spec). auto.
  - replace (eqb_text o' o) with false.
    + destruct (IH o s (S n) N2 Hin) as (k & E & H). exists (S k). rewrite E. split; auto. f_equal. lia.
    + symmetry. destruct (eqb_text o' o) eqn:E; auto. apply eqb_text_spec in E. subst. exfalso. apply N1. apply in_map_iff. exists (o, s). auto.
Qed.

Lemma closed_eq c fs j s f : nth_error fs j = Some f -> closed c fs j s = SSeq c (update fs j (fst f, s)).
Proof. intros H. unfold closed. now rewrite H. Qed.

Section Final.
  Variable any : ops.
  Variable c : pcls.
  Variable fs : list (fld * spec).
  Variables i j : nat.
  Variable m : list (text * text).
  Variable tbl : list (text * spec).
  Variables (o : text) (s : spec).

  Theorem made_follows p l a d : open_pair fs i j m -> entry_for tbl o s -> names_oid i o a ->
    let S := closed c fs j s in wf S -> taggable S p -> denotes S (ADict l) a -> der S (stags S p) a d ->
    exists x a', open_make any c fs i j tbl p l = Ok x /\ sim S a a' /\ open_follows any fs i j tbl Clean S (stags S p) a' x /\
      open_copies any fs i j tbl c Clean S (stags S p) a' x.
  Proof.
    intros (Lij & (fi & ci & Hi & Si & Pi) & (fj & Hj & Pj)) (Nd & Hin) Vo. destruct (key_index_in tbl o s 0 Nd Hin) as (k & Hx & Hk).
    rewrite (closed_eq c fs j s fj Hj). cbv zeta. intros W T Di D. assert (Hij : i <> j) by lia.
    eapply open_made; eauto.
  Qed.
  Theorem loaded_follows p a d r strict : open_pair fs i j m -> entry_for tbl o s -> names_oid i o a ->
    let S := closed c fs j s in wf S -> taggable S p -> der S (stags S p) a d -> (strict = true -> r = []) ->
    exists x a', open_load any c fs j tbl p (d ++ r) strict = Ok x /\ sim S a a' /\ open_follows any fs i j tbl Clean S (stags S p) a' x /\
      open_copies any fs i j tbl c Clean S (stags S p) a' x.
  Proof.
    intros (Lij & (fi & ci & Hi & Si & Pi) & (fj & Hj & Pj)) (Nd & Hin) Vo. destruct (key_index_in tbl o s 0 Nd Hin) as (k & Hx & Hk).
    rewrite (closed_eq c fs j s fj Hj). cbv zeta. intros W T D Hr. assert (Hij : i <> j) by lia.
    eapply open_loaded; eauto.
  Qed.
  Theorem ber_follows p a d r strict : open_pair fs i j m -> entry_for tbl o s -> names_oid i o a ->
    let S := closed c fs j s in wf S -> taggable S p -> ber_encodes S (stags S p) a d -> (strict = true -> r = []) ->
    exists x a', open_load any c fs j tbl p (d ++ r) strict = Ok x /\ sim S a a' /\ open_follows any fs i j tbl Lost S (stags S p) a' x /\
      open_copies any fs i j tbl c Lost S (stags S p) a' x.
  Proof.
    intros (Lij & (fi & ci & Hi & Si & Pi) & (fj & Hj & Pj)) (Nd & Hin) Vo. destruct (key_index_in tbl o s 0 Nd Hin) as (k & Hx & Hk).
    rewrite (closed_eq c fs j s fj Hj). cbv zeta. intros W T D Hr. assert (Hij : i <> j) by lia.
    eapply open_loaded_ber; eauto.
  Qed.
End Final.
