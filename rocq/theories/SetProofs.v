(* Sets with named members follow their values: an object of a Set does what an object of
   the Sequence with the same members does, but for the order of the members in its
   contents. *)
Require Import Verif.Base Verif.BaseFacts Verif.IntModel Verif.IntSpec Verif.IntProofs
  Verif.ParserModel Verif.ParserSpec Verif.ParserProofs Verif.ParserFacts Verif.Text Verif.CodecModel Verif.TagSpec Verif.TagProofs
  Verif.PrimModel Verif.PrimSpec Verif.PrimProofs Verif.PrimSet Verif.PrimDump Verif.PrimLoad Verif.HistSpec Verif.PrimHist
  Verif.PrimRead Verif.PrimSide Verif.ContModel Verif.ContSpec Verif.ContBase Verif.ContRep Verif.ContPrim Verif.ContSeq Verif.ContSeq2 Verif.ContList
  Verif.ContChoice Verif.ContPath Verif.ContHistSpec Verif.ContHist Verif.ContHist2 Verif.SetSpec.
Require Import Sorting.Permutation Sorting.Sorted.

(* ---- headers depend on the length of the contents only ---- *)
Lemma dump_header_len c m t x y : len x = len y -> dump_header c m t x = dump_header c m t y.
Proof. intros E. unfold dump_header. now rewrite E. Qed.
Lemma wrap_same_len x y : len x = len y -> forall ex h, wrap ex h x = wrap ex h y.
Proof.
  intros E. unfold wrap. induction ex as [|ct ex IH]; intros h; cbn; auto.
  rewrite (dump_header_len (fst ct) 1 (snd ct) (h ++ x) (h ++ y)) by (rewrite !len_app; lia). apply IH.
Qed.
Lemma full_header_len t m x y : len x = len y -> full_header t m x = full_header t m y.
Proof. intros E. unfold full_header. rewrite (dump_header_len _ _ _ x y E). now apply wrap_same_len. Qed.
Lemma dump_header_pos c m t x : dump_header c m t x <> [].
Proof.
  unfold dump_header. cbn zeta. destruct (len x <=? 127); intros H; apply app_eq_nil in H as [_ H]; discriminate.
Qed.
Lemma wrap_pos x : forall ex h, h <> [] -> wrap ex h x <> [].
Proof.
  unfold wrap. induction ex as [|ct ex IH]; intros h H; cbn; auto. apply IH. intros E. apply app_eq_nil in E as [E _]. now apply dump_header_pos in E.
Qed.
Lemma full_header_pos t m x : full_header t m x <> [].
Proof. apply wrap_pos, dump_header_pos. Qed.
Lemma encodes_pos s t a d : is_choice s = false -> encodes s t a d -> d <> [].
Proof.
  destruct s; cbn; intros Hc H; try discriminate; destruct a; try contradiction.
  - destruct H as (_ & x & _ & ->). unfold object_bytes. intros E. apply app_eq_nil in E as [E _]. now apply full_header_pos in E.
  - destruct H as (ys & -> & _). unfold cbytes. intros E. apply app_eq_nil in E as [E _]. now apply full_header_pos in E.
  - destruct H as (ds & _ & ->). unfold cbytes. intros E. apply app_eq_nil in E as [E _]. now apply full_header_pos in E.
  - destruct H as (ds & es & _ & _ & _ & ->). unfold cbytes. intros E. apply app_eq_nil in E as [E _]. now apply full_header_pos in E.
Qed.

(* ---- sorting ---- *)
Definition piece : Type := ((fld * spec) * bytes).
Definition number (x : piece) : Z := t_tag (ftags (fst x)).
Fixpoint ins (x : piece) (l : list piece) : list piece :=
  match l with
  | [] => [x]
  | y :: r => if number y <=? number x then y :: ins x r else x :: l
  end.
Definition srt (l : list piece) : list piece := fold_left (fun s x => ins x s) l [].
Definition tagged (x : piece) : option Z * bytes := (Some (number x), snd x).
Definition keyed (x : piece) : Z * bytes := (number x, snd x).

Lemma ins_perm x l : Permutation (x :: l) (ins x l).
Proof.
  induction l as [|y l IH]; cbn; auto. destruct (number y <=? number x); auto.
  eapply Permutation_trans; [apply perm_swap|]. now constructor.
Qed.
Lemma srt_perm_from l : forall s, Permutation (s ++ l) (fold_left (fun s x => ins x s) l s).
Proof.
  induction l as [|x l IH]; intros s; cbn; [now rewrite app_nil_r|]. eapply Permutation_trans; [|apply IH].
  eapply Permutation_trans; [apply Permutation_sym, Permutation_middle|]. change (x :: s ++ l) with ((x :: s) ++ l). apply Permutation_app_tail. apply ins_perm.
Qed.
Lemma srt_perm l : Permutation l (srt l).
Proof. exact (srt_perm_from l []). Qed.

Definition num_le (x y : piece) : Prop := number x <= number y.
Lemma ins_sorted x l : StronglySorted num_le l -> StronglySorted num_le (ins x l).
Proof.
  induction 1 as [|y l S IH F]; cbn.
  - repeat constructor.
  - destruct (number y <=? number x) eqn:E.
    + constructor; auto. eapply Permutation_Forall; [apply ins_perm|]. constructor; auto. unfold num_le. lia.
    + constructor; [constructor; auto|]. constructor; [unfold num_le; lia|]. eapply Forall_impl; [|exact F]. unfold num_le. intros z. lia.
Qed.
Lemma srt_sorted l : StronglySorted num_le (srt l).
Proof.
  unfold srt. assert (G : forall s, StronglySorted num_le s -> StronglySorted num_le (fold_left (fun s x => ins x s) l s)); [|apply G; constructor].
  induction l as [|x l IH]; intros s H; cbn; auto. apply IH. now apply ins_sorted.
Qed.
Lemma keyed_ins x l : insert_member (keyed x) (map keyed l) = map keyed (ins x l).
Proof. induction l as [|y l IH]; cbn; auto. destruct (number y <=? number x); cbn; auto. now rewrite IH. Qed.
Lemma sort_tagged l : sort_members (map tagged l) = Ok (concat (map snd (srt l))).
Proof.
  assert (N : existsb (fun x : option Z * bytes => match fst x with None => true | _ => false end) (map tagged l) = false) by (induction l; cbn; auto).
  assert (G : forall s, fold_left (fun s (x : option Z * bytes) => insert_member (match fst x with Some t => t | None => 0 end, snd x) s) (map tagged l) (map keyed s) =
     map keyed (fold_left (fun s x => ins x s) l s)).
  { clear N. induction l as [|x l IH]; intros s; cbn; auto. change (number x, snd x) with (keyed x). rewrite keyed_ins. apply IH. }
  assert (E : forall l, map snd (map keyed l) = map snd l) by (intros; rewrite map_map; apply map_ext; reflexivity).
  assert (M : Ok (concat (map snd (fold_left (fun s (x : option Z * bytes) => insert_member (match fst x with Some t => t | None => 0 end, snd x) s) (map tagged l) []))) =
     Ok (concat (map snd (srt l)))) by (change (@nil (Z * bytes)) with (map keyed []); rewrite G, E; reflexivity).
  destruct l as [|x [|y l]]; [reflexivity|cbn; now rewrite app_nil_r|]. unfold sort_members. cbn [map] in N, M |- *. now rewrite N.
Qed.
Lemma concat_perm_len (l m : list bytes) : Permutation l m -> len (concat l) = len (concat m).
Proof. induction 1; cbn [concat]; auto; rewrite ?len_app; lia. Qed.

Definition filled (x : piece) : bool := match snd x with [] => false | _ => true end.
Definition led (x : piece) : (Z * Z) * bytes := (lead (fst x), snd x).
Lemma filled_led fs : forall ys, map led (filter filled (combine fs ys)) = filter written (combine (map lead fs) ys).
Proof.
  induction fs as [|f fs IH]; intros [|y ys]; cbn; auto. unfold filled, written. cbn. destruct y; cbn; rewrite <- IH; reflexivity.
Qed.

Definition enc_set (fs : list (fld * spec)) (la : list (text * aval)) (x : bytes) : Prop :=
  exists ys zs, all3 enc_field fs la ys /\ Permutation (filter filled (combine fs ys)) zs /\
    StronglySorted (fun x y => tag_le (fst x) (fst y)) (map led zs) /\ x = concat (map snd zs).

Lemma combine_fst {A B} (l : list A) : forall (m : list B) x, In x (combine l m) -> In (fst x) l.
Proof. induction l as [|y l IH]; intros [|z m] x; cbn; try tauto. intros [<-|H]; cbn; auto. right. eapply IH; eauto. Qed.
Lemma sorted_led fs ys : orderly fs -> StronglySorted (fun x y => tag_le (fst x) (fst y)) (map led (srt (filter filled (combine fs ys)))).
Proof.
  intros O. set (l := filter filled (combine fs ys)). assert (I : forall x, In x (srt l) -> In (fst x) fs).
  { intros x Hx. apply (Permutation_in _ (Permutation_sym (srt_perm l))) in Hx. unfold l in Hx. apply filter_In in Hx as [Hx _]. eapply combine_fst; eauto. }
  pose proof (srt_sorted l) as S. induction S as [|x r S IH F]; cbn; constructor.
  - apply IH. intros; apply I; now right.
  - rewrite Forall_map. rewrite Forall_forall in F |- *. intros y Hy. cbn. apply O; [apply I; now left|apply I; now right|]. exact (F y Hy).
Qed.

Lemma enc_field_fun f na y y' : wf (snd f) -> enc_field f na y -> enc_field f na y' -> y = y'.
Proof.
  intros W H K. apply encf_cases in H as (_ & H), K as (_ & K).
  assert (N : forall z, encodes (snd f) (ftags f) (snd na) z -> snd na <> ANone) by (intros z Hz; eapply encodes_not_none; eauto).
  assert (U : forall a z z', encodes (snd f) (ftags f) a z -> encodes (snd f) (ftags f) a z' -> z = z') by (intros; eapply encodes_fun; eauto).
  destruct H as [(X & Y & H)|[(X & Y & H)|[(X & H)|(d & w & X & H & H')]]]; destruct K as [(X' & Y' & K)|[(X' & Y' & K)|[(X' & K)|(d' & w' & X' & K & K')]]];
    try congruence; eauto; try contradiction.
  assert (d' = d) by congruence. subst d'. assert (w' = w) by eauto. subst w'. destruct H' as [[H' E]|[H' E]], K' as [[K' E']|[K' E']]; try congruence; contradiction.
Qed.
Lemma enc_fields_fun fs : (forall f, In f fs -> wf (snd f)) -> forall la ys ys', all3 enc_field fs la ys -> all3 enc_field fs la ys' -> ys = ys'.
Proof.
  induction fs as [|f fs IH]; intros W [|na la] [|y ys] [|y' ys']; cbn [all3]; try tauto. intros [H1 H2] [K1 K2]. f_equal.
  - eapply enc_field_fun; eauto. apply W. now left.
  - eapply IH; eauto. intros; apply W. now right.
Qed.

Lemma has_hdr_len t e e' x y : e_header e = e_header e' -> e_trailer e = e_trailer e' -> e_contents e = Some x -> len x = len y -> has_hdr t e' y -> has_hdr t e x.
Proof. intros Eh Et Ec L (Hc & Hh). split; auto. rewrite Eh, Et. destruct Hh as [Hh|[Hh Ht]]; auto. right. split; auto. rewrite Hh. f_equal. now apply full_header_len. Qed.

(* ---- an object of the Set and one of the Sequence ---- *)
Definition alike (e e' : enc) : Prop :=
  e_method e = 1 /\ e_method e' = 1 /\ e_header e = e_header e' /\ e_trailer e = e_trailer e' /\ e_indef e = e_indef e' /\
  match e_contents e, e_contents e' with None, None => True | Some x, Some y => len x = len y | _, _ => False end.
Definition awake (l : list value) : Prop := Forall (fun v => is_lazy v = false) l.
Definition allset (la : list (text * aval)) : Prop := Forall (fun na : text * aval => snd na <> ANone) la.

Lemma finish_twin t e e' x y : alike e e' -> e_contents e = Some x -> e_contents e' = Some y ->
  exists f f' d d', finish_dump t e (Some x) = (f, Ok d) /\ finish_dump t e' (Some y) = (f', Ok d') /\ alike f f' /\ e_contents f = Some x /\ e_contents f' = Some y.
Proof.
  intros (M & M' & H & T & I & L) Ex Ey. rewrite Ex, Ey in L. unfold finish_dump. rewrite <- H, M, M'. rewrite (full_header_len t 1 x y L).
  destruct (if ends_80 (e_header e) then None else e_header e) as [h|].
  - eexists _, _, _, _. split; [reflexivity|]. split; [reflexivity|]. split; [|auto]. split; auto. split; auto. split; auto. split; auto. split; auto. now rewrite Ex, Ey.
  - eexists _, _, _, _. split; [reflexivity|]. split; [reflexivity|]. split; [|auto]. cbn. do 4 (split; [reflexivity|]). split; auto. now rewrite Ex, Ey.
Qed.

Lemma fields_some fs : fs <> [] -> match fields fs with [] => false | _ => true end = true.
Proof. destruct fs; [contradiction|reflexivity]. Qed.

Lemma filled_len (fs : list (fld * spec)) : forall ys, length fs = length ys -> len (concat (map snd (filter filled (combine fs ys)))) = len (concat ys).
Proof.
  induction fs as [|f l IH]; intros [|y ys]; cbn; try discriminate; auto. intros [= Ll]. specialize (IH ys Ll).
  unfold filled at 1. cbn [snd]. destruct y; cbn [map concat snd app]; auto. change (z :: y ++ concat ys) with ((z :: y) ++ concat ys).
  change (z :: y ++ concat (map snd (filter filled (combine l ys)))) with ((z :: y) ++ concat (map snd (filter filled (combine l ys)))). rewrite !len_app. lia.
Qed.

Lemma sits_here s t a s' t' b : sits [] s t a s' t' b -> s' = s /\ t' = t /\ b = a.
Proof. inversion 1; auto. Qed.

Section Sets.
  Variable c : pcls.
  Variable fs : list (fld * spec).
  Hypothesis W : wf (SSeq c fs).
  Hypothesis PM : plain_members fs.
  Hypothesis O : orderly fs.
  Let C : forall f, In f fs -> contract (snd f) := fun f Hf => contract_all _ (wf_wf c fs W f Hf).
  Notation SQ := (SSeq c fs).
  Notation ST := (SSet c fs).
  Notation incl l := (forall f, In f l -> In f fs).

  Lemma member_plain f : In f fs -> is_choice (snd f) = false /\ class_explicit (snd f) = [].
  Proof. intros Hf. unfold plain_members in PM. rewrite Forall_forall in PM. auto. Qed.

  Lemma rep_tag q n f a v : In f fs -> rep q n (snd f) (ftags f) a v ->
    match v with VPrim _ | VSeq _ _ _ _ _ | VList _ _ _ _ _ => Some (t_tag (tagging_of v)) | _ => None end = Some (t_tag (ftags f)).
  Proof.
    intros Hf R. pose proof (rep_tagging _ _ _ _ _ _ R) as E. destruct (member_plain f Hf) as [Nc _].
    assert (X : match v with VPrim _ | VSeq _ _ _ _ _ | VList _ _ _ _ _ => True | _ => False end).
    { destruct (snd f); cbn in R, Nc; try discriminate; try contradiction; destruct a; try contradiction; destruct v; try contradiction; exact Logic.I. }
    destruct v; try contradiction; now rewrite E.
  Qed.

  (* what _set_contents collects *)
  Lemma members_ok q n force l : incl l -> forall la vs, all3 (crep q n) l la vs -> awake vs -> allset la ->
    exists vs' ms, dump_members force (fields l) vs = (vs', Ok (map tagged ms)) /\ dump_fields force (fields l) vs = (vs', Ok (concat (map snd ms))) /\
      awake vs' /\ (acc q || force = true -> exists ys, all3 enc_field l la ys /\ ms = filter filled (combine l ys)).
  Proof.
    induction l as [|f l IH]; intros S [|na la] [|v vs]; cbn [all3]; try tauto.
    - intros _ _ _. exists [], []. cbn. split; auto. split; auto. split; [constructor|]. intros _. exists []. cbn. auto.
    - intros [H1 H2] Aw Fu. assert (Hf : In f fs) by (apply S; now left). inversion Aw as [|? ? Av Avs]; subst. inversion Fu as [|? ? Fa Fas]; subst.
      destruct (dump_child_ok c fs W C q n force f na v Hf H1) as (v1 & b & Eb & R1 & M1 & K1 & En1).
      destruct (is_default_ok c fs W C f b Hf) as (dflt & Ed & Hd).
      destruct (IH (fun g Hg => S g (or_intror Hg)) la vs H2 Avs Fas) as (vs' & ms & Es & Es' & Aw' & En2).
      assert (Lv1 : is_lazy v1 = false) by now apply K1.
      assert (Rv1 : rep (join q force) n (snd f) (ftags f) (snd na) v1).
      { apply crep_cases in R1 as (_ & [(_ & _ & X)|[(i & b0 & -> & _)|R]]); [contradiction|discriminate|exact R]. }
      exists (v1 :: vs'), (if dflt then ms else (f, b) :: ms).
      cbn [fields map dump_members dump_fields]. fold (fields l). fold (fmeth f).
      change (match v with VLazy i => if force then match built (fmeth f) v with Ok b0 => child_dump (snd (fmeth f)) force b0 | Err e => (v, Err e) end
        else (v, Ok (i_header i ++ i_contents i ++ i_trailer i)) | _ => child_dump (snd (fmeth f)) force v end) with (dump_child force f v).
      assert (Eb' : match v with VLazy _ => (v, Err AttributeError) | _ => child_dump (snd (fmeth f)) force v end = (v1, Ok b)).
      { unfold dump_child in Eb. destruct v; try exact Eb. discriminate Av. }
      rewrite Eb', Eb, Ed, Es, Es'. cbn [bind]. rewrite (rep_tag _ _ f _ v1 Hf Rv1).
      split; [destruct dflt; reflexivity|]. split; [destruct dflt; reflexivity|]. split; [constructor; auto|].
      intros Q. destruct (En2 Q) as (ys & Hy & ->). exists ((if dflt then [] else b) :: ys).
      assert (Ef : enc_field f na (if dflt then [] else b)) by (eapply enc_field_of; eauto; apply crep_cases in R1; tauto).
      split; [split; auto|]. cbn [combine filter]. unfold filled at 2. cbn [snd]. destruct dflt; auto.
      destruct b as [|z b]; auto. exfalso. specialize (En1 Q). destruct En1 as [(_ & X & _)|X]; [contradiction|].
      apply encodes_pos in X; [contradiction|]. apply (member_plain f Hf).
  Qed.

  Definition tw (q : mode) (t : tagging) (la : list (text * aval)) (v u : value) : Prop :=
    exists e e' l m nc, v = VSeq t e (Some l) m nc /\ u = VSeq t e' (Some l) m nc /\ alike e e' /\ awake l /\
      (acc q = true -> flagged q v = false -> exists x, has_hdr t e x /\ enc_set fs la x).

  Lemma set_contents_tw q n force t la v u : tw q t la v u -> rep q n SQ t (ADict la) u -> allset la ->
    exists v' u', set_contents_seq (fields fs) true force v = (v', Ok tt) /\ set_contents_seq (fields fs) false force u = (u', Ok tt) /\
      tw (join q force) t la v' u' /\ mutated v' = false.
  Proof.
    intros (e & e' & l & m & nc & -> & -> & Al & Aw & _) R Fu. pose proof R as R0.
    apply rep_seq_eq in R0 as (la' & t' & e0 & ch' & m' & nc' & [= <-] & [= <- <- <- <- <-] & _ & _ & _ & _ & _ & R5).
    destruct (members_ok q n force fs (fun f Hf => Hf) la l R5 Aw Fu) as (l' & ms & E1 & E2 & Aw' & En).
    destruct (set_contents_ok c fs W C q n force t la e' (Some l) m nc R) as (l2 & x2 & E3 & M2 & _).
    unfold set_contents_seq in E3 |- *. cbn [ensure] in E3 |- *. rewrite E1. rewrite E2 in E3 |- *. cbn [bind]. rewrite sort_tagged.
    injection E3 as _ _ E3. subst l2. destruct Al as (Me & Me' & Ah & At & Ai & Ac).
    eexists _, _. split; [reflexivity|]. split; [reflexivity|]. split; [|exact M2].
    eexists _, _, l', false, nc. split; [reflexivity|]. split; [reflexivity|]. split.
    { cbn. do 4 (split; auto). split; auto. apply concat_perm_len. apply Permutation_map. apply Permutation_sym, srt_perm. }
    split; auto. intros Q _. rewrite acc_join in Q. destruct (En Q) as (ys & Hy & ->). eexists. split; [split; [reflexivity|now left]|]. exists ys, (srt (filter filled (combine fs ys))).
    split; auto. split; [apply srt_perm|]. split; [now apply sorted_led|reflexivity].
  Qed.

  Lemma tw_mutated q t la v u : tw q t la v u -> mutated v = mutated u.
  Proof. intros (e & e' & l & m & nc & -> & -> & _). reflexivity. Qed.

  Definition stored (v : value) : option bytes := match v with VSeq _ e _ _ _ => e_contents e | _ => None end.

  Lemma contents_tw q n t la v u : tw q t la v u -> rep q n SQ t (ADict la) u -> allset la ->
    exists v' u' x y, contents_seq (fields fs) true v = (v', Ok (Some x)) /\ contents_seq (fields fs) false u = (u', Ok (Some y)) /\
      tw q t la v' u' /\ mutated v' = false /\ stored v' = Some x /\ stored u' = Some y.
  Proof.
    intros T R Fu. pose proof (tw_mutated _ _ _ _ _ T) as Mu. destruct (mutated v) eqn:M.
    - destruct (set_contents_tw q n false t la v u T R Fu) as (v' & u' & E1 & E2 & T' & M'). cbn [join] in T'. destruct T as (e & e' & l & m & nc & -> & -> & _).
      unfold contents_seq. rewrite M, <- Mu, E1, E2. destruct T' as (e1 & e1' & l1 & m1 & nc1 & -> & -> & Al & Aw & H).
      destruct (contents_ok c fs W C q n t la e' (Some l) m nc R) as (e2 & ch2 & m2 & x & Ex & _ & Ec & _).
      unfold contents_seq in Ex. rewrite <- Mu, E2 in Ex. injection Ex as <- <- <- <- Ex. pose proof Al as Al0. destruct Al as (_ & _ & _ & _ & _ & Ac).
      rewrite Ec in Ac. destruct (e_contents e1) as [x1|] eqn:E1c; [|contradiction]. rewrite Ex.
      eexists _, _, x1, x. split; [reflexivity|]. split; [reflexivity|]. split; [|cbn; auto]. exists e1, e1', l1, m1, nc1. auto 10.
    - destruct T as (e & e' & l & m & nc & -> & -> & Al & Aw & H). unfold contents_seq. rewrite M, <- Mu.
      destruct (contents_ok c fs W C q n t la e' (Some l) m nc R) as (e2 & ch2 & m2 & x & Ex & _ & Ec & _ & _ & He).
      rewrite He in Ec by auto. pose proof Al as (_ & _ & _ & _ & _ & Ac). rewrite Ec in Ac |- *. destruct (e_contents e) as [x1|] eqn:E1c; [|contradiction].
      eexists _, _, x1, x. split; [reflexivity|]. split; [reflexivity|]. split; [|cbn; auto]. exists e, e', l, m, nc. auto 10.
  Qed.

  Lemma tw_weaken q q' t la v u : le_mode q q' -> tw q t la v u -> tw q' t la v u.
  Proof.
    intros Q (e & e' & l & m & nc & E1 & E2 & Al & Aw & H). exists e, e', l, m, nc. do 4 (split; auto). intros A F. apply H; [now apply Q|].
    eapply flagged_weaken; eauto.
  Qed.
  Lemma tw_promote q t la v u : mutated v = false -> acc q = true -> tw q t la v u -> tw Own t la v u.
  Proof.
    intros M A (e & e' & l & m & nc & E1 & E2 & Al & Aw & H). exists e, e', l, m, nc. do 4 (split; auto). intros _ F. apply H; auto. now apply not_flagged.
  Qed.

  Lemma dump_tw q n t la v u f : tw q t la v u -> rep q n SQ t (ADict la) u -> allset la ->
    exists v' u' d d', dump_seq (fields fs) true f v = (v', Ok d) /\ dump_seq (fields fs) false f u = (u', Ok d') /\
      tw (join q f) t la v' u' /\ mutated v' = false /\ (acc q = true \/ f = true -> exists x, enc_set fs la x /\ d = cbytes t x).
  Proof.
    intros T R Fu.
    assert (Nf : match fields fs with [] => false | _ => true end = true) by (apply fields_some; apply W).
    assert (exists e e' l m nc, v = VSeq t e (Some l) m nc /\ u = VSeq t e' (Some l) m nc /\ e_header e = e_header e') as (e & e' & l & m & nc & Ev & Eu & Eh).
    { destruct T as (e & e' & l & m & nc & -> & -> & (_ & _ & Eh & _) & _). exists e, e', l, m, nc. auto. }
    set (force := f || ends_80 (e_header e)).
    assert (St : exists v1 u1, (if force then set_contents_seq (fields fs) true force v else (v, Ok tt)) = (v1, Ok tt) /\
       (if force then set_contents_seq (fields fs) false force u else (u, Ok tt)) = (u1, Ok tt) /\ tw (join q f) t la v1 u1 /\ rep (join q f) n SQ t (ADict la) u1).
    { destruct force eqn:Ef.
      - destruct (set_contents_tw q n true t la v u T R Fu) as (v1 & u1 & E1 & E2 & T1 & _). exists v1, u1. split; auto. split; auto.
        rewrite Eu in R, E2. destruct (set_contents_ok c fs W C q n true t la e' (Some l) m nc R) as (l' & x & Es & _ & R').
        rewrite Es in E2. injection E2 as <-. split; [eapply tw_weaken; [|exact T1]|eapply rep_weaken; [| |exact R']]; cbn [join]; auto.
      - unfold force in Ef. apply orb_false_iff in Ef as [Ef _]. rewrite Ef. cbn [join]. exists v, u. auto. }
    destruct St as (v1 & u1 & E1 & E2 & T1 & R1).
    destruct (contents_tw _ n t la v1 u1 T1 R1 Fu) as (v2 & u2 & x & y & E3 & E4 & T2 & M2 & S1 & S2).
    assert (Ms : exists e1 e1' l1 m1 nc1, v1 = VSeq t e1 (Some l1) m1 nc1 /\ u1 = VSeq t e1' (Some l1) m1 nc1 /\ missing (fields fs) l1 = false).
    { destruct T1 as (e1 & e1' & l1 & m1 & nc1 & -> & -> & _). exists e1, e1', l1, m1, nc1. split; auto. split; auto.
      apply rep_seq_eq in R1 as (la' & t' & e0 & ch' & m' & nc' & [= <-] & [= <- <- <- <- <-] & _ & _ & _ & _ & _ & R5). eapply missing_ok; eauto. }
    destruct Ms as (e1 & e1' & l1 & m1 & nc1 & Ev1 & Eu1 & Ms).
    destruct T2 as (e2 & e2' & l2 & m2 & nc2 & -> & -> & Al & Aw & H). cbn [stored] in S1, S2.
    destruct (finish_twin t e2 e2' x y Al S1 S2) as (g & g' & d & d' & F1 & F2 & Ag & G1 & G2).
    exists (VSeq t g (Some l2) m2 nc2), (VSeq t g' (Some l2) m2 nc2), d, d'.
    split. { rewrite Ev. unfold dump_seq. rewrite Nf, andb_true_r. fold force. rewrite <- Ev, E1, Ev1, Ms, <- Ev1, E3, F1. reflexivity. }
    split. { rewrite Eu. unfold dump_seq. rewrite Nf, andb_true_r, <- Eh. fold force. rewrite <- Eu, E2, Eu1, Ms, <- Eu1, E4, F2. reflexivity. }
    assert (HH : acc (join q f) = true -> has_hdr t e2 x /\ enc_set fs la x).
    { intros A. destruct (H A) as (x' & Hx & En); [now apply not_flagged|]. assert (x' = x) by (destruct Hx as [Hx _]; congruence). subst x'. auto. }
    split.
    { exists g, g', l2, m2, nc2. split; auto. split; auto. split; auto. split; auto. intros A _. exists x. destruct (HH A) as [Hx En]. split; auto.
      destruct (finish_ok t e2 x (proj1 Al) Hx) as (g2 & E & _ & Hg). rewrite F1 in E. now injection E as -> _. }
    split; [exact M2|]. intros A. destruct HH as [Hx En]; [rewrite acc_join; destruct A as [-> | ->]; auto using orb_true_r|].
    exists x. split; auto. destruct (finish_ok t e2 x (proj1 Al) Hx) as (g2 & E & _ & Hg). rewrite F1 in E. now injection E as _ ->.
  Qed.
  Lemma native_tw q n t la v u : tw q t la v u -> rep q n SQ t (ADict la) u -> allset la ->
    exists v' u' x, native_seq (fields fs) true v = (v', Ok x) /\ native_seq (fields fs) false u = (u', Ok x) /\ tw q t la v' u' /\ mutated v' = false.
  Proof.
    intros T R Fu. destruct (contents_tw q n t la v u T R Fu) as (v1 & u1 & x & y & E1 & E2 & T1 & M1 & S1 & S2).
    assert (R1 : rep q n SQ t (ADict la) u1).
    { destruct T as (e & e' & l & m & nc & -> & -> & _). destruct (contents_ok c fs W C q n t la e' (Some l) m nc R) as (e2 & ch2 & m2 & x2 & Ex & _ & _ & R2 & _).
      rewrite Ex in E2. injection E2 as <- _. exact R2. }
    unfold native_seq. rewrite E1, E2. destruct T1 as (e & e' & l & m & nc & -> & -> & Al & Aw & H). destruct nc as [d|].
    - eexists _, _, _. split; [reflexivity|]. split; [reflexivity|]. split; [|exact M1]. exists e, e', l, m, (Some d). auto.
    - apply rep_seq_eq in R1 as (la' & t' & e0 & ch' & m' & nc' & [= <-] & [= <- <- <- <- <-] & _ & _ & _ & _ & _ & R5).
      destruct (natives_ok c fs W C q n fs (fun f Hf => Hf) la l 0 R5) as (l' & ns & En & R' & M' & L' & N'). rewrite En.
      eexists _, _, _. split; [reflexivity|]. split; [reflexivity|]. cbn [mutated] in M1. apply orb_false_iff in M1 as [-> M1]. split; [|exact M'].
      exists e, e', l', false, (Some ns). split; auto. split; auto. split; auto. split.
      + unfold awake. rewrite Forall_forall. intros w Hw. apply In_nth_error in Hw as (i & Hi). pose proof (all3_length _ _ _ _ R') as [La Lv].
        assert (Hl : (i < length l')%nat) by (apply nth_error_Some; congruence).
        destruct (nth_error_ex fs i) as [f Hf]; [lia|]. destruct (nth_error_ex la i) as [na Hn]; [lia|]. destruct (N' i f na w Hf Hn Hi) as (_ & _ & Lz & _). exact Lz.
      + intros A _. apply H; auto. unfold flagged. destruct (own q); [reflexivity|exact M1].
  Qed.

  Lemma get_tw i q n t la v u : tw q t la v u -> rep q n SQ t (ADict la) u ->
    exists r, get_seq (fields fs) true i v = (v, r) /\ get_seq (fields fs) false i u = (u, r).
  Proof.
    intros (e & e' & l & m & nc & -> & -> & Al & Aw & H) _. unfold get_seq. cbn [ensure]. unfold awake in Aw. rewrite Forall_forall in Aw.
    destruct (nth_error l i) as [w|] eqn:Ew; [|eauto]. specialize (Aw w (nth_error_In _ _ Ew)).
    destruct (nth_error (fields fs) i) as [fo|].
    - assert (Eb : built fo w = Ok w) by (destruct fo, w; auto; discriminate). rewrite Eb, (update_same _ _ _ Ew). destruct w; eauto; discriminate.
    - destruct w; eauto; discriminate.
  Qed.
  Lemma len_tw q t la v u : tw q t la v u -> exists r, len_seq (fields fs) true v = (v, r) /\ len_seq (fields fs) false u = (u, r).
  Proof. intros (e & e' & l & m & nc & -> & -> & _). unfold len_seq. cbn [ensure]. eauto. Qed.

  Lemma awake_update l i w : awake l -> is_lazy w = false -> awake (update l i w).
  Proof.
    unfold awake. rewrite !Forall_forall. intros A Lw x Hx. apply In_nth_error in Hx as (j & Hj). destruct (Nat.eq_dec i j) as [<-|N].
    - assert (X : nth_error l i <> None).
      { intros X. apply nth_error_None in X. assert (Y : nth_error (update l i w) i = None) by (apply nth_error_None; now rewrite update_length). congruence. }
      destruct (nth_error l i) as [z|] eqn:E; [|contradiction]. rewrite (nth_update_same _ _ _ _ E) in Hj. now injection Hj as <-.
    - rewrite nth_update_other in Hj by auto. apply A. eapply nth_error_In; eauto.
  Qed.

  Lemma set_tw q n t la v u i f x b0 lb : tw q t la v u -> rep q n SQ t (ADict la) u -> nth_error fs i = Some f -> assigned f x b0 ->
    exists v' u', set_seq (fields fs) true i x v = (v', Ok tt) /\ set_seq (fields fs) false i x u = (u', Ok tt) /\ tw q t lb v' u'.
  Proof.
    intros (e & e' & l & m & nc & -> & -> & Al & Aw & _) R Hf A. pose proof (nth_error_In _ _ Hf) as Inf. destruct (wf_tags c fs f W Inf) as (Wf & T & Tk).
    destruct (assigned_made c fs W C f x b0 Inf A) as (nv & b' & Em & Ab & Hb).
    assert (exists nv1 y, child_contents (methods (snd f)) nv = (nv1, Ok (Some y)) /\ is_lazy nv1 = false /\ (nv1 = VVoid \/ rep Own true (snd f) (ftags f) b' nv1)) as (nv1 & y & Ec & L1 & Hb1).
    { destruct Hb as [(-> & X & ->)|(Rv & Hd)]; [exists VVoid, []; cbn; auto|].
      destruct (K_contents _ (C f Inf) _ _ _ _ _ Tk Rv) as (v1 & y & Ec & R1 & _). exists v1, y.
      split; [destruct nv; auto; now apply rep_not_void in Rv|]. split; [eapply rep_lazy; eauto|auto]. }
    assert (exists nv2 z, child_native (methods (snd f)) nv1 = (nv2, Ok z) /\ is_lazy nv2 = false) as (nv2 & z & En & L2).
    { destruct Hb1 as [->|Rv]; [exists VVoid, ANone; auto|].
      destruct (K_native _ (C f Inf) _ _ _ _ _ Tk Rv) as (v1 & a & Ea & Ra & _). exists v1, a.
      split; [destruct nv1; auto; now apply rep_not_void in Rv|eapply rep_lazy; eauto]. }
    unfold set_seq. cbn [ensure]. rewrite (meth_nth fs _ _ Hf), Em. cbn [snd fmeth]. rewrite Ec.
    assert (G : forall w nc', is_lazy w = false -> tw q t lb (VSeq t e (Some (update l i w)) true nc') (VSeq t e' (Some (update l i w)) true nc')).
    { intros w nc' Lw. exists e, e', (update l i w), true, nc'. split; auto. split; auto. split; auto. split; [now apply awake_update|].
      intros _ F. unfold flagged in F. destruct (own q); discriminate F. }
    destruct nc as [d|]; [rewrite En|]; eexists _, _; (split; [reflexivity|]); (split; [reflexivity|]); auto.
  Qed.
  Lemma del_tw q n t la v u i f b0 lb : tw q t la v u -> rep q n SQ t (ADict la) u -> nth_error fs i = Some f -> cleared f b0 ->
    exists v' u', del_seq (fields fs) true i v = (v', Ok tt) /\ del_seq (fields fs) false i u = (u', Ok tt) /\ tw q t lb v' u'.
  Proof.
    intros T R Hf A. pose proof T as T0. destruct T as (e & e' & l & m & nc & -> & -> & Al & Aw & _). unfold del_seq. cbn [ensure]. rewrite (meth_nth fs _ _ Hf).
    cbn [fst fmeth]. pose proof A as A0. unfold cleared in A. unfold fpres in A. destruct (f_pres (fst f)) as [| |d] eqn:X; [contradiction| |].
    - eexists _, _. split; [reflexivity|]. split; [reflexivity|]. exists e, e', (update l i VVoid), true. eexists. split; [reflexivity|]. split; [reflexivity|]. split; auto.
      split; [now apply awake_update|]. intros _ F. unfold flagged in F. destruct (own q); discriminate F.
    - eapply set_tw; eauto. unfold assigned, fpres. rewrite X. exact A0.
  Qed.

  Lemma becomes_reading p x s a b : reading x = true -> becomes p x s a b -> b = a.
  Proof. intros Hx B. inversion B as [|? ? ? ? Ch| | |]; subst; auto; try congruence. inversion Ch; subst; discriminate. Qed.

  (* an object inside: reached in the same way *)
  Lemma below_tw i r x q n t la v u : tagging_ok t -> tw q t la v u -> rep q n SQ t (ADict la) u ->
    (reading x = true \/ exists a0, becomes (i :: r) x SQ (ADict la) a0) ->
    exists y, (through (i :: r) x ST v = (v, y) /\ through (i :: r) x SQ u = (u, y)) \/
      exists w', is_lazy w' = false /\ through (i :: r) x ST v = (put_inner i w' v, y) /\ through (i :: r) x SQ u = (put_inner i w' u, y).
  Proof.
    intros Ht T R Hx. destruct (get_tw i q n t la v u T R) as (y & E1 & E2).
    destruct (enter_ok SQ W q n t (ADict la) u i Ht R) as (v1 & y' & Eg & R1 & K & D).
    change (x_get (methods SQ) i u) with (get_seq (fields fs) false i u) in Eg. rewrite E2 in Eg. injection Eg as <- <-.
    assert (Nv : v <> VVoid /\ u <> VVoid /\ inner ST i v = inner SQ i u).
    { destruct T as (e & e' & l & m & nc & -> & -> & _). split; [discriminate|]. split; [discriminate|reflexivity]. }
    destruct Nv as (Nv & Nu & In). rewrite !through_step by auto.
    change (x_get (methods ST) i v) with (get_seq (fields fs) true i v). change (x_get (methods SQ) i u) with (get_seq (fields fs) false i u).
    rewrite E1, E2, In. destruct y as [[]|y]; [|eauto]. destruct D as [(B & Nb & _)|(_ & s' & w & t' & b & Ei & Ws & Tk & Rw & Vs & Bi & _)].
    - destruct B as [Ei|(s' & Ei & Ep)]; rewrite Ei; [eauto|]. destruct (through_void r x s') as (z & Ez). rewrite Ez. exists z. right. exists VVoid. auto.
    - rewrite Ei. assert (exists w' z, through r x s' w = (w', z) /\ is_lazy w' = false) as (w' & z & Ez & Lz).
      { destruct (reading x) eqn:Rx.
        - destruct (read_ok r x s' _ _ _ _ _ Ws Rx Tk Rw) as (w' & z & Ez & Rw' & _). exists w', z. split; auto. eapply rep_lazy; eauto.
        - destruct Hx as [Hx|(a0 & B)]; [congruence|]. destruct (Bi _ _ _ Rx B) as (b1 & Bb).
          destruct (change_ok r x s' b b1 _ _ _ _ Ws Tk Rx Bb Rw) as (w' & b' & Ez & _ & Rw' & _). eexists w', _. split; [exact Ez|]. eapply rep_lazy; eauto. }
      rewrite Ez. exists z. right. exists w'. auto.
  Qed.

  Lemma snd_below i r x q n t la v u : tw q t la v u -> rep q n SQ t (ADict la) u -> snd (through (i :: r) x ST v) = snd (through (i :: r) x SQ u).
  Proof.
    intros T R. destruct (get_tw i q n t la v u T R) as (y & E1 & E2).
    assert (Nv : v <> VVoid /\ u <> VVoid /\ inner ST i v = inner SQ i u).
    { destruct T as (e & e' & l & m & nc & -> & -> & _). split; [discriminate|]. split; [discriminate|reflexivity]. }
    destruct Nv as (Nv & Nu & In). rewrite !through_step by auto.
    change (x_get (methods ST) i v) with (get_seq (fields fs) true i v). change (x_get (methods SQ) i u) with (get_seq (fields fs) false i u).
    rewrite E1, E2, In. destruct y as [[]|y]; auto. destruct (inner SQ i u) as [[s' w]|]; auto. now destruct (through r x s' w).
  Qed.

  Lemma tw_put q q' t la lb v u i w' : tw q t la v u -> is_lazy w' = false ->
    (acc q' = true -> flagged q' (put_inner i w' v) = false -> lb = la /\ acc q = true /\ flagged q v = false) ->
    tw q' t lb (put_inner i w' v) (put_inner i w' u).
  Proof.
    intros (e & e' & l & m & nc & -> & -> & Al & Aw & H) Lw Hq. cbn [put_inner] in *. exists e, e', (update l i w'), m, nc. split; auto. split; auto. split; auto.
    split; [now apply awake_update|]. intros A F. destruct (Hq A F) as (-> & A' & F'). auto.
  Qed.
  Lemma tw_lost t la lb q v u : tw q t la v u -> tw Stale t lb v u.
  Proof. intros (e & e' & l & m & nc & E1 & E2 & Al & Aw & _). exists e, e', l, m, nc. do 4 (split; auto). discriminate. Qed.

  Lemma ST_step x v : v <> VVoid -> perform ST x v =
    match x with
    | ARead => reply RNat (native_seq (fields fs) true v)
    | ADump f => reply RDump (dump_seq (fields fs) true f v)
    | AContents => reply RCont (contents_seq (fields fs) true v)
    | ALen => reply RLen (len_seq (fields fs) true v)
    | AGet i => reply (fun _ => RNone) (get_seq (fields fs) true i v)
    | ASet i a => reply (fun _ => RNone) (set_seq (fields fs) true i a v)
    | ADel i => reply (fun _ => RNone) (del_seq (fields fs) true i v)
    | AAppend a => (v, Err AttributeError)
    | AStore u => (v, Err AttributeError)
    end.
  Proof. intros N. destruct v; try contradiction; destruct x; reflexivity. Qed.
  Lemma SQ_step x v : v <> VVoid -> perform SQ x v =
    match x with
    | ARead => reply RNat (native_seq (fields fs) false v)
    | ADump f => reply RDump (dump_seq (fields fs) false f v)
    | AContents => reply RCont (contents_seq (fields fs) false v)
    | ALen => reply RLen (len_seq (fields fs) false v)
    | AGet i => reply (fun _ => RNone) (get_seq (fields fs) false i v)
    | ASet i a => reply (fun _ => RNone) (set_seq (fields fs) false i a v)
    | ADel i => reply (fun _ => RNone) (del_seq (fields fs) false i v)
    | AAppend a => (v, Err AttributeError)
    | AStore u => (v, Err AttributeError)
    end.
  Proof. intros N. destruct v; try contradiction; destruct x; reflexivity. Qed.

  Lemma tw_step p x a0 q n t la v u lb : tagging_ok t -> allset la -> becomes p x SQ (ADict la) a0 -> tw (mode_of q) t la v u -> rep (mode_of q) n SQ t (ADict la) u ->
    becomes p x SQ (ADict la) (ADict lb) ->
    tw (mode_of (next SQ (p, x) q)) t lb (fst (through p x ST v)) (fst (through p x SQ u)) /\
    (reading x = false -> snd (through p x ST v) = snd (through p x SQ u)).
  Proof.
    intros Ht Fu B T R Bl. destruct p as [|i r].
    - assert (Nv : v <> VVoid /\ u <> VVoid) by (destruct T as (e & e' & l & m & nc & -> & -> & _); split; discriminate).
      destruct Nv as [Nv Nu]. cbn [through]. rewrite ST_step, SQ_step by auto. destruct (reading x) eqn:Rx.
      + apply becomes_reading in Bl; auto. injection Bl as ->. split; [|discriminate]. destruct x; try discriminate Rx; cbn [next].
        * destruct (native_tw _ n t la v u T R Fu) as (v' & u' & z & -> & -> & T' & M'). cbn [fst reply].
          destruct q; cbn [mode_of] in *; auto; (eapply tw_promote; [exact M'| |exact T']; reflexivity).
        * destruct (dump_tw _ n t la v u force T R Fu) as (v' & u' & d & d' & -> & -> & T' & M' & _). cbn [fst reply].
          destruct force; cbn [join] in T'; auto. destruct q; cbn [mode_of] in *; auto; (eapply tw_promote; [exact M'| |exact T']; reflexivity).
        * destruct (contents_tw _ n t la v u T R Fu) as (v' & u' & z & z' & -> & -> & T' & _). exact T'.
        * destruct (len_tw _ t la v u T) as (z & -> & ->). exact T.
        * destruct (get_tw i _ n t la v u T R) as (z & -> & ->). exact T.
      + apply becomes_here in B; auto. apply becomes_here in Bl; auto. inversion B as [? ? f ? ? ? ? ? ? Hf A|? ? f ? ? ? ? ? Hf A|? ? ? ? ? ? ? (c' & L)|? ? ? ? ? (c' & L)|? ? ? ? ? (c' & L)|? ? ? ? ? (c' & L)|]; subst;
          try (destruct L; discriminate).
        * destruct (set_tw _ n t _ v u _ f x0 _ lb T R Hf A) as (v' & u' & -> & -> & T'). cbn [fst snd reply next]. split; auto.
        * destruct (del_tw _ n t _ v u _ f _ lb T R Hf A) as (v' & u' & -> & -> & T'). cbn [fst snd reply next]. split; auto.
    - destruct (below_tw i r x _ n t la v u Ht T R) as (y & [(E1 & E2)|(w' & Lw & E1 & E2)]); [destruct (reading x); eauto|..]; rewrite E1, E2; cbn [fst snd]; (split; [|auto]).
      + destruct (reading x) eqn:Rx.
        * apply becomes_reading in Bl; auto. injection Bl as ->. cbn [next]. rewrite Rx. destruct q; auto; eapply tw_lost; eauto.
        * destruct (change_ok (i :: r) x SQ _ a0 _ n t u W Ht Rx B R) as (u' & b & E & _ & _ & _ & M). rewrite E2 in E. injection E as <- ->.
          cbn [next]. rewrite Rx. destruct (store_below (i :: r, x)) eqn:Sb; [eapply tw_lost; eauto|]. destruct (visible SQ (i :: r)) eqn:V; [|eapply tw_lost; eauto].
          assert (Mu : mutated u = true) by (apply M; auto; destruct x; auto; discriminate). rewrite <- (tw_mutated _ _ _ _ _ T) in Mu.
          destruct q; [eapply tw_lost; eauto|..]; (destruct T as (e & e' & l & m & nc & -> & -> & Al & Aw & _); exists e, e', l, m, nc; do 4 (split; auto);
            intros _ F; unfold flagged in F; cbn [own mode_of] in F; congruence).
      + destruct (reading x) eqn:Rx.
        * apply becomes_reading in Bl; auto. injection Bl as ->. cbn [next]. rewrite Rx. eapply tw_put; eauto. destruct q; try discriminate. cbn [mode_of]. intros _ F.
          split; auto. split; auto. destruct T as (e & e' & l & m & nc & -> & -> & _). exact F.
        * destruct (change_ok (i :: r) x SQ _ a0 _ n t u W Ht Rx B R) as (u' & b & E & _ & _ & _ & M). rewrite E2 in E. injection E as <- ->.
          cbn [next]. rewrite Rx. destruct (store_below (i :: r, x)) eqn:Sb; [eapply tw_put; eauto; discriminate|].
          destruct (visible SQ (i :: r)) eqn:V; [|eapply tw_put; eauto; discriminate].
          assert (Mu : mutated (put_inner i w' u) = true) by (apply M; auto; destruct x; auto; discriminate).
          assert (Mv : mutated (put_inner i w' v) = true) by (destruct T as (e & e' & l & m & nc & -> & -> & _); exact Mu).
          eapply tw_put; eauto. destruct q; try discriminate; intros _ F; unfold flagged in F; cbn [own mode_of] in F; congruence.
  Qed.

  Lemma tw_history t : tagging_ok t -> forall h la q n v u, safe SQ h (ADict la) -> stays_full SQ h (ADict la) -> tw (mode_of q) t la v u ->
    rep (mode_of q) n SQ t (ADict la) u ->
    exists lb, leads SQ h (ADict la) (ADict lb) /\ allset lb /\ tw (mode_of (trusted SQ h q)) t lb (after ST h v) (after SQ h u) /\
      rep (mode_of (trusted SQ h q)) (n && negb (stores_below h)) SQ t (ADict lb) (after SQ h u).
  Proof.
    intros Ht. induction h as [|[p x] h IH]; intros la q n v u Sf Fu T R; cbn [stays_full] in Fu; destruct Fu as [Fa Fu].
    - exists la. split; [constructor|]. split; auto. split; auto. cbn. now rewrite andb_true_r.
    - cbn [safe] in Sf. destruct Sf as [(a0 & B) Sf]. destruct (step_ok p x SQ (ADict la) a0 q n t u W Ht B R) as (b & B' & R' & _).
      assert (exists lb, b = ADict lb) as [lb ->] by (apply rep_seq_eq in R' as (lb & t' & e & ch & m & nc & -> & _); eauto).
      destruct (tw_step p x a0 q n t la v u lb Ht Fa B T R B') as [T' _].
      destruct (IH lb _ _ _ _ (Sf _ B') (Fu _ B') T' R') as (lc & L & Fc & Tc & Rc). exists lc. split; [econstructor; eauto|]. split; auto. split; auto.
      cbn [trusted after stores_below existsb]. rewrite negb_orb, andb_assoc. exact Rc.
  Qed.

  Lemma member_der_field f na y : member_der f na y <-> der_field f na y.
  Proof. reflexivity. Qed.

  Lemma enc_set_der t la x : tagging_ok t -> enc_set fs la x -> len (cbytes t x) < 2 ^ 1008 -> der_set fs t (ADict la) (cbytes t x).
  Proof.
    intros Ht (ys & zs & Hy & P & Sz & ->) L.
    assert (Lx : len (concat (map snd zs)) = len (concat ys)).
    { rewrite <- (concat_perm_len _ _ (Permutation_map snd P)). pose proof (all3_length _ _ _ _ Hy) as [_ Ll]. now apply filled_len. }
    assert (Ls : len (cbytes t (concat ys)) < 2 ^ 1008).
    { unfold cbytes in L |- *. rewrite <- (full_header_len t 1 _ _ Lx). rewrite len_app in L |- *. lia. }
    assert (En : encodes SQ t (ADict la) (cbytes t (concat ys))) by (apply encodes_seq; exists (concat ys); split; auto; exists ys; auto).
    pose proof (proj1 (encodes_der_both SQ W t Ht) _ _ En Ls) as D. cbn [der] in D. destruct D as (ys' & _ & Dy).
    assert (ys' = ys) by (eapply (enc_fields_fun fs (wf_wf c fs W)); [eapply der_enc_field; eauto|exact Hy]). subst ys'.
    exists ys, (map led zs). split; [exact Dy|]. split.
    { rewrite <- filled_led. now apply Permutation_map. }
    split; auto. replace (map snd (map led zs)) with (map snd zs) by (rewrite map_map; apply map_ext; reflexivity).
    now apply bytes_der_constructed.
  Qed.

  Theorem set_follows_ok q t la v u : tagging_ok t -> tw (mode_of q) t la v u -> rep (mode_of q) true SQ t (ADict la) u ->
    set_follows c fs q t (ADict la) v.
  Proof.
    intros Ht T R h Sf Fu. destruct (tw_history t Ht h la q true v u Sf Fu T R) as (lb & L & Fb & Tb & Rb). exists (ADict lb). split; auto.
    assert (Nv : after ST h v <> VVoid) by (destruct Tb as (e & e' & l & m & nc & -> & _); discriminate).
    split.
    - intros p x Hx (c0 & B). destruct (step_ok p x SQ (ADict lb) c0 _ _ _ _ W Ht B Rb) as (b & Bb & Rb' & Ok1).
      assert (exists lc, b = ADict lc) as [lc ->] by (apply rep_seq_eq in Rb' as (lc & t' & e & ch & m & nc & -> & _); eauto).
      destruct (tw_step p x c0 _ _ t lb _ _ lc Ht Fb B Tb Rb Bb) as [_ E]. now rewrite E, Ok1.
    - intros [|i r] s' t' d Si.
      + apply sits_here in Si as (-> & -> & ->). cbn [through]. rewrite !ST_step by auto. split; [|split; [|split]].
        * destruct (native_tw _ _ t lb _ _ Tb Rb Fb) as (v' & u' & x & E1 & E2 & _). exists x. rewrite E1. split; auto. intros N.
          destruct (K_native _ (contract_all _ W) _ _ _ _ _ Ht Rb) as (u2 & y & En & _ & _ & _ & _ & Sh). change (native_seq (fields fs) false (after SQ h u) = (u2, Ok y)) in En.
          rewrite E2 in En. injection En as <- <-. apply Sh. cbn. now rewrite N.
        * intros f. destruct (dump_tw _ _ t lb _ _ f Tb Rb Fb) as (v' & u' & d & d' & E1 & _ & _ & _ & En). exists d. rewrite ST_step, E1 by auto. split; auto.
          intros H Ld. destruct En as (x & Ex & ->); [|now apply enc_set_der]. destruct H as [H|H]; auto. left. destruct (trusted SQ h q); auto; congruence.
        * destruct (len_tw _ t lb _ _ Tb) as (z & E1 & E2). rewrite E1. pose proof (len_answer SQ _ _ _ _ _ W Rb) as La. cbn iota in La.
          rewrite SQ_step, E2 in La by (eapply rep_void; eauto). exact La.
        * intros e l x (c' & [E|E]); discriminate.
      + assert (E : forall x, snd (through (i :: r) x ST (after ST h v)) = snd (through (i :: r) x SQ (after SQ h u))) by (intros; eapply snd_below; eauto).
        destruct (reach_at _ _ _ _ _ _ _ Si _ _ _ W Ht Rb) as (q' & w & W' & T' & Rw & A & Er). pose proof (contract_all s' W') as Cs. split; [|split; [|split]].
        * destruct (K_native s' Cs _ _ _ _ _ T' Rw) as (w' & y & En & _ & _ & _ & _ & Sh). exists y. rewrite E, Er, perform_step by (auto; eapply rep_void; eauto).
          rewrite En. split; auto. intros N. apply Sh. cbn. now rewrite N.
        * intros f. destruct (K_dump s' Cs _ _ _ _ _ f T' Rw) as (w' & d' & Ed & _ & _ & _ & De). exists d'. rewrite E, Er, perform_step by (auto; eapply rep_void; eauto).
          rewrite Ed. split; auto. intros H Ld. apply (proj1 (encodes_der_both s' W' t' T')); auto. apply De.
          destruct H as [H|H]; auto. left. rewrite A. destruct (trusted SQ h q); auto; congruence.
        * destruct d; auto; intros; rewrite E, Er by auto; exact (len_answer _ _ _ _ _ _ W' Rw).
        * intros e l x Lc -> P. rewrite E, Er. eapply index_answer; eauto.
  Qed.
End Sets.
