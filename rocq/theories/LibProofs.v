(* A check that a spec of ContModel is well-formed, and that it is right. *)
Require Import Verif.Base Verif.BaseFacts Verif.Text Verif.CodecModel Verif.IntModel Verif.IntSpec Verif.PrimModel Verif.PrimSpec Verif.PrimProofs Verif.PrimDump
  Verif.ContModel Verif.ContSpec Verif.ContBase.
Require Import Coq.Bool.Bool.

Lemma eqb_text_iff (a b : text) : eqb_text a b = true <-> a = b.
Proof.
  unfold eqb_text. revert b. induction a as [|x a IH]; intros [|y b]; cbn; try (split; congruence).
  rewrite andb_true_iff, Z.eqb_eq, IH. split; [intros [-> ->]; reflexivity | intro e; injection e; auto].
Qed.

Section NoDupB.
  Context {A : Type} (eqb : A -> A -> bool) (E : forall a b, eqb a b = true <-> a = b).
  Definition memb (x : A) (l : list A) : bool := existsb (eqb x) l.
  Lemma memb_iff x l : memb x l = true <-> In x l.
  Proof. unfold memb. rewrite existsb_exists. split; [intros (y & i & e); apply E in e; subst; exact i | intro i; exists x; split; [exact i|now apply E]]. Qed.
  Fixpoint nodupb (l : list A) : bool := match l with [] => true | x :: r => negb (memb x r) && nodupb r end.
  Lemma nodupb_sound l : nodupb l = true -> NoDup l.
  Proof.
    induction l as [|x l IH]; cbn; [constructor|]. intro H. apply andb_true_iff in H as [N R]. constructor; [|auto].
    rewrite <- memb_iff. apply negb_true_iff in N. congruence.
  Qed.
  Definition disjointb (a b : list A) : bool := forallb (fun x => negb (memb x b)) a.
  Lemma disjointb_sound a b : disjointb a b = true -> disjoint a b.
  Proof. unfold disjointb. rewrite forallb_forall. intros H x i j. apply H in i. apply memb_iff in j. rewrite j in i. discriminate. Qed.
End NoDupB.

Definition id_eqb (a b : Z * Z) : bool := (fst a =? fst b) && (snd a =? snd b).
Lemma id_eqb_iff a b : id_eqb a b = true <-> a = b.
Proof. destruct a, b. unfold id_eqb. cbn. rewrite andb_true_iff, !Z.eqb_eq. split; [intros [-> ->]; reflexivity | intro e; injection e; auto]. Qed.

Definition kind_okb (k : kind) : bool :=
  match k with
  | KInt m | KEnum (Some m) => nodupb Z.eqb (map fst m) && nodupb eqb_text (map snd m)
  | KBits (Some m) => nodupb Z.eqb (map fst m) && forallb (fun p => 0 <=? fst p) m
  | KOid m => nodupb eqb_text (map fst m) && nodupb eqb_text (map snd m) && disjointb eqb_text (map snd m) (map fst m)
  | KRaw => false
  | _ => true
  end.
Lemma kind_okb_sound k : kind_okb k = true -> kind_ok k.
Proof.
  assert (Z2 : forall m : list (Z * text), nodupb Z.eqb (map fst m) && nodupb eqb_text (map snd m) = true -> NoDup (map fst m) /\ NoDup (map snd m)).
  { intros m H. apply andb_true_iff in H as [H K]. split; [exact (nodupb_sound _ Z.eqb_eq _ H) | exact (nodupb_sound _ eqb_text_iff _ K)]. }
  destruct k as [|m|[m|]|[m|]| | | | | |m| | | |]; cbn; auto; try discriminate; try apply Z2.
  - intro H. apply andb_true_iff in H as [H K]. split; [exact (nodupb_sound _ Z.eqb_eq _ H)|].
    apply Forall_forall. rewrite forallb_forall in K. intros x i. apply K in i. now apply Z.leb_le.
  - intro H. apply andb_true_iff in H as [H L]. apply andb_true_iff in H as [H K].
    split; [exact (nodupb_sound _ eqb_text_iff _ H)|]. split; [exact (nodupb_sound _ eqb_text_iff _ K)|].
    intros n i j. exact (disjointb_sound _ eqb_text_iff _ _ L n i j).
Qed.

Definition tag_okb (ct : Z * Z) : bool := (0 <=? fst ct) && (fst ct <=? 3) && (0 <=? snd ct).
Lemma tag_okb_sound ct : tag_okb ct = true -> 0 <= fst ct <= 3 /\ 0 <= snd ct.
Proof. unfold tag_okb. rewrite !andb_true_iff, !Z.leb_le. tauto. Qed.
Lemma tags_okb_sound l : forallb tag_okb l = true -> tags_valid l.
Proof. rewrite forallb_forall. intro H. apply Forall_forall. intros x i. apply tag_okb_sound. auto. Qed.
Definition cls_okb (c : pcls) : bool := tag_okb (k_class c, k_tag c) && forallb tag_okb (k_explicit c).
Lemma cls_okb_sound c : cls_okb c = true -> cls_ok c.
Proof. unfold cls_okb. rewrite andb_true_iff. intros [H K]. apply tag_okb_sound in H. apply tags_okb_sound in K. cbn in H. unfold cls_ok. tauto. Qed.

Definition nilb {A} (l : list A) : bool := match l with [] => true | _ => false end.
Lemma nilb_iff {A} (l : list A) : nilb l = true <-> l = [].
Proof. destruct l; cbn; split; congruence. Qed.
Definition params_okb (p : params) : bool :=
  negb (p_no_explicit p) && forallb tag_okb (p_explicit p) && (Nat.leb (length (p_explicit p)) 1) &&
  match p_implicit p with Some ct => tag_okb ct && nilb (p_explicit p) | None => true end.
Lemma params_okb_sound p : params_okb p = true -> params_ok p.
Proof.
  unfold params_okb, params_ok. rewrite !andb_true_iff. intros [[[H K] L] M]. apply negb_true_iff in H. apply tags_okb_sound in K. apply Nat.leb_le in L.
  repeat split; auto. destruct (p_implicit p) as [[c t]|]; auto. apply andb_true_iff in M as [M N]. apply tag_okb_sound in M. apply nilb_iff in N. cbn in M. tauto.
Qed.
Definition taggableb (s : spec) (p : params) : bool :=
  params_okb p && (match p_implicit p with None => true | Some _ => nilb (class_explicit s) && negb (is_choice s) end) &&
  (negb (is_choice s) || Nat.leb (length (class_explicit s ++ p_explicit p)) 1).
Lemma taggableb_sound s p : taggableb s p = true -> taggable s p.
Proof.
  unfold taggableb, taggable. rewrite !andb_true_iff. intros [[H K] L]. split; [now apply params_okb_sound|]. split.
  - destruct (p_implicit p); [right | left; reflexivity]. apply andb_true_iff in K as [K M]. apply nilb_iff in K. apply negb_true_iff in M. auto.
  - intro C. rewrite C in L. cbn in L. now apply Nat.leb_le.
Qed.

Definition requiredb (p : presence) : bool := match p with Required => true | _ => false end.
Fixpoint distinctb (fs : list (fld * spec)) : bool :=
  match fs with
  | [] => true
  | f :: r => (requiredb (fpres f) || forallb (fun g => disjointb id_eqb (ids f) (ids g)) (reach r)) && distinctb r
  end.
Lemma distinctb_sound fs : distinctb fs = true -> distinct fs.
Proof.
  induction fs as [|f fs IH]; cbn; auto. rewrite andb_true_iff, orb_true_iff. intros [[H|H] K]; (split; [intro N|auto]).
  - destruct (fpres f); try discriminate. congruence.
  - rewrite forallb_forall in H. apply Forall_forall. intros g i. apply (disjointb_sound _ id_eqb_iff). auto.
Qed.

(* booleans and integers as defaults *)
Definition default_okb (s : spec) (p : params) (d : aval) : bool :=
  match s, d with
  | SPrim KBool c, APrim (NBool b) => len (object_bytes (tags_of c p) [if b then 255 else 0]) <? 2 ^ 1008
  | SPrim (KInt []) c, APrim (NInt z) =>
      match int_to_bytes z true None with Ok x => len (object_bytes (tags_of c p) x) <? 2 ^ 1008 | Err _ => false end
  | _, _ => false
  end.
Lemma default_okb_sound s p d : wf s -> taggable s p -> default_okb s p d = true ->
  exists ad w, denotes s d ad /\ der s (stags s p) ad w /\ len w < 2 ^ 1008.
Proof.
  intros W G H. pose proof (stags_ok s p W G) as K. unfold default_okb in H.
  destruct s as [[|[|]| | | | | | | | | | | |] c| | | | |]; try discriminate; destruct d as [|[]| | | |]; try discriminate.
  - apply Z.ltb_lt in H. exists (APrim (NBool b)), (object_bytes (tags_of c p) [if b then 255 else 0]).
    split; [cbn; repeat split; discriminate|]. split; [|exact H].
    apply (encodes_der_both _ W _ K); [|exact H]. cbn. split; [exact I|]. eexists. split; reflexivity.
  - destruct (der_int_encode z) as (x & E & D). rewrite E in H. apply Z.ltb_lt in H. exists (APrim (NInt z)), (object_bytes (tags_of c p) x).
    split; [cbn; repeat split; try discriminate; tauto|]. split; [|exact H].
    apply (encodes_der_both _ W _ K); [|exact H]. cbn. split; [tauto|]. exists x. split; [exact D|reflexivity].
Qed.

Fixpoint wfb (s : spec) : bool :=
  match s with
  | SPrim k c => kind_okb k && cls_okb c
  | SSeq c fs =>
      cls_okb c && negb (nilb fs) && nodupb eqb_text (map fname fs) && distinctb fs &&
      forallb (fun f => wfb (snd f) && taggableb (snd f) (f_params (fst f)) &&
        match fpres f with
        | Required => true
        | Optional => nilb (class_explicit (snd f))
        | Default d => nilb (class_explicit (snd f)) && default_okb (snd f) (f_params (fst f)) d
        end) fs
  | SSet c fs => false
  | SSeqOf c s' | SSetOf c s' => cls_okb c && wfb s' && taggableb s' no_params && nilb (class_explicit s')
  | SChoice ex alts =>
      forallb tag_okb ex && nodupb eqb_text (map fname alts) && nodupb id_eqb (flat_map ids alts) &&
      forallb (fun f => wfb (snd f) && taggableb (snd f) (f_params (fst f)) && negb (is_choice (snd f)) && nilb (class_explicit (snd f))) alts
  end.
Theorem wfb_sound s : wfb s = true -> wf s.
Proof.
  induction s as [k c|c fs IH|c fs IH|c s IH|c s IH|ex alts IH] using spec_rect'; cbn [wfb wf]; try discriminate.
  - rewrite andb_true_iff. intros [H K]. split; [now apply kind_okb_sound | now apply cls_okb_sound].
  - rewrite !andb_true_iff. intros [[[[H N] D] R] F]. split; [now apply cls_okb_sound|].
    split; [intros ->; discriminate|]. split; [exact (nodupb_sound _ eqb_text_iff _ D)|]. split; [now apply distinctb_sound|].
    clear H N D R. induction fs as [|f fs IHl]; cbn; auto. inversion IH as [|? ? If Ir]. subst. cbn [forallb] in F. apply andb_true_iff in F as [F Fr].
    split; [|auto]. apply andb_true_iff in F as [F P]. apply andb_true_iff in F as [F T]. apply If in F. apply taggableb_sound in T.
    split; [exact F|]. split; [exact T|]. destruct (fpres f) as [| |d] eqn:Ep; auto; [now apply nilb_iff|].
    apply andb_true_iff in P as [P Q]. apply nilb_iff in P. split; [exact P|]. split; [|exact (default_okb_sound _ _ _ F T Q)].
    unfold default_okb in Q. destruct (snd f) as [[|[|]| | | | | | | | | | | |] ?| | | | |]; try discriminate; exact I.
  - rewrite !andb_true_iff. intros [[[H K] T] X]. split; [now apply cls_okb_sound|]. split; [auto|]. split; [now apply taggableb_sound | now apply nilb_iff].
  - rewrite !andb_true_iff. intros [[[H K] T] X]. split; [now apply cls_okb_sound|]. split; [auto|]. split; [now apply taggableb_sound | now apply nilb_iff].
  - rewrite !andb_true_iff. intros [[[H N] D] F]. split; [now apply tags_okb_sound|]. split; [exact (nodupb_sound _ eqb_text_iff _ N)|].
    split; [exact (nodupb_sound _ id_eqb_iff _ D)|]. clear H N D.
    induction alts as [|f alts IHl]; cbn; auto. inversion IH as [|? ? If Ir]. subst. cbn [forallb] in F. apply andb_true_iff in F as [F Fr].
    split; [|auto]. rewrite !andb_true_iff in F. destruct F as [[[F T] C] X].
    split; [auto|]. split; [now apply taggableb_sound|]. split; [now apply negb_true_iff | now apply nilb_iff].
Qed.
