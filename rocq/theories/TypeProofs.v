(* Decision of the relations of TypeSpec. *)
Require Import Verif.Base Verif.BaseFacts Verif.Text Verif.CodecModel Verif.PrimModel Verif.ContModel Verif.ContSpec Verif.ContBase Verif.ReadModel Verif.TypeSpec Verif.LibProofs.
Require Coq.Strings.String.
Require Verif.ShapeModel.
Require Import Coq.Bool.Bool.
Import Coq.Strings.String.StringSyntax.
Local Open Scope string_scope.

Definition universal_kindb (tag : Z) (k : kind) : bool :=
  match k with
  | KBool => Z.eqb tag 1 | KInt _ => Z.eqb tag 2 | KBits _ | KOctetBits | KIntBits => Z.eqb tag 3 | KOctets => Z.eqb tag 4 || Z.eqb tag 21 | KIntOctets => Z.eqb tag 4
  | KNull => Z.eqb tag 5 | KOid _ => Z.eqb tag 6 || Z.eqb tag 13 | KEnum _ => Z.eqb tag 10
  | KStr Utf8 => Z.eqb tag 12 | KStr Teletex => Z.eqb tag 20 | KStr Ascii => Z.eqb tag 22 | KStr Utf32be => Z.eqb tag 28 | KStr Utf16be => Z.eqb tag 30
  | KStr Latin1 => Z.eqb tag 18 || Z.eqb tag 19 || Z.eqb tag 26 || Z.eqb tag 27
  | KUtcTime => Z.eqb tag 23 | KGenTime _ => Z.eqb tag 24
  | _ => false
  end.
Lemma universal_kindb_sound tag k : universal_kindb tag k = true -> universal_kind tag k.
Proof. destruct k as [| | | | | | | | | |e| | |]; try destruct e; cbn; rewrite ?orb_true_iff, ?Z.eqb_eq; try tauto; try discriminate. Qed.
Definition integersb (k : kind) : bool := match k with KIntBits | KIntOctets => true | _ => false end.
Lemma integersb_sound k : integersb k = false -> ~ integers k.
Proof. destruct k; cbn; tauto || discriminate. Qed.

Definition eqb_pairs (a b : list (Z * Z)) : bool := match a, b with [], [] => true | [(x, y)], [(z, w)] => Z.eqb x z && Z.eqb y w | _, _ => false end.
Lemma eqb_pairs_sound a b : eqb_pairs a b = true -> a = b.
Proof.
  destruct a as [|[x y] [|? ?]], b as [|[z w] [|? ?]]; cbn; try discriminate; auto. rewrite andb_true_iff, !Z.eqb_eq. intros [-> ->]. reflexivity.
Qed.
Definition eqb_opt (a b : option (Z * Z)) : bool := match a, b with None, None => true | Some (x, y), Some (z, w) => Z.eqb x z && Z.eqb y w | _, _ => false end.
Lemma eqb_opt_sound a b : eqb_opt a b = true -> a = b.
Proof. destruct a as [[x y]|], b as [[z w]|]; cbn; try discriminate; auto. rewrite andb_true_iff, !Z.eqb_eq. intros [-> ->]. reflexivity. Qed.
Definition eqb_params (p q : params) : bool :=
  eqb_pairs (p_explicit p) (p_explicit q) && eqb_opt (p_implicit p) (p_implicit q) && Bool.eqb (p_no_explicit p) (p_no_explicit q).
Lemma eqb_params_sound p q : eqb_params p q = true -> p = q.
Proof.
  destruct p as [a b c], q as [a' b' c']. unfold eqb_params. cbn [p_explicit p_implicit p_no_explicit]. rewrite !andb_true_iff. intros [[A B] C].
  apply eqb_pairs_sound in A. apply eqb_opt_sound in B. apply eqb_prop in C. congruence.
Qed.
Definition meant_params (t : ShapeModel.tagging) : params :=
  match t with ShapeModel.Untagged => no_params | ShapeModel.Explicit n => Params [(2, n)] None false | ShapeModel.Implicit n => Params [] (Some (2, n)) false end.
Lemma params_sound t p : eqb_params p (meant_params t) = true -> params_are t p.
Proof. intros H. apply eqb_params_sound in H. subst p. destruct t; reflexivity. Qed.

Definition defaultb (d : ShapeModel.dval) (a : aval) : bool :=
  match d, a with
  | ShapeModel.DBool b, APrim (NBool c) => Bool.eqb b c
  | ShapeModel.DNum z, APrim (NInt w) => Z.eqb z w
  | ShapeModel.DName s, APrim (NText t) => eqb_text (tx s) t
  | ShapeModel.DBytes b, APrim (NBytes c) => eqb_bytes b c
  | _, _ => false
  end.
Lemma defaultb_sound d a : defaultb d a = true -> default_is d a.
Proof.
  destruct d, a as [|v| | | |]; try discriminate; destruct v; try discriminate; cbn; intros H.
  - apply eqb_prop in H. now subst.
  - apply Z.eqb_eq in H. now subst.
  - apply eqb_text_iff in H. now subst.
  - apply eqb_bytes_spec in H. now subst.
Qed.
Definition presenceb (p : ShapeModel.presence) (q : presence) : bool :=
  match p, q with
  | ShapeModel.Required, Required | ShapeModel.Optional, Optional => true
  | ShapeModel.Default d, Default a => defaultb d a
  | _, _ => false
  end.
Lemma presenceb_sound p q : presenceb p q = true -> presence_is p q.
Proof. destruct p, q; cbn; try discriminate; auto. apply defaultb_sound. Qed.
Definition clsb (c : pcls) (n : Z) : bool :=
  Z.eqb (k_class c) 0 && Z.eqb (k_tag c) n && match k_explicit c, k_bad c with [], [] => true | _, _ => false end.
Lemma clsb_sound c n : clsb c n = true -> c = Cls 0 n [] [].
Proof.
  destruct c as [a b e f]. unfold clsb. cbn [k_class k_tag k_explicit k_bad]. rewrite !andb_true_iff, !Z.eqb_eq. intros [[-> ->] H].
  destruct e; [|discriminate]. destruct f; [reflexivity|discriminate].
Qed.

Section Lists.
  Context {A B : Type}. Variable f : A -> B -> bool.
  Fixpoint all2b (l : list A) (m : list B) : bool :=
    match l, m with [], [] => true | x :: l', y :: m' => f x y && all2b l' m' | _, _ => false end.
  Lemma all2b_sound (R : A -> B -> Prop) : (forall x y, f x y = true -> R x y) -> forall l m, all2b l m = true -> all2 R l m.
  Proof. intros H. induction l as [|x l IH]; intros [|y m]; cbn; try discriminate; auto. rewrite andb_true_iff. intros [K L]. auto. Qed.
End Lists.

Section Library.
Variable lib : list ShapeModel.sclass.
Fixpoint specb (s : spec) (t : ShapeModel.ty) {struct s} : bool :=
  let component (f : fld * spec) (p : ShapeModel.component) :=
    eqb_text (f_name (fst f)) (tx (ShapeModel.p_name p)) && eqb_params (f_params (fst f)) (meant_params (ShapeModel.p_tag p)) &&
    presenceb (ShapeModel.p_presence p) (f_pres (fst f)) && specb (snd f) (ShapeModel.p_type p) in
  match s, t with
  | SPrim k c, ShapeModel.Universal n => clsb c n && universal_kindb n k && negb (integersb k)
  | SSeq c fs, ShapeModel.Named n => match ShapeModel.def_of lib n with Some (ShapeModel.Components k l) => Z.eqb k 16 && clsb c 16 && all2b component fs l | _ => false end
  | SSeqOf c s', ShapeModel.Named n => match ShapeModel.def_of lib n with Some (ShapeModel.Items k u) => Z.eqb k 16 && clsb c 16 && specb s' u | _ => false end
  | SSetOf c s', ShapeModel.Named n => match ShapeModel.def_of lib n with Some (ShapeModel.Items k u) => Z.eqb k 17 && clsb c 17 && specb s' u | _ => false end
  | SChoice [] fs, ShapeModel.Named n => match ShapeModel.def_of lib n with Some (ShapeModel.Alternatives None l) => all2b component fs l | _ => false end
  | _, _ => false
  end.

Lemma specb_sound s : forall t, specb s t = true -> spec_is lib s t.
Proof.
  induction s as [k c|c fs IH|c fs IH|c s IH|c s IH|ex fs IH] using spec_rect'; intros t H; destruct t as [n| | | |n]; try discriminate H; cbn [specb spec_is] in *;
    try (destruct ex; discriminate H).
  - rewrite !andb_true_iff, negb_true_iff in H. destruct H as [[C K] I]. exists n. split; [reflexivity|]. split; [now apply clsb_sound|].
    split; [now apply universal_kindb_sound|now apply integersb_sound].
  - destruct (ShapeModel.def_of lib n) as [[k l|k u|o l|k]|] eqn:E; try discriminate H. rewrite !andb_true_iff, Z.eqb_eq in H. destruct H as [[-> C] H].
    exists n, l. split; [reflexivity|]. split; [exact E|]. split; [now apply clsb_sound|]. clear E C. revert l H.
    induction IH as [|f fs Hf _ IHf]; intros [|p l]; cbn [all2 all2b]; try discriminate; auto. rewrite !andb_true_iff. intros [[[[N P] Q] S] L].
    split; [|now apply IHf]. repeat split; [now apply eqb_text_iff|now apply params_sound|now apply presenceb_sound|now apply Hf].
  - destruct (ShapeModel.def_of lib n) as [[k l|k u|o l|k]|] eqn:E; try discriminate H. rewrite !andb_true_iff, Z.eqb_eq in H. destruct H as [[-> C] H].
    exists n, u. repeat split; auto. now apply clsb_sound.
  - destruct (ShapeModel.def_of lib n) as [[k l|k u|o l|k]|] eqn:E; try discriminate H. rewrite !andb_true_iff, Z.eqb_eq in H. destruct H as [[-> C] H].
    exists n, u. repeat split; auto. now apply clsb_sound.
  - destruct ex; [|discriminate]. destruct (ShapeModel.def_of lib n) as [[k l|k u|o l|k]|] eqn:E; try discriminate H. destruct o; [discriminate|].
    exists n, l. split; [reflexivity|]. split; [exact E|]. split; [reflexivity|]. clear E. revert l H.
    induction IH as [|f fs Hf _ IHf]; intros [|p l]; cbn [all2 all2b]; try discriminate; auto. rewrite !andb_true_iff. intros [[[[N P] Q] S] L].
    split; [|now apply IHf]. repeat split; [now apply eqb_text_iff|now apply params_sound|now apply presenceb_sound|now apply Hf].
Qed.

(* ---- by reference ---- *)
Fixpoint tyb (a b : ShapeModel.ty) : bool :=
  match a, b with
  | ShapeModel.Universal m, ShapeModel.Universal n => Z.eqb m n
  | ShapeModel.Open, ShapeModel.Open | ShapeModel.Chosen, ShapeModel.Chosen => true
  | ShapeModel.ListOf m t, ShapeModel.ListOf n u => Z.eqb m n && tyb t u
  | ShapeModel.Named m, ShapeModel.Named n => String.eqb m n
  | _, _ => false
  end.
Lemma tyb_sound a : forall b, tyb a b = true -> a = b.
Proof.
  induction a as [m| |m t IH| |m]; intros [n| |n u| |n]; cbn; try discriminate; auto.
  - intros H. apply Z.eqb_eq in H. now subst.
  - rewrite andb_true_iff, Z.eqb_eq. intros [-> H]. now rewrite (IH u H).
  - intros H. apply String.eqb_eq in H. now subst.
Qed.
Definition oty (a : option ShapeModel.ty) (b : ShapeModel.ty) : bool := match a with Some a => tyb a b | None => false end.
Lemma oty_sound a b : oty a b = true -> a = Some b.
Proof. destruct a; [|discriminate]. cbn. intros H. now rewrite (tyb_sound _ _ H). Qed.
Definition refb (r : option ref) (t : ShapeModel.ty) : bool :=
  match r, t with
  | None, ShapeModel.Chosen => true
  | Some (CName n), _ => oty (ShapeModel.type_of lib n) t
  | Some (COf n i), ShapeModel.ListOf k u => match ShapeModel.attribute lib ShapeModel.c_tag n with Some z => Z.eqb z k | None => false end && oty (ShapeModel.type_of lib i) u
  | _, _ => false
  end.
Lemma refb_sound r t : refb r t = true -> ref_is lib r t.
Proof.
  destruct r as [[n|n i]|]; cbn [refb ref_is].
  - apply oty_sound.
  - destruct t; try discriminate. rewrite andb_true_iff. destruct (ShapeModel.attribute lib ShapeModel.c_tag n) as [z|]; [|intros [? ?]; discriminate].
    rewrite Z.eqb_eq. intros [-> H]. split; [reflexivity|now apply oty_sound].
  - destruct t; try discriminate. auto.
Qed.
Definition rfieldb (f : rfield) (p : ShapeModel.component) : bool :=
  eqb_text (g_name f) (tx (ShapeModel.p_name p)) && eqb_params (g_params f) (meant_params (ShapeModel.p_tag p)) &&
  match ShapeModel.p_presence p, g_pres f with
  | ShapeModel.Required, GReq | ShapeModel.Optional, GOpt | ShapeModel.Default _, GDef _ => true
  | _, _ => false
  end && refb (g_class f) (ShapeModel.p_type p).
Lemma rfieldb_sound f p : rfieldb f p = true -> rfield_is lib f p.
Proof.
  unfold rfieldb, rfield_is. rewrite !andb_true_iff. intros [[[N P] Q] R]. repeat split; [now apply eqb_text_iff|now apply params_sound| |now apply refb_sound].
  unfold rpresence_is. destruct (ShapeModel.p_presence p), (g_pres f); auto; discriminate.
Qed.
Definition classb (n : string) (own_text : bool) (c : pcls) (d : rdef) : bool :=
  let sub b := ShapeModel.subclass lib n b in
  let simple := match ShapeModel.def_of lib n with Some (ShapeModel.Simple t) => Z.eqb t (k_tag c) | _ => false end in
  match d with
  | DPrim k => simple &&
      if own_text then match k with KOctets => true | _ => false end
      else universal_kindb (k_tag c) k && Bool.eqb (match k with KIntOctets => true | _ => false end) (sub "core.IntegerOctetString")
           && Bool.eqb (match k with KIntBits => true | _ => false end) (sub "core.IntegerBitString")
           && Bool.eqb (match k with KOctetBits => true | _ => false end) (sub "core.OctetBitString")
  | DParse bits => simple && Z.eqb (k_tag c) (if bits then 3 else 4)
  | DAny => oty (ShapeModel.type_of lib n) ShapeModel.Open
  | DSeq fs _ => match ShapeModel.def_of lib n with Some (ShapeModel.Components t l) => Z.eqb t (k_tag c) && (Z.eqb (k_tag c) 16 || Z.eqb (k_tag c) 11) && all2b rfieldb fs l | _ => false end
  | DOf None => match ShapeModel.attribute lib ShapeModel.c_child n, ShapeModel.attribute lib ShapeModel.c_tag n with
      | None, Some t => Z.eqb t (k_tag c) && sub "core.SequenceOf" | _, _ => false end
  | DOf item => match ShapeModel.def_of lib n with Some (ShapeModel.Items t u) => Z.eqb t (k_tag c) && refb item u | _ => false end
  | DChoice fs _ => match ShapeModel.def_of lib n with Some (ShapeModel.Alternatives None l) => all2b rfieldb fs l | _ => false end
  end.
Lemma classb_sound n own c d : classb n own c d = true -> class_is lib n own c d.
Proof.
  unfold classb, class_is. destruct d as [k| |bits|fs sel|item|alts fx].
  - rewrite andb_true_iff. intros [S H]. destruct (ShapeModel.def_of lib n) as [[? ?|? ?|? ?|t]|]; try discriminate S. apply Z.eqb_eq in S. subst t. split; [reflexivity|].
    destruct own; [now destruct k|]. rewrite !andb_true_iff in H. destruct H as [[[K A] B] C]. apply eqb_prop in A, B, C. rewrite <- A, <- B, <- C.
    split; [now apply universal_kindb_sound|]. clear. destruct k; repeat split; intros; discriminate || reflexivity.
  - apply oty_sound.
  - rewrite andb_true_iff, Z.eqb_eq. intros [S H]. destruct (ShapeModel.def_of lib n) as [[? ?|? ?|? ?|t]|]; try discriminate S. apply Z.eqb_eq in S. subst t. auto.
  - destruct (ShapeModel.def_of lib n) as [[t l|? ?|? ?|?]|]; try discriminate. rewrite !andb_true_iff, orb_true_iff, !Z.eqb_eq. intros [[-> T] H]. exists l. repeat split; auto.
    now apply (all2b_sound rfieldb (rfield_is lib) rfieldb_sound).
  - destruct item as [r|].
    2:{ destruct (ShapeModel.attribute lib ShapeModel.c_child n); [discriminate|]. destruct (ShapeModel.attribute lib ShapeModel.c_tag n) as [t|]; [|discriminate].
        rewrite andb_true_iff, Z.eqb_eq. intros [-> H]. auto. }
    destruct (ShapeModel.def_of lib n) as [[? ?|t u|? ?|?]|]; try discriminate. rewrite andb_true_iff, Z.eqb_eq. intros [-> H]. exists u. split; auto. now apply refb_sound.
  - destruct (ShapeModel.def_of lib n) as [[? ?|? ?|[?|] l|?]|]; try discriminate. intros H. exists l. split; auto.
    now apply (all2b_sound rfieldb (rfield_is lib) rfieldb_sound).
Qed.
End Library.
