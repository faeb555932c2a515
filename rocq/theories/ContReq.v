(* Required fields: an object that was loaded always has a value in each of them. *)
Require Import Verif.Base Verif.Text Verif.ParserModel Verif.PrimModel Verif.ContModel Verif.ContPath.

(* ---- the statement ---- *)
Definition full_fields {A} (fs : list (fld * A)) (l : list value) : Prop :=
  forall i f s, nth_error fs i = Some (f, s) -> f_pres f = Required ->
    exists v, nth_error l i = Some v /\ v <> VVoid.
(* no required field of the object is empty *)
Definition required_present (s : spec) (v : value) : Prop :=
  match s, v with
  | SSeq _ fs, VSeq _ _ (Some l) _ _ | SSet _ fs, VSeq _ _ (Some l) _ _ => full_fields fs l
  | _, _ => True
  end.

(* ---- no operation empties an object ---- *)
Definition nv (v : value) : Prop := v <> VVoid.
Record firm (o : ops) : Prop := Firm {
  fm_make : forall p d a v, x_make o p d a = Ok v -> nv v;
  fm_build : forall p d i v, x_build o p d i = Ok v -> nv v;
  fm_contents : forall v, nv v -> nv (fst (x_contents o v));
  fm_dump : forall f v, nv v -> nv (fst (x_dump o f v));
  fm_parse : forall f v, nv v -> nv (fst (x_parse o f v));
  fm_native : forall v, nv v -> nv (fst (x_native o v));
  fm_retag : forall p v w, x_retag o p v = Ok w -> nv w;
  fm_get : forall i v, nv v -> nv (fst (x_get o i v));
  fm_set : forall i a v, nv v -> nv (fst (x_set o i a v));
  fm_del : forall i v, nv v -> nv (fst (x_del o i v));
  fm_append : forall a v, nv v -> nv (fst (x_append o a v));
  fm_len : forall v, nv v -> nv (fst (x_len o v)) }.

Ltac brk :=
  repeat match goal with
  | |- context [let '(_, _) := ?x in _] => destruct x as [? ?] eqn:?
  | |- context [match ?x with _ => _ end] => destruct x eqn:?
  end; cbn [fst snd] in *.
Lemma nv_prim o : nv (VPrim o). Proof. discriminate. Qed.
Lemma nv_seq t e c m n : nv (VSeq t e c m n). Proof. discriminate. Qed.
Lemma nv_list t e c m n : nv (VList t e c m n). Proof. discriminate. Qed.
Lemma nv_choice t e i w : nv (VChoice t e i w). Proof. discriminate. Qed.
Global Hint Resolve nv_prim nv_seq nv_list nv_choice : nv.
Lemma bind_ok {A B} (r : res A) (f : A -> res B) y : bind r f = Ok y -> exists x, r = Ok x /\ f x = Ok y.
Proof. destruct r; cbn; [eauto|discriminate]. Qed.

(* the primitives *)
Lemma firm_prim k c : firm (prim_ops k c).
Proof.
  split; cbn [prim_ops x_make x_build x_contents x_dump x_parse x_native x_retag x_get x_set x_del x_append x_len fst]; unfold on_prim; intros;
    try assumption; try (brk; auto with nv).
  - unfold make_prim in H. destruct (match a with ANone => _ | _ => _ end); try (apply bind_ok in H as (ob & _ & H); inversion H; auto with nv);
      destruct k; try discriminate; apply bind_ok in H as (ob & _ & H); inversion H; auto with nv.
  - apply bind_ok in H as (ob & _ & H). inversion H; auto with nv.
  - destruct v; try discriminate. apply bind_ok in H as (ob & _ & H). inversion H; auto with nv.
Qed.

Lemma place_header_nv v h t : nv v -> nv (place_header v h t).
Proof. destruct v; cbn; auto with nv. Qed.
Lemma place_explicit_nv v h t x : nv v -> nv (place_explicit v h t x).
Proof. destruct v; cbn; auto with nv. Qed.
Lemma build_with_nv c p probe plain place i v :
  (forall q j w, plain q j = Ok w -> nv w) -> (forall w a b x, nv w -> nv (place w a b x)) -> build_with c p probe plain place i = Ok v -> nv v.
Proof.
  intros H1 H2 H. unfold build_with in H. destruct (has_explicit c p); [|eauto].
  apply bind_ok in H as (u & _ & H). apply bind_ok in H as (t & _ & H). apply bind_ok in H as ([[j hd] tl] & _ & H).
  apply bind_ok in H as (w & W & H). inversion H; subst. apply H2. eauto.
Qed.

(* operations that keep the kind of the object *)
Definition is_seq (v : value) : Prop := match v with VSeq _ _ _ _ _ => True | _ => False end.
Definition is_list (v : value) : Prop := match v with VList _ _ _ _ _ => True | _ => False end.
Definition is_choice (v : value) : Prop := match v with VChoice _ _ _ _ => True | _ => False end.
Definition keeps {A} (shape : value -> Prop) (f : value -> value * res A) : Prop :=
  forall v, (shape v -> shape (fst (f v))) /\ (~ shape v -> fst (f v) = v).
Lemma keeps_nv {A} (shape : value -> Prop) (f : value -> value * res A) v : (forall v, shape v -> nv v) -> (shape v \/ ~ shape v) -> keeps shape f -> nv v -> nv (fst (f v)).
Proof. intros P D T N. destruct (T v) as [T1 T2]. destruct D as [D|D]; [auto|rewrite T2; auto]. Qed.
Lemma is_seq_nv v : is_seq v -> nv v. Proof. destruct v; easy. Qed.
Lemma is_list_nv v : is_list v -> nv v. Proof. destruct v; easy. Qed.
Lemma is_choice_nv v : is_choice v -> nv v. Proof. destruct v; easy. Qed.
Lemma seq_nv {A} (f : value -> value * res A) v : keeps is_seq f -> nv v -> nv (fst (f v)).
Proof. apply keeps_nv; [exact is_seq_nv|destruct v; cbn; tauto]. Qed.
Lemma list_nv {A} (f : value -> value * res A) v : keeps is_list f -> nv v -> nv (fst (f v)).
Proof. apply keeps_nv; [exact is_list_nv|destruct v; cbn; tauto]. Qed.
Lemma choice_nv {A} (f : value -> value * res A) v : keeps is_choice f -> nv v -> nv (fst (f v)).
Proof. apply keeps_nv; [exact is_choice_nv|destruct v; cbn; tauto]. Qed.

(* sequences and sets *)
Section Fields.
  Variable c : pcls.
  Variable fs : list (fld * ops).
  Variable is_set : bool.
  Ltac tm := intros v; split; intros Q; destruct v; cbn [is_seq is_list is_choice] in Q; try (exfalso; tauto); try reflexivity; clear Q.
  Lemma tame_flat : keeps is_seq (parse_flat fs is_set).
  Proof. tm. unfold parse_flat. brk; exact I. Qed.
  Lemma tame_ensure : keeps is_seq (ensure fs is_set).
  Proof.
    intros v. pose proof (tame_flat v) as [F1 F2]. split.
    - intros S. specialize (F1 S). destruct v; try easy. unfold ensure. destruct ch; [exact I|].
      destruct (parse_flat fs is_set _) as [w r] eqn:E. cbn [fst] in F1. destruct w; try easy. destruct ch; destruct r as [[]|]; exact I.
    - intros S. specialize (F2 S). unfold ensure. destruct v; try easy; exfalso; now apply S.
  Qed.
  Lemma tame_set_contents f : keeps is_seq (set_contents_seq fs is_set f).
  Proof.
    intros v. pose proof (tame_ensure v) as [F1 F2]. unfold set_contents_seq. destruct (ensure fs is_set v) as [w r]. cbn [fst] in *. split.
    - intros S. specialize (F1 S). destruct w; try easy. destruct r; [|exact I].
      destruct (if is_set then _ else _) as [l' x]. destruct x; exact I.
    - intros S. rewrite (F2 S). destruct v; try (destruct r; reflexivity). now exfalso; apply S.
  Qed.
  Lemma tame_contents : keeps is_seq (contents_seq fs is_set).
  Proof.
    tm. unfold contents_seq. destruct ch as [l|]; [|exact I]. destruct (mutated _); [|exact I].
    pose proof (tame_set_contents false (VSeq t e (Some l) m nc)) as [F _]. specialize (F I).
    destruct (set_contents_seq fs is_set false _) as [w r]. cbn [fst] in F. destruct w; try easy. destruct r as [[]|]; exact I.
  Qed.
  Lemma tame_dump f : keeps is_seq (dump_seq fs is_set f).
  Proof.
    tm. unfold dump_seq. set (b := (_ && _)%bool).
    pose proof (tame_set_contents b (VSeq t e ch m nc)) as [F _]. specialize (F I).
    assert (is_seq (fst (if b then set_contents_seq fs is_set b (VSeq t e ch m nc) else (VSeq t e ch m nc, Ok tt)))) as G
      by (destruct b; [exact F|exact I]).
    destruct (if b then _ else _) as [w x]. cbn [fst] in G. destruct x; [|exact G]. destruct w; try easy.
    destruct ch0 as [l|]; [|destruct (finish_dump _ _ _); exact I].
    destruct (missing fs l); [exact I|].
    pose proof (tame_contents (VSeq t0 e0 (Some l) m0 nc0)) as [K _]. specialize (K I).
    destruct (contents_seq fs is_set _) as [w r]. cbn [fst] in K. destruct w; try easy. destruct r; [destruct (finish_dump _ _ _)|]; exact I.
  Qed.
  Lemma tame_parse f : keeps is_seq (parse_seq fs is_set f).
  Proof.
    tm; try (cbn; reflexivity). unfold parse_seq.
    pose proof (tame_flat (VSeq t e ch m nc)) as [F _]. specialize (F I).
    destruct (parse_flat fs is_set _) as [w r]. cbn [fst] in F. destruct w; try easy. destruct ch0; destruct r as [[]|]; try exact I.
    destruct (_ && _)%bool; [|exact I]. destruct (build_all fs l); exact I.
  Qed.
  Lemma tame_native : keeps is_seq (native_seq fs is_set).
  Proof.
    tm; try (cbn; reflexivity). unfold native_seq.
    pose proof (tame_contents (VSeq t e ch m nc)) as [F _]. specialize (F I).
    destruct (contents_seq fs is_set _) as [w r]. cbn [fst] in F. destruct w; try easy. destruct r as [[x|]|]; try exact I.
    destruct nc0; [exact I|].
    assert (is_seq (fst (match ch0 with None => parse_seq fs is_set true (VSeq t0 e0 ch0 m0 None) | Some _ => (VSeq t0 e0 ch0 m0 None, Ok tt) end))) as G.
    { destruct ch0; [exact I|]. now apply (tame_parse true (VSeq t0 e0 None m0 None)). }
    destruct (match ch0 with Some _ => _ | None => _ end) as [w y]. cbn [fst] in G. destruct w; try easy.
    destruct y; [|destruct ch1; exact I]. destruct ch1; [|exact I].
    destruct (natives 0 fs l) as [[l' ns] z]. destruct z; exact I.
  Qed.
  Lemma tame_get i : keeps is_seq (get_seq fs is_set i).
  Proof.
    intros v. pose proof (tame_ensure v) as [F1 F2]. unfold get_seq. destruct (ensure fs is_set v) as [w r]. cbn [fst] in *. split.
    - intros S. specialize (F1 S). destruct w; try easy. destruct r; [|exact I].
      destruct (nth_error a i) as [x|]; [|exact I]. destruct (nth_error fs i) as [fo|]; [destruct (built fo x); destruct x; exact I|destruct x; exact I].
    - intros S. rewrite (F2 S). destruct v; try (destruct r; reflexivity). now exfalso; apply S.
  Qed.
  Lemma tame_setitem i a : keeps is_seq (set_seq fs is_set i a).
  Proof.
    intros v. pose proof (tame_ensure v) as [F1 F2]. unfold set_seq. destruct (ensure fs is_set v) as [w r]. cbn [fst] in *. split.
    - intros S. specialize (F1 S). destruct w; try easy. destruct r; [|exact I]. brk; exact I.
    - intros S. rewrite (F2 S). destruct v; try (destruct r; reflexivity). now exfalso; apply S.
  Qed.
  Lemma tame_del i : keeps is_seq (del_seq fs is_set i).
  Proof.
    intros v. pose proof (tame_ensure v) as [F1 F2]. unfold del_seq. destruct (ensure fs is_set v) as [w r]. cbn [fst] in *. split.
    - intros S. specialize (F1 S). destruct w; try easy. destruct r; [|exact I]. destruct (nth_error fs i) as [fo|]; [|exact I].
      destruct (f_pres (fst fo)); try exact I. now apply (tame_setitem i ANone (VSeq t e ch m nc)).
    - intros S. rewrite (F2 S). destruct v; try (destruct r; reflexivity). now exfalso; apply S.
  Qed.
  Lemma tame_len : keeps is_seq (len_seq fs is_set).
  Proof.
    intros v. pose proof (tame_ensure v) as [F1 F2]. unfold len_seq. destruct (ensure fs is_set v) as [w r]. cbn [fst] in *. split.
    - intros S. destruct r; cbn [fst]; auto.
    - intros S. destruct r; cbn [fst]; auto.
  Qed.
  Lemma set_keys_seq keep d l : forall i v w, is_seq v -> set_keys fs is_set keep d l i v = Ok w -> is_seq w.
  Proof.
    induction l as [|fo l IH]; intros i v w S H; cbn [set_keys] in H; [inversion H; now subst|].
    destruct (dict_get d _); [|eauto]. destruct (keep i v); [eauto|]. pose proof (tame_setitem i a v) as [T _]. specialize (T S).
    destruct (set_seq fs is_set i a v) as [w' [[]|]]; [|discriminate]. eauto.
  Qed.
  Lemma set_dict_seq keep a v w : is_seq v -> set_dict fs is_set keep a v = Ok w -> is_seq w.
  Proof.
    intros S H. destruct a; cbn [set_dict] in H; try discriminate; [inversion H; now subst|].
    apply bind_ok in H as (x & X & H). destruct (known_keys fs l); inversion H; subst. eapply set_keys_seq; eauto.
  Qed.
  Lemma make_seq_is p d a v : make_seq c fs is_set p d a = Ok v -> is_seq v.
  Proof. unfold make_seq. intros H. apply bind_ok in H as (t & _ & H). eapply set_dict_seq; [|exact H]. exact I. Qed.
  Lemma plain_seq_is d p i v : plain_seq c fs is_set d p i = Ok v -> is_seq v.
  Proof.
    unfold plain_seq. intros H. apply bind_ok in H as (t & _ & H). apply bind_ok in H as (w & W & H).
    destruct (check_tags c t i); inversion H; subst. assert (is_seq w) as S.
    { destruct d as [d|]; [|inversion W; exact I].
      pose proof (tame_flat (VSeq t (Enc 1 None (Some (i_contents i)) [] false) None false None)) as [T _]. specialize (T I).
      destruct (parse_flat fs is_set _) as [u [[]|]]; [|discriminate]. eapply set_dict_seq; eauto. }
    destruct w; try easy.
  Qed.
  Lemma firm_seq : firm (seq_ops c fs is_set).
  Proof.
    split; cbn [seq_ops x_make x_build x_contents x_dump x_parse x_native x_retag x_get x_set x_del x_append x_len fst]; intros.
    - eapply is_seq_nv, make_seq_is; eauto.
    - unfold build_seq in H. eapply build_with_nv; [| |exact H]; [|apply place_explicit_nv].
      intros q j w W. eapply is_seq_nv, plain_seq_is; exact W.
    - now apply seq_nv; [apply tame_contents|].
    - now apply seq_nv; [apply tame_dump|].
    - now apply seq_nv; [apply tame_parse|].
    - now apply seq_nv; [apply tame_native|].
    - apply bind_ok in H as (t & _ & H). unfold copy_seq in H. destruct (contents_seq fs is_set v) as [? [|]]; inversion H. auto with nv.
    - now apply seq_nv; [apply tame_get|].
    - now apply seq_nv; [apply tame_setitem|].
    - now apply seq_nv; [apply tame_del|].
    - assumption.
    - now apply seq_nv; [apply tame_len|].
  Qed.
End Fields.

(* lists *)
Section Elements.
  Variable c : pcls.
  Variable o : ops.
  Variable ex : list (Z * Z).
  Variable sorted : bool.
  Ltac tm := intros v; split; intros Q; destruct v; cbn [is_seq is_list is_choice] in Q; try (exfalso; tauto); try reflexivity; clear Q.
  Lemma lt_flat : keeps is_list list_flat.
  Proof. tm. unfold list_flat. brk; exact I. Qed.
  Lemma lt_ensure : keeps is_list ensure_list.
  Proof.
    intros v. pose proof (lt_flat v) as [F1 F2]. split.
    - intros S. specialize (F1 S). destruct v; try easy. unfold ensure_list. destruct ch; [exact I|].
      destruct (list_flat _) as [w r] eqn:E. cbn [fst] in F1. destruct w; try easy. destruct ch; destruct r as [[]|]; exact I.
    - intros S. specialize (F2 S). unfold ensure_list. destruct v; try easy; exfalso; now apply S.
  Qed.
  Lemma lt_set_contents f : keeps is_list (set_contents_list o sorted f).
  Proof.
    intros v. pose proof (lt_ensure v) as [F1 F2]. unfold set_contents_list. destruct (ensure_list v) as [w r]. cbn [fst] in *. split.
    - intros S. specialize (F1 S). destruct w; try easy. destruct r; [|exact I].
      destruct (dump_elts o f a) as [l' x]. destruct x; exact I.
    - intros S. rewrite (F2 S). destruct v; try (destruct r; reflexivity). now exfalso; apply S.
  Qed.
  Lemma lt_contents : keeps is_list (contents_list o sorted).
  Proof.
    tm. unfold contents_list. destruct ch as [l|]; [|exact I]. destruct (mutated _); [|exact I].
    pose proof (lt_set_contents false (VList t e (Some l) m nc)) as [F _]. specialize (F I).
    destruct (set_contents_list o sorted false _) as [w r]. cbn [fst] in F. destruct w; try easy. destruct r as [[]|]; exact I.
  Qed.
  Lemma lt_dump f : keeps is_list (dump_list o sorted f).
  Proof.
    tm. unfold dump_list. set (b := (_ || _)%bool).
    pose proof (lt_set_contents true (VList t e ch m nc)) as [F _]. specialize (F I).
    assert (is_list (fst (if b then set_contents_list o sorted true (VList t e ch m nc) else (VList t e ch m nc, Ok tt)))) as G
      by (destruct b; [exact F|exact I]).
    destruct (if b then _ else _) as [w x]. cbn [fst] in G. destruct x; [|exact G].
    pose proof (lt_contents w) as [K _]. specialize (K G).
    destruct (contents_list o sorted w) as [u r]. cbn [fst] in K. destruct u; try easy. destruct r; [destruct (finish_dump _ _ _)|]; exact I.
  Qed.
  Lemma lt_parse f : keeps is_list (parse_list o f).
  Proof.
    tm; try (cbn; reflexivity). unfold parse_list.
    pose proof (lt_flat (VList t e ch m nc)) as [F _]. specialize (F I).
    destruct (list_flat _) as [w r]. cbn [fst] in F. destruct w; try easy. destruct ch0; destruct r as [[]|]; try exact I.
    destruct f; [|exact I]. destruct (build_elts o l); exact I.
  Qed.
  Lemma lt_native : keeps is_list (native_list o sorted).
  Proof.
    tm; try (cbn; reflexivity). unfold native_list.
    pose proof (lt_contents (VList t e ch m nc)) as [F _]. specialize (F I).
    destruct (contents_list o sorted _) as [w r]. cbn [fst] in F. destruct w; try easy. destruct r as [[x|]|]; try exact I.
    destruct nc0; [exact I|].
    assert (is_list (fst (match ch0 with None => parse_list o true (VList t0 e0 ch0 m0 None) | Some _ => (VList t0 e0 ch0 m0 None, Ok tt) end))) as G.
    { destruct ch0; [exact I|]. now apply (lt_parse true (VList t0 e0 None m0 None)). }
    destruct (match ch0 with Some _ => _ | None => _ end) as [w y]. cbn [fst] in G. destruct w; try easy.
    destruct y; [|destruct ch1; exact I]. destruct ch1; [|exact I].
    destruct (natives_list o 0 l) as [[l' ns] z]. destruct z; exact I.
  Qed.
  Lemma lt_get i : keeps is_list (get_list o i).
  Proof.
    intros v. pose proof (lt_ensure v) as [F1 F2]. unfold get_list. destruct (ensure_list v) as [w r]. cbn [fst] in *. split.
    - intros S. specialize (F1 S). destruct w; try easy. destruct r; [|exact I]. brk; exact I.
    - intros S. rewrite (F2 S). destruct v; try (destruct r; reflexivity). now exfalso; apply S.
  Qed.
  Lemma lt_set i a : keeps is_list (set_list o ex i a).
  Proof.
    intros v. pose proof (lt_ensure v) as [F1 F2]. unfold set_list. destruct (ensure_list v) as [w r]. cbn [fst] in *. split.
    - intros S. specialize (F1 S). destruct w; try easy. destruct r; [|exact I].
      destruct (make_elt o ex a) as [u|]; [|exact I]. destruct (Nat.ltb _ _); [exact I|]. destruct nc; [|exact I].
      destruct (x_native o u) as [u2 [|]]; exact I.
    - intros S. rewrite (F2 S). destruct v; try (destruct r; reflexivity). now exfalso; apply S.
  Qed.
  Lemma lt_del i : keeps is_list (del_list i).
  Proof.
    intros v. pose proof (lt_ensure v) as [F1 F2]. unfold del_list. destruct (ensure_list v) as [w r]. cbn [fst] in *. split.
    - intros S. specialize (F1 S). destruct w; try easy. destruct r; [|exact I]. destruct (Nat.ltb _ _); exact I.
    - intros S. rewrite (F2 S). destruct v; try (destruct r; reflexivity). now exfalso; apply S.
  Qed.
  Lemma lt_append a : keeps is_list (append_list o ex a).
  Proof.
    intros v. pose proof (lt_ensure v) as [F1 F2]. unfold append_list. destruct (ensure_list v) as [w r]. cbn [fst] in *. split.
    - intros S. specialize (F1 S). destruct w; try easy. destruct r; [|exact I].
      destruct (make_elt o ex a) as [u|]; [|exact I]. destruct nc; [|exact I]. destruct (x_native o u) as [u2 [|]]; exact I.
    - intros S. rewrite (F2 S). destruct v; try (destruct r; reflexivity). now exfalso; apply S.
  Qed.
  Lemma lt_len : keeps is_list len_list.
  Proof.
    intros v. pose proof (lt_ensure v) as [F1 F2]. unfold len_list. destruct (ensure_list v) as [w r]. cbn [fst] in *.
    split; intros S; destruct r; cbn [fst]; auto.
  Qed.
  Lemma set_all_is l : forall i v w, is_list v -> set_all o ex i l v = Ok w -> is_list w.
  Proof.
    induction l as [|a l IH]; intros i v w S H; cbn [set_all] in H; [inversion H; now subst|].
    pose proof (lt_set i a v) as [T _]. specialize (T S). destruct (set_list o ex i a v) as [u [[]|]]; [|discriminate]. eauto.
  Qed.
  Lemma firm_list : firm (list_ops c o ex sorted).
  Proof.
    split; cbn [list_ops x_make x_build x_contents x_dump x_parse x_native x_retag x_get x_set x_del x_append x_len fst]; intros.
    - unfold make_list in H. apply bind_ok in H as (t & _ & H). destruct (match a with ANone => _ | _ => _ end); try discriminate; [inversion H; auto with nv|].
      apply bind_ok in H as (w & W & H). apply set_all_is in W; [|exact I]. pose proof (lt_contents w) as [K _]. specialize (K W).
      destruct (contents_list o sorted w) as [u [[x|]|]]; [inversion H; subst; now apply is_list_nv| |discriminate].
      pose proof (lt_set_contents false u) as [K2 _]. specialize (K2 K). destruct (set_contents_list o sorted false u) as [u2 [[]|]]; inversion H; subst.
      now apply is_list_nv.
    - unfold build_list in H. eapply build_with_nv; [| |exact H]; [|apply place_explicit_nv].
      intros q j w W. unfold plain_list in W. apply bind_ok in W as (t & _ & W). destruct (check_tags c t j); inversion W. auto with nv.
    - now apply list_nv; [apply lt_contents|].
    - now apply list_nv; [apply lt_dump|].
    - now apply list_nv; [apply lt_parse|].
    - now apply list_nv; [apply lt_native|].
    - apply bind_ok in H as (t & _ & H). unfold copy_list in H. destruct (contents_list o sorted v) as [? [|]]; inversion H. auto with nv.
    - now apply list_nv; [apply lt_get|].
    - now apply list_nv; [apply lt_set|].
    - now apply list_nv; [apply lt_del|].
    - now apply list_nv; [apply lt_append|].
    - now apply list_nv; [apply lt_len|].
  Qed.
End Elements.

(* choices *)
Section Alternatives.
  Variable ex : list (Z * Z).
  Variable alts : list (fld * ops).
  Ltac tm := intros v; split; intros Q; destruct v; cbn [is_seq is_list is_choice] in Q; try (exfalso; tauto); try reflexivity; clear Q.
  Lemma ch_parse : keeps is_choice (parse_choice alts).
  Proof. tm. unfold parse_choice. brk; exact I. Qed.
  Lemma ch_with f : keeps is_choice (choice_with alts f).
  Proof.
    intros v. pose proof (ch_parse v) as [F1 F2]. unfold choice_with. destruct (parse_choice alts v) as [w r]. cbn [fst] in *. split.
    - intros S. specialize (F1 S). destruct w; try easy. destruct r as [[]|]; [|destruct idx; [destruct parsed|]; exact I]. destruct idx; [|exact I]. destruct parsed; [|exact I].
      destruct (nth_error alts n) as [[? ?]|]; [|exact I]. destruct (f _ _); exact I.
    - intros S. rewrite (F2 S). destruct v; try (destruct r as [[]|]; reflexivity); now exfalso; apply S.
  Qed.
  Lemma ch_contents : keeps is_choice (contents_choice alts).
  Proof.
    tm. unfold contents_choice. destruct idx; [|exact I]. destruct parsed; [|exact I].
    destruct (nth_error alts n) as [[? ?]|]; [|exact I]. destruct (x_contents _ _); exact I.
  Qed.
  Lemma ch_native : keeps is_choice (native_choice alts).
  Proof.
    intros v. pose proof (ch_parse v) as [F1 F2]. unfold native_choice. destruct (parse_choice alts v) as [w r]. cbn [fst] in *. split.
    - intros S. specialize (F1 S). destruct w; try easy. destruct r as [[]|]; [|destruct idx; [destruct parsed|]; exact I]. destruct idx; [|exact I]. destruct parsed; [|exact I].
      destruct (nth_error alts n) as [[? ?]|]; [|exact I]. destruct (x_native _ _); exact I.
    - intros S. rewrite (F2 S). destruct v; try (destruct r as [[]|]; reflexivity); now exfalso; apply S.
  Qed.
  Lemma ch_dump f : keeps is_choice (dump_choice alts f).
  Proof.
    tm. unfold dump_choice. pose proof (ch_with (fun o w => x_dump o (f || ends_80 (e_header e)) w) (VChoice t e idx parsed)) as [F _].
    specialize (F I). destruct (choice_with alts _ _) as [w r]. cbn [fst] in F. destruct w; try easy. destruct r; exact I.
  Qed.
  Lemma plain_choice_is p i v : plain_choice ex alts p i = Ok v -> is_choice v.
  Proof.
    unfold plain_choice. intros H. apply bind_ok in H as (t & _ & H). apply bind_ok in H as (k & _ & H).
    set (v0 := VChoice t _ (Some k) None) in H. pose proof (ch_parse v0) as [F _]. specialize (F I).
    destruct (parse_choice alts v0) as [w [[]|]]; inversion H; subst. cbn [fst] in F. destruct w; exact F.
  Qed.
  Lemma firm_choice : firm (choice_ops ex alts).
  Proof.
    split; cbn [choice_ops x_make x_build x_contents x_dump x_parse x_native x_retag x_get x_set x_del x_append x_len fst]; intros; try assumption.
    - unfold make_choice in H. apply bind_ok in H as (t & _ & H). apply bind_ok in H as (u & _ & H).
      destruct (match a with ADict _ => _ | _ => _ end) as [| | | |nm ?|]; try discriminate; [inversion H; auto with nv|].
      destruct (alt_named alts 0 nm) as [k|]; [|discriminate]. destruct (nth_error alts k) as [[f o]|]; [|discriminate].
      apply bind_ok in H as (w & _ & H). inversion H. auto with nv.
    - unfold build_choice in H. destruct (has_explicit _ p); [|now eapply is_choice_nv, plain_choice_is; eauto].
      apply bind_ok in H as (u & _ & H). apply bind_ok in H as (t & _ & H). apply bind_ok in H as ([[j hd] tl] & _ & H).
      apply bind_ok in H as (w & W & H). inversion H. apply place_explicit_nv. eapply is_choice_nv, plain_choice_is; eauto.
    - now apply choice_nv; [apply ch_contents|].
    - now apply choice_nv; [apply ch_dump|].
    - now apply choice_nv; [apply ch_native|].
    - apply bind_ok in H as (t & _ & H). unfold copy_choice in H. destruct (contents_choice alts v) as [u [x|]]; destruct u; try discriminate.
      apply bind_ok in H as (w' & _ & H). inversion H. auto with nv.
    - now apply choice_nv; [apply ch_parse|].
  Qed.
End Alternatives.

Lemma firm_methods s : firm (methods s).
Proof. destruct s; cbn [methods]; auto using firm_prim, firm_seq, firm_list, firm_choice. Qed.

(* ---- the fields of a loaded object ---- *)
Section Loaded.
  Variable c : pcls.
  Variable fs : list (fld * ops).
  Variable is_set : bool.
  Hypothesis firms : forall i f o, nth_error fs i = Some (f, o) -> firm o.

  Lemma absent_child_full (fo : fld * ops) v : absent_child fo = Ok v -> f_pres (fst fo) <> Required.
  Proof. destruct fo as [f o]. cbn. destruct (f_pres f); [discriminate|discriminate|discriminate]. Qed.
  Lemma full_nil l : full_fields (@nil (fld * ops)) l.
  Proof. intros i f s H. destruct i; discriminate. Qed.
  Lemma full_cons (fo : fld * ops) r v l : (f_pres (fst fo) = Required -> v <> VVoid) -> full_fields r l -> full_fields (fo :: r) (v :: l).
  Proof.
    intros H F [|i] f s N R; cbn [nth_error] in *; [|eapply F; eauto]. inversion N; subst. exists v. split; [reflexivity|auto].
  Qed.
  Lemma absent_children_full l : forall vs, absent_children l = Ok vs -> full_fields l vs.
  Proof.
    induction l as [|fo l IH]; intros vs H; [apply full_nil|]. cbn [absent_children] in H.
    apply bind_ok in H as (v & V & H). apply bind_ok in H as (ws & W & H). inversion H; subst. apply full_cons; [|auto].
    intros R. now apply absent_child_full in V.
  Qed.
  Lemma seq_loop_full n : forall cont l parts p vs, seq_loop n cont l parts p = Ok vs -> full_fields l vs.
  Proof.
    induction n as [|n IH]; intros cont l parts p vs H; [discriminate|]. cbn [seq_loop] in H. destruct parts as [i|].
    - destruct l as [|fo r]; [apply full_nil|]. destruct (takes fo i).
      + apply bind_ok in H as (ws & W & H). inversion H; subst. apply full_cons; [discriminate|eauto].
      + apply bind_ok in H as (v & V & H). apply bind_ok in H as (ws & W & H). inversion H; subst. apply full_cons; [|eauto].
        intros R. now apply absent_child_full in V.
    - destruct (p <? len cont); [|now apply absent_children_full].
      apply bind_ok in H as ([i p'] & _ & H). eauto.
  Qed.
  Lemma set_fill_full l : forall found vs, length found = length l -> set_fill l found = Ok vs -> full_fields l vs.
  Proof.
    induction l as [|fo l IH]; intros [|x found] vs L H; try discriminate; [apply full_nil|]. cbn [set_fill] in H.
    apply bind_ok in H as (v & V & H). apply bind_ok in H as (ws & W & H). inversion H; subst. apply full_cons.
    - intros R. destruct x; [inversion V; discriminate|now apply absent_child_full in V].
    - eapply IH; [|exact W]. cbn in L. lia.
  Qed.
  Lemma update_length {A} (l : list A) : forall n x, length (update l n x) = length l.
  Proof. induction l; intros [|n] x; cbn; auto. Qed.
  Lemma set_loop_length n : forall cont p found r, set_loop fs n cont p found = Ok r -> length r = length found.
  Proof.
    induction n as [|n IH]; intros cont p found r H; [discriminate|]. cbn [set_loop] in H. destruct (p <? len cont); [|inversion H; now subst].
    apply bind_ok in H as ([i p'] & _ & H). destruct (find_field fs 0 i); [|discriminate]. apply IH in H. now rewrite update_length in H.
  Qed.
  Lemma children_full cont l : (if is_set then set_children fs cont else seq_children fs cont) = Ok l -> full_fields fs l.
  Proof.
    destruct is_set.
    - unfold set_children. intros H. apply bind_ok in H as (found & F & H). apply set_loop_length in F. rewrite map_length in F.
      eapply set_fill_full; eauto.
    - unfold seq_children. apply seq_loop_full.
  Qed.

  (* an object with contents whose children, if parsed, fill the required fields *)
  Definition loaded (v : value) : Prop :=
    match v with VSeq _ e ch _ _ => e_contents e <> None /\ forall l, ch = Some l -> full_fields fs l | _ => False end.
  Definition keeps_loaded {A} (f : value -> value * res A) : Prop := forall v, loaded v -> loaded (fst (f v)).
  Definition same_voids (l l' : list value) : Prop := length l' = length l /\ forall i v, nth_error l i = Some v -> v <> VVoid -> exists v', nth_error l' i = Some v' /\ v' <> VVoid.
  Lemma full_voids l l' : full_fields fs l -> same_voids l l' -> full_fields fs l'.
  Proof. intros F [_ S] i f s N R. destruct (F i f s N R) as (v & V & X). eauto. Qed.
  Lemma voids_refl l : same_voids l l. Proof. split; eauto. Qed.
  Lemma voids_cons v v' l l' : (v <> VVoid -> v' <> VVoid) -> same_voids l l' -> same_voids (v :: l) (v' :: l').
  Proof.
    intros H [L S]. split; [cbn; congruence|]. intros [|i] w N X; cbn [nth_error] in *; [|eauto]. inversion N; subst. exists v'. auto.
  Qed.
  Lemma update_nth {A} (l : list A) : forall i j x, nth_error (update l i x) j =
    if Nat.eqb i j then match nth_error l j with Some _ => Some x | None => None end else nth_error l j.
  Proof.
    induction l as [|y l IH]; intros [|i] [|j] x; cbn [update nth_error Nat.eqb]; try reflexivity; [now destruct (Nat.eqb i j)|apply IH].
  Qed.
  Lemma full_update l i v : full_fields fs l -> (forall f o, nth_error fs i = Some (f, o) -> f_pres f = Required -> v <> VVoid) -> full_fields fs (update l i v).
  Proof.
    intros F H j f s N R. destruct (F j f s N R) as (w & W & X). rewrite update_nth, W. destruct (Nat.eqb_spec i j) as [->|D]; eauto.
  Qed.

  Lemma ld_flat : keeps_loaded (parse_flat fs is_set).
  Proof.
    intros v L. destruct v; try easy. destruct L as [L1 L2]. unfold parse_flat. destruct (e_contents e) as [cont|] eqn:E; [|now exfalso; apply L1].
    destruct (if is_set then _ else _) as [l|x] eqn:K; cbn [fst loaded]; (split; [congruence|]); intros l' X; inversion X; subst.
    now apply children_full in K.
  Qed.
  Lemma ld_ensure v : loaded v -> loaded (fst (ensure fs is_set v)) /\ forall l, snd (ensure fs is_set v) = Ok l -> full_fields fs l.
  Proof.
    intros L. pose proof (ld_flat v L) as F. unfold ensure. destruct v; try easy. destruct ch as [l|].
    - split; [exact L|]. intros l' H. inversion H; subst. now apply L.
    - destruct (parse_flat fs is_set _) as [w r]. cbn [fst] in F. destruct w; try easy. destruct r as [[]|]; destruct ch; cbn [fst snd]; (split; [exact F|]); intros l' H; inversion H; subst.
      now apply F.
  Qed.
  Lemma ensure_seq v l : loaded v -> snd (ensure fs is_set v) = Ok l -> exists t e m nc, fst (ensure fs is_set v) = VSeq t e (Some l) m nc /\ e_contents e <> None.
  Proof.
    intros L. destruct (ld_ensure v L) as [F _]. revert F. unfold ensure. destruct v; try easy. destruct ch as [l0|].
    - cbn [fst snd]. intros F H. inversion H; subst. exists t, e, m, nc. split; [reflexivity|apply F].
    - destruct (parse_flat fs is_set _) as [w r]. destruct w; try easy; try (destruct r as [[]|]; cbn; easy).
      destruct ch; destruct r as [[]|]; cbn [fst snd]; intros F H; inversion H; subst. exists t0, e0, m0, nc0. split; [reflexivity|apply F].
  Qed.
  Lemma built_firm i fo v b : nth_error fs i = Some fo -> built fo v = Ok b -> v <> VVoid -> b <> VVoid.
  Proof.
    destruct fo as [f o]. intros N H V. cbn [built] in H. destruct v; try (inversion H; subst; assumption). eapply fm_build; [|exact H]. eapply firms; eauto.
  Qed.
  Lemma child_dump_firm o f v : firm o -> v <> VVoid -> fst (child_dump o f v) <> VVoid.
  Proof. intros F V. unfold child_dump. destruct v; try easy; now apply fm_dump. Qed.
  Lemma child_native_firm o v : firm o -> v <> VVoid -> fst (child_native o v) <> VVoid.
  Proof. intros F V. unfold child_native. destruct v; try easy; now apply fm_native. Qed.
  Lemma child_contents_firm o v : firm o -> v <> VVoid -> fst (child_contents o v) <> VVoid.
  Proof. intros F V. unfold child_contents. destruct v; try easy; now apply fm_contents. Qed.

  (* loops over the children keep the empty ones apart *)
  Lemma dump_fields_voids f l : (forall i g o, nth_error l i = Some (g, o) -> firm o) -> forall vs, same_voids vs (fst (dump_fields f l vs)).
  Proof.
    induction l as [|fo l IH]; intros Fl vs; [apply voids_refl|]. cbn [dump_fields]. destruct vs as [|v vr]; [apply voids_refl|].
    assert (firm (snd fo)) as Fo by (apply (Fl 0%nat (fst fo)); cbn; now destruct fo).
    assert (forall i g o, nth_error l i = Some (g, o) -> firm o) as Fl' by (intros i; apply (Fl (S i))).
    set (p := match v with VLazy i => _ | _ => _ end).
    assert (v <> VVoid -> fst p <> VVoid) as P.
    { intros V. subst p. destruct v; try easy; try (now apply child_dump_firm).
      destruct f; [|easy]. destruct (built fo (VLazy i)) eqn:B; [|easy]. apply child_dump_firm; [exact Fo|].
      destruct fo as [g o]. cbn [built] in B. eapply fm_build; [|exact B]. exact Fo. }
    destruct p as [v1 x]. cbn [fst] in P. destruct x as [b|]; [|apply voids_cons; [exact P|apply voids_refl]].
    destruct (is_default fo b); [|apply voids_cons; [exact P|apply voids_refl]].
    specialize (IH Fl' vr). destruct (dump_fields f l vr) as [vr' y]. cbn [fst] in *. now apply voids_cons.
  Qed.
  Lemma dump_members_voids f l : (forall i g o, nth_error l i = Some (g, o) -> firm o) -> forall vs, same_voids vs (fst (dump_members f l vs)).
  Proof.
    induction l as [|fo l IH]; intros Fl vs; (destruct vs as [|v vr]; [apply voids_refl|]); cbn [dump_members]; [apply voids_refl|].
    assert (firm (snd fo)) as Fo by (apply (Fl 0%nat (fst fo)); cbn; now destruct fo).
    assert (forall i g o, nth_error l i = Some (g, o) -> firm o) as Fl' by (intros i; apply (Fl (S i))).
    set (p := match v with VLazy i => _ | _ => _ end).
    assert (v <> VVoid -> fst p <> VVoid) as P by (intros V; subst p; destruct v; try easy; now apply child_dump_firm).
    destruct p as [v1 x]. cbn [fst] in P. destruct x as [b|]; [|apply voids_cons; [exact P|apply voids_refl]].
    destruct (is_default fo b); [|apply voids_cons; [exact P|apply voids_refl]].
    specialize (IH Fl' vr). destruct (dump_members f l vr) as [vr' y]. cbn [fst] in *. now apply voids_cons.
  Qed.
  Lemma natives_voids l : (forall i g o, nth_error l i = Some (g, o) -> firm o) -> forall n vs, same_voids vs (fst (fst (natives n l vs))).
  Proof.
    induction l as [|fo l IH]; intros Fl n vs; (destruct vs as [|v vr]; [apply voids_refl|]); cbn [natives]; [apply voids_refl|].
    assert (firm (snd fo)) as Fo by (apply (Fl 0%nat (fst fo)); cbn; now destruct fo).
    assert (forall i g o, nth_error l i = Some (g, o) -> firm o) as Fl' by (intros i; apply (Fl (S i))).
    destruct (built fo v) as [b|] eqn:B; [|apply voids_refl].
    assert (v <> VVoid -> fst (child_native (snd fo) b) <> VVoid) as P.
    { intros V. apply child_native_firm; [exact Fo|]. destruct fo as [g o]. cbn [built] in B. destruct v; try (inversion B; subst; assumption).
      eapply fm_build; [|exact B]. exact Fo. }
    destruct (child_native (snd fo) b) as [v1 [a|]]; cbn [fst] in *; [|apply voids_cons; [exact P|apply voids_refl]].
    specialize (IH Fl' (S n) vr). destruct (natives (S n) l vr) as [[vr' ns] x]. cbn [fst] in *. now apply voids_cons.
  Qed.
  Lemma build_all_voids l : (forall i g o, nth_error l i = Some (g, o) -> firm o) -> forall vs ws, build_all l vs = Ok ws -> same_voids vs ws.
  Proof.
    intros Fl vs. revert l Fl. induction vs as [|v vs IH]; intros l Fl ws H; cbn [build_all] in H; [inversion H; apply voids_refl|].
    destruct l as [|fo l].
    - destruct v; try discriminate; apply bind_ok in H as (r & R & H); inversion H; subst; (apply voids_cons; [auto|]); eapply IH; eauto.
    - assert (firm (snd fo)) as Fo by (apply (Fl 0%nat (fst fo)); cbn; now destruct fo).
      apply bind_ok in H as (v1 & V1 & H). apply bind_ok in H as (r & R & H). inversion H; subst. apply voids_cons.
      + intros V. destruct v; try (inversion V1; subst; assumption). apply bind_ok in V1 as (b & B & V1).
        assert (b <> VVoid) as Nb. { destruct fo as [g o]. cbn [built] in B. eapply fm_build; [|exact B]. exact Fo. }
        pose proof (fm_parse _ Fo true b Nb) as Np.
        destruct b; try (inversion V1; subst; assumption); destruct (x_parse (snd fo) true _) as [b' [[]|]]; inversion V1; subst; exact Np.
      + eapply IH; [|exact R]. intros i. apply (Fl (S i)).
  Qed.

  Lemma ld_set_contents f v : loaded v -> loaded (fst (set_contents_seq fs is_set f v)).
  Proof.
    intros L. destruct (ld_ensure v L) as [E1 E2]. pose proof (ensure_seq v) as E3. unfold set_contents_seq.
    destruct (ensure fs is_set v) as [w r]. cbn [fst snd] in *. destruct r as [l|]; [|destruct w; try easy; exact E1].
    destruct (E3 l L eq_refl) as (t & e & m & nc & -> & C). specialize (E2 l eq_refl).
    assert (same_voids l (fst (if is_set then (let '(l', y) := dump_members f fs l in (l', do ms <- y; sort_members ms)) else dump_fields f fs l))) as S.
    { destruct is_set; [|now apply dump_fields_voids]. pose proof (dump_members_voids f fs firms l) as D. now destruct (dump_members f fs l). }
    destruct (if is_set then _ else _) as [l' x]. cbn [fst] in S. pose proof (full_voids l l' E2 S) as F.
    destruct x; cbn [fst loaded e_contents]; (split; [congruence|]); intros l0 X; inversion X; now subst.
  Qed.
  Lemma ld_contents : keeps_loaded (contents_seq fs is_set).
  Proof.
    intros v L. destruct v; try easy. unfold contents_seq. destruct ch as [l|]; [|exact L]. destruct (mutated _); [|exact L].
    pose proof (ld_set_contents false (VSeq t e (Some l) m nc) L) as F. destruct (set_contents_seq fs is_set false _) as [w r]. cbn [fst] in F.
    destruct w; try easy. destruct r as [[]|]; exact F.
  Qed.
  Lemma finish_dump_contents t e x : e_contents (fst (finish_dump t e x)) = e_contents e.
  Proof. unfold finish_dump. destruct x; [|reflexivity]. destruct (if ends_80 (e_header e) then None else e_header e); reflexivity. Qed.
  Lemma ld_dump f : keeps_loaded (dump_seq fs is_set f).
  Proof.
    intros v L. destruct v; try easy. unfold dump_seq. set (b := (_ && _)%bool).
    assert (loaded (fst (if b then set_contents_seq fs is_set b (VSeq t e ch m nc) else (VSeq t e ch m nc, Ok tt)))) as G
      by (destruct b; [now apply ld_set_contents|exact L]).
    destruct (if b then _ else _) as [w x]. cbn [fst] in G. destruct x; [|exact G]. destruct w; try easy.
    destruct ch0 as [l|].
    - destruct (missing fs l); [exact G|]. pose proof (ld_contents _ G) as K. destruct (contents_seq fs is_set _) as [w r]. cbn [fst] in K.
      destruct w; try easy. destruct r as [x|]; [|exact K]. pose proof (finish_dump_contents t1 e1 x) as Fd.
      destruct (finish_dump t1 e1 x) as [e' y]. cbn [fst loaded] in *. destruct K as [K1 K2]. split; [congruence|exact K2].
    - pose proof (finish_dump_contents t0 e0 (e_contents e0)) as Fd. destruct (finish_dump t0 e0 _) as [e' y]. cbn [fst loaded] in *.
      destruct G as [K1 K2]. split; [congruence|exact K2].
  Qed.
  Lemma ld_parse f : keeps_loaded (parse_seq fs is_set f).
  Proof.
    intros v L. pose proof (ld_flat v L) as F. unfold parse_seq. destruct (parse_flat fs is_set v) as [w r]. cbn [fst] in F.
    destruct w; try easy. destruct ch as [l|]; destruct r as [[]|]; try exact F. destruct (_ && _)%bool; [|exact F].
    destruct (build_all fs l) as [l'|] eqn:B; cbn [fst loaded]; destruct F as [F1 F2]; (split; [exact F1|]); intros l0 X; inversion X; subst.
    eapply full_voids; [now apply F2|]. eapply build_all_voids; eauto.
  Qed.
  Lemma ld_native : keeps_loaded (native_seq fs is_set).
  Proof.
    intros v L. unfold native_seq. pose proof (ld_contents v L) as F. destruct (contents_seq fs is_set v) as [w r]. cbn [fst] in F.
    destruct w; try easy. destruct r as [[x|]|]; try exact F. destruct nc; [exact F|].
    assert (loaded (fst (match ch with None => parse_seq fs is_set true (VSeq t e ch m None) | Some _ => (VSeq t e ch m None, Ok tt) end))) as G.
    { destruct ch; [exact F|]. now apply ld_parse. }
    destruct (match ch with Some _ => _ | None => _ end) as [w y]. cbn [fst] in G. destruct w; try easy.
    destruct y; [|destruct ch0; exact G]. destruct ch0 as [l|]; [|exact G].
    pose proof (natives_voids fs firms 0 l) as S. destruct (natives 0 fs l) as [[l' ns] z]. cbn [fst] in S.
    destruct G as [G1 G2]. pose proof (full_voids l l' (G2 l eq_refl) S) as Fl.
    destruct z; cbn [fst loaded]; (split; [exact G1|]); intros l0 X; inversion X; now subst.
  Qed.
  Lemma ld_get i : keeps_loaded (get_seq fs is_set i).
  Proof.
    intros v L. destruct (ld_ensure v L) as [E1 E2]. pose proof (ensure_seq v) as E3. unfold get_seq.
    destruct (ensure fs is_set v) as [w r]. cbn [fst snd] in *. destruct r as [l|]; [|destruct w; exact E1].
    destruct (E3 l L eq_refl) as (t & e & m & nc & -> & C). specialize (E2 l eq_refl).
    destruct (nth_error l i) as [x|] eqn:N; [|exact E1]. destruct (nth_error fs i) as [fo|] eqn:Nf; [|destruct x; exact E1].
    destruct (built fo x) as [b|] eqn:B; [|destruct x; exact E1].
    assert (loaded (VSeq t e (Some (update l i b)) m nc)) as K.
    { split; [exact C|]. intros l0 X. inversion X; subst. apply full_update; [exact E2|]. intros f o Nf' R. rewrite Nf in Nf'. inversion Nf'; subst.
      destruct (E2 i f o Nf R) as (w & W & V). rewrite N in W. inversion W; subst. eapply built_firm; eauto. }
    destruct x; exact K.
  Qed.
  Lemma make_value_full f o a v : firm o -> f_pres f = Required -> make_value (f, o) a = Ok v -> v <> VVoid.
  Proof.
    intros Fo R H. cbn [make_value] in H.
    assert ((do w <- (if x_choice o then
                   match a with
                   | AObj p b => x_make o p None b
                   | AChoice _ _ => x_make o no_params None a
                   | ADict [(n, b)] => x_make o no_params None (AChoice n b)
                   | _ => Err ValueError
                   end
                 else
                   match a with
                   | AObj p b => x_make o p None b
                   | _ => x_make o (f_params f) (default_of f) a
                   end);
        fix_tagging o (f_params f) w) = Ok v) as H'.
    { rewrite R in H. destruct a; try exact H. destruct v0; exact H. }
    clear H. apply bind_ok in H' as (w & W & H). assert (w <> VVoid) as Nw.
    { destruct (x_choice o); destruct a as [| | | | |]; try discriminate; try (eapply fm_make; eauto; fail).
      destruct l as [|[? ?] [|]]; try discriminate; eapply fm_make; eauto. }
    unfold fix_tagging in H. destruct (_ || _)%bool; [|inversion H; now subst]. eapply fm_retag; eauto.
  Qed.
  Lemma ld_set i a : keeps_loaded (set_seq fs is_set i a).
  Proof.
    intros v L. destruct (ld_ensure v L) as [E1 E2]. pose proof (ensure_seq v) as E3. unfold set_seq.
    destruct (ensure fs is_set v) as [w r]. cbn [fst snd] in *. destruct r as [l|]; [|destruct w; exact E1].
    destruct (E3 l L eq_refl) as (t & e & m & nc & -> & C). specialize (E2 l eq_refl).
    destruct (nth_error fs i) as [[f o]|] eqn:Nf; [|exact E1]. destruct (make_value (f, o) a) as [u|] eqn:M; [|exact E1].
    pose proof (firms i f o Nf) as Fo. cbn [fst snd].
    assert (f_pres f = Required -> fst (child_contents o u) <> VVoid) as K.
    { intros R. apply child_contents_firm; [exact Fo|]. eapply make_value_full; eauto. }
    destruct (child_contents o u) as [u1 [[x|]|]]; try exact E1. cbn [fst] in K.
    assert (f_pres f = Required -> fst (child_native o u1) <> VVoid) as K2 by (intros R; apply child_native_firm; auto).
    destruct nc as [d|].
    - destruct (child_native o u1) as [u2 [y|]]; cbn [fst loaded] in *; (split; [exact C|]); intros l0 X; inversion X; subst;
        (apply full_update; [exact E2|]); intros f' o' N' R; rewrite Nf in N'; inversion N'; subst; auto.
    - cbn [fst loaded]. split; [exact C|]. intros l0 X. inversion X; subst. apply full_update; [exact E2|].
      intros f' o' N' R. rewrite Nf in N'. inversion N'; subst. auto.
  Qed.
  Lemma ld_del i : keeps_loaded (del_seq fs is_set i).
  Proof.
    intros v L. destruct (ld_ensure v L) as [E1 E2]. pose proof (ensure_seq v) as E3. unfold del_seq.
    destruct (ensure fs is_set v) as [w r]. cbn [fst snd] in *. destruct r as [l|]; [|destruct w; exact E1].
    destruct (E3 l L eq_refl) as (t & e & m & nc & -> & C). specialize (E2 l eq_refl).
    destruct (nth_error fs i) as [[f o]|] eqn:Nf; [|exact E1]. cbn [fst]. destruct (f_pres f) eqn:P.
    - exact E1.
    - cbn [fst loaded]. split; [exact C|]. intros l0 X. inversion X; subst. apply full_update; [exact E2|].
      intros f' o' N' R. rewrite Nf in N'. inversion N'; subst. congruence.
    - now apply ld_set.
  Qed.
  Lemma ld_len : keeps_loaded (len_seq fs is_set).
  Proof.
    intros v L. destruct (ld_ensure v L) as [E1 _]. unfold len_seq. destruct (ensure fs is_set v) as [w [l|]]; exact E1.
  Qed.
  Lemma ld_set_keys keep d l : forall i v w, loaded v -> set_keys fs is_set keep d l i v = Ok w -> loaded w.
  Proof.
    induction l as [|fo l IH]; intros i v w S H; cbn [set_keys] in H; [inversion H; now subst|].
    destruct (dict_get d _); [|eauto]. destruct (keep i v); [eauto|]. pose proof (ld_set i a v S) as T.
    destruct (set_seq fs is_set i a v) as [w' [[]|]]; [|discriminate]. eauto.
  Qed.
  Lemma ld_plain d p i v : plain_seq c fs is_set d p i = Ok v -> loaded v.
  Proof.
    unfold plain_seq. intros H. apply bind_ok in H as (t & _ & H). apply bind_ok in H as (w & W & H).
    destruct (check_tags c t i); inversion H; subst. clear H.
    set (v0 := VSeq t (Enc 1 None (Some (i_contents i)) [] false) None false None) in W.
    assert (loaded v0) as L0 by (split; [discriminate|discriminate]).
    assert (loaded w) as S.
    { destruct d as [d|]; [|inversion W; subst; exact L0]. pose proof (ld_flat v0 L0) as T.
      destruct (parse_flat fs is_set v0) as [u [[]|]]; [|discriminate]. cbn [fst] in T.
      unfold set_dict in W. destruct d; try discriminate; [inversion W; now subst|].
      apply bind_ok in W as (x & X & W). destruct (known_keys fs l); inversion W; subst. eapply ld_set_keys; eauto. }
    destruct w; exact S.
  Qed.
  Lemma ld_build p d i v : build_seq c fs is_set p d i = Ok v -> loaded v.
  Proof.
    unfold build_seq, build_with. destruct (has_explicit c p).
    - intros H. apply bind_ok in H as (u & _ & H). apply bind_ok in H as (t & _ & H). apply bind_ok in H as ([[j hd] tl] & _ & H).
      apply bind_ok in H as (w & W & H). inversion H; subst. apply ld_plain in W. destruct w; exact W.
    - apply ld_plain.
  Qed.
  Lemma put_inner_loaded i w v x : loaded v -> match v with VSeq _ _ (Some l) _ _ => nth_error l i = Some x | _ => True end -> (x <> VVoid -> w <> VVoid) -> loaded (put_inner i w v).
  Proof.
    intros L N H. destruct v; try easy. cbn [put_inner]. destruct ch as [l|]; [|exact L]. destruct L as [L1 L2]. split; [exact L1|].
    intros l0 X. inversion X; subst. apply full_update; [now apply L2|]. intros f o Nf R. apply H. destruct (L2 l eq_refl i f o Nf R) as (y & Y & V).
    rewrite Y in N. inversion N; now subst.
  Qed.
End Loaded.

(* ---- operations on objects and inside them ---- *)
Lemma perform_nv s x v : nv v -> nv (fst (perform s x v)).
Proof.
  intros N. pose proof (firm_methods s) as F. unfold perform. destruct v; try easy; destruct x; cbn [fst reply]; try (now apply F);
    destruct s; try easy; destruct (set_value _ _ _); easy.
Qed.
Lemma put_inner_nv i w v : nv v -> nv (put_inner i w v).
Proof. destruct v; cbn; auto with nv; destruct ch || destruct parsed; auto with nv. Qed.
Lemma through_nv p : forall x s v, nv v -> nv (fst (through p x s v)).
Proof.
  induction p as [|i p IH]; intros x s v N; cbn [through]; [now apply perform_nv|].
  assert (nv (fst (x_get (methods s) i v))) as G by (now apply firm_methods).
  destruct v; try easy; destruct (x_get (methods s) i _) as [v1 [[]|]]; cbn [fst] in *; try exact G;
    (destruct (inner s i v1) as [[s' w]|]; [|exact G]); destruct (through p x s' w) as [w' y]; cbn [fst]; now apply put_inner_nv.
Qed.
Definition fields_of (s : spec) : option (bool * list (fld * spec)) :=
  match s with SSeq _ fs => Some (false, fs) | SSet _ fs => Some (true, fs) | _ => None end.
Definition ops_of (fs : list (fld * spec)) : list (fld * ops) := map (fun fs => (fst fs, methods (snd fs))) fs.
Lemma ops_of_nth fs i f o : nth_error (ops_of fs) i = Some (f, o) -> exists s, nth_error fs i = Some (f, s) /\ o = methods s.
Proof.
  unfold ops_of. intros H. rewrite nth_error_map in H. destruct (nth_error fs i) as [[g s]|]; [|discriminate]. cbn in H. inversion H; subst. eauto.
Qed.
Lemma ops_of_firm fs i f o : nth_error (ops_of fs) i = Some (f, o) -> firm o.
Proof. intros H. apply ops_of_nth in H as (s & _ & ->). apply firm_methods. Qed.
Lemma full_ops fs l : full_fields (ops_of fs) l <-> full_fields fs l.
Proof.
  split; intros F i f s N R.
  - apply (F i f (methods s)); [|exact R]. unfold ops_of. rewrite nth_error_map, N. reflexivity.
  - apply ops_of_nth in N as (s' & N & _). eapply F; eauto.
Qed.
Lemma perform_loaded s b fs x v : fields_of s = Some (b, fs) -> loaded (ops_of fs) v -> loaded (ops_of fs) (fst (perform s x v)).
Proof.
  intros Fs L. pose proof (ops_of_firm fs) as F. destruct v; try easy.
  destruct s; try discriminate; inversion Fs; subst; cbn [perform methods];
    (destruct x; cbn [reply fst seq_ops x_native x_dump x_contents x_len x_get x_set x_del x_append]; try exact L);
    [apply ld_native|apply ld_dump|apply ld_contents|apply ld_len|apply ld_get|apply ld_set|apply ld_del
    |apply ld_native|apply ld_dump|apply ld_contents|apply ld_len|apply ld_get|apply ld_set|apply ld_del]; auto.
Qed.
Lemma through_loaded s b fs p x v : fields_of s = Some (b, fs) -> loaded (ops_of fs) v -> loaded (ops_of fs) (fst (through p x s v)).
Proof.
  intros Fs L. destruct p as [|i p]; [now apply (perform_loaded s b fs)|]. cbn [through].
  destruct v; try easy. set (v := VSeq t e ch m nc) in *.
  assert (loaded (ops_of fs) (fst (x_get (methods s) i v))) as G.
  { destruct s; try discriminate; inversion Fs; subst; cbn [methods seq_ops x_get]; apply ld_get; auto; exact (ops_of_firm fs). }
  destruct (x_get (methods s) i v) as [v1 [[]|]]; cbn [fst] in *; try exact G.
  destruct (inner s i v1) as [[s' w]|] eqn:In; [|exact G].
  pose proof (through_nv p x s' w) as T. destruct (through p x s' w) as [w' y]. cbn [fst] in *. apply (put_inner_loaded _ i w' v1 w); [exact G| |exact T].
  destruct v1; try easy. destruct ch0 as [l|]; [|exact I]. destruct s; try discriminate; cbn [inner] in In;
    (destruct (nth_error fs0 i); [|discriminate]); (destruct (nth_error l i); inversion In; now subst).
Qed.
Lemma after_loaded s b fs h : forall v, fields_of s = Some (b, fs) -> loaded (ops_of fs) v -> loaded (ops_of fs) (after s h v).
Proof.
  induction h as [|[p x] h IH]; intros v Fs L; [exact L|]. cbn [after]. apply IH; [exact Fs|]. now apply (through_loaded s b fs).
Qed.
Lemma cload_loaded s b fs p data strict v : fields_of s = Some (b, fs) -> cload s p data strict = Ok v -> loaded (ops_of fs) v.
Proof.
  intros Fs H. unfold cload in H. apply bind_ok in H as ([i e] & _ & H). destruct (_ && _)%bool; [discriminate|].
  pose proof (ops_of_firm fs) as F. destruct s; try discriminate; inversion Fs; subst; cbn [methods seq_ops x_build] in H; eapply ld_build; eauto.
Qed.

(* whatever is done to a loaded object, its required fields have a value *)
Lemma required_always s p data strict v h : cload s p data strict = Ok v -> required_present s (after s h v).
Proof.
  intros H. destruct (fields_of s) as [[b fs]|] eqn:Fs.
  - pose proof (after_loaded s b fs h v Fs (cload_loaded s b fs p data strict v Fs H)) as L.
    destruct s; try discriminate; inversion Fs; subst; cbn [required_present]; (destruct (after _ h v); try exact I); (destruct ch; [|exact I]);
      apply full_ops; now apply L.
  - destruct s; try discriminate; exact I.
Qed.

(* ---- required fields cannot be emptied ---- *)
Definition needed (s : spec) (i : nat) (f : fld) (s' : spec) : Prop :=
  match fields_of s with Some (_, fs) => nth_error fs i = Some (f, s') /\ f_pres f = Required | None => False end.
(* Null() has a value *)
Definition nothing (s : spec) : Prop := match s with SPrim KNull _ => False | _ => True end.

Lemma make_none s p v : nothing s -> x_make (methods s) p None ANone = Ok v ->
  exists w, x_contents (methods s) v = (w, Ok None) /\ w = v.
Proof.
  intros N H. destruct s; cbn [methods x_make prim_ops seq_ops list_ops choice_ops x_contents] in *.
  - unfold make_prim in H. apply bind_ok in H as (o & O & H). inversion H; subst. unfold make, new_obj in O.
    apply bind_ok in O as (o' & O' & O). apply bind_ok in O' as (t & _ & O'). inversion O; inversion O'; subst.
    cbn [on_prim contents o_enc e_contents]. destruct k; try easy; cbn; eauto.
  - unfold make_seq in H. apply bind_ok in H as (t & _ & H). inversion H; subst. cbn. eauto.
  - unfold make_seq in H. apply bind_ok in H as (t & _ & H). inversion H; subst. cbn. eauto.
  - unfold make_list in H. apply bind_ok in H as (t & _ & H). inversion H; subst. cbn. eauto.
  - unfold make_list in H. apply bind_ok in H as (t & _ & H). inversion H; subst. cbn. eauto.
  - unfold make_choice in H. apply bind_ok in H as (t & _ & H). apply bind_ok in H as (u & _ & H). inversion H; subst. cbn. eauto.
Qed.
Lemma make_none_plain s p v : nothing s -> x_make (methods s) p None ANone = Ok v ->
  match v with VPrim o => contents o = None /\ e_indef (o_enc o) = false | VSeq _ e ch _ _ | VList _ e ch _ _ => e_contents e = None /\ ch = None
             | VChoice _ e k w => e_contents e = None /\ k = None | _ => False end.
Proof.
  intros N H. destruct s; cbn [methods x_make prim_ops seq_ops list_ops choice_ops x_contents] in *.
  - unfold make_prim in H. apply bind_ok in H as (o & O & H). inversion H; subst. unfold make, new_obj in O.
    apply bind_ok in O as (o' & O' & O). apply bind_ok in O' as (t & _ & O'). inversion O; inversion O'; subst.
    destruct k; try easy.
  - unfold make_seq in H. apply bind_ok in H as (t & _ & H). inversion H; subst. cbn. auto.
  - unfold make_seq in H. apply bind_ok in H as (t & _ & H). inversion H; subst. cbn. auto.
  - unfold make_list in H. apply bind_ok in H as (t & _ & H). inversion H; subst. cbn. auto.
  - unfold make_list in H. apply bind_ok in H as (t & _ & H). inversion H; subst. cbn. auto.
  - unfold make_choice in H. apply bind_ok in H as (t & _ & H). apply bind_ok in H as (u & _ & H). inversion H; subst. cbn. auto.
Qed.
Lemma retag_none s p q v w : nothing s -> x_make (methods s) p None ANone = Ok v -> x_retag (methods s) q v = Ok w ->
  snd (x_contents (methods s) w) = Ok None.
Proof.
  intros N M R. pose proof (make_none_plain s p v N M) as P.
  assert (match s with SPrim _ _ => exists o, v = VPrim o | SSeq _ _ | SSet _ _ => exists t e ch m nc, v = VSeq t e ch m nc
          | SSeqOf _ _ | SSetOf _ _ => exists t e ch m nc, v = VList t e ch m nc | _ => exists t e k u, v = VChoice t e k u end) as Sh.
  { destruct s; cbn [methods x_make prim_ops seq_ops list_ops choice_ops] in M.
    - unfold make_prim in M. apply bind_ok in M as (o & _ & M). inversion M; eauto.
    - unfold make_seq in M. apply bind_ok in M as (t & _ & M). inversion M; subst; repeat eexists.
    - unfold make_seq in M. apply bind_ok in M as (t & _ & M). inversion M; subst; repeat eexists.
    - unfold make_list in M. apply bind_ok in M as (t & _ & M). inversion M; subst; repeat eexists.
    - unfold make_list in M. apply bind_ok in M as (t & _ & M). inversion M; subst; repeat eexists.
    - unfold make_choice in M. apply bind_ok in M as (t & _ & M). apply bind_ok in M as (u & _ & M). inversion M; subst; repeat eexists. }
  destruct s; cbn [methods x_retag x_contents prim_ops seq_ops list_ops choice_ops] in *.
  - destruct Sh as (o & ->). destruct P as [P1 P2]. apply bind_ok in R as (o' & R & X). inversion X; subst. cbn [on_prim snd]. f_equal.
    unfold retag, copy_onto in R. apply bind_ok in R as (t & _ & R). rewrite P2, andb_false_r in R. cbn [bind] in R.
    inversion R; subst. destruct k; exact P1.
  - destruct Sh as (t & e & ch & m & nc & ->). destruct P as [P1 ->]. apply bind_ok in R as (t' & _ & R). cbn [copy_seq contents_seq] in R.
    inversion R; subst. cbn. now rewrite P1.
  - destruct Sh as (t & e & ch & m & nc & ->). destruct P as [P1 ->]. apply bind_ok in R as (t' & _ & R). cbn [copy_seq contents_seq] in R.
    inversion R; subst. cbn. now rewrite P1.
  - destruct Sh as (t & e & ch & m & nc & ->). destruct P as [P1 ->]. apply bind_ok in R as (t' & _ & R). unfold copy_list in R. cbn [contents_list] in R.
    inversion R; subst. cbn. now rewrite P1.
  - destruct Sh as (t & e & ch & m & nc & ->). destruct P as [P1 ->]. apply bind_ok in R as (t' & _ & R). unfold copy_list in R. cbn [contents_list] in R.
    inversion R; subst. cbn. now rewrite P1.
  - destruct Sh as (t & e & k & u & ->). destruct P as [P1 ->]. apply bind_ok in R as (t' & _ & R). unfold copy_choice in R. cbn [contents_choice] in R.
    cbn [bind] in R. inversion R; subst. cbn. now rewrite P1.
Qed.

Section Refused.
  Variable fs : list (fld * spec).
  Variable is_set : bool.
  Let os := ops_of fs.
  Lemma ops_nth i f s : nth_error fs i = Some (f, s) -> nth_error os i = Some (f, methods s).
  Proof. intros H. unfold os, ops_of. now rewrite nth_error_map, H. Qed.
  Lemma len_state v : fst (len_seq os is_set v) = fst (ensure os is_set v).
  Proof. unfold len_seq. destruct (ensure os is_set v) as [w [l|]]; reflexivity. Qed.
  Lemma ensure_shape v : is_seq v -> is_seq (fst (ensure os is_set v)).
  Proof.
    intros S. destruct v; try easy. unfold ensure. destruct ch; [exact I|]. unfold parse_flat.
    destruct (e_contents e) as [cont|].
    - destruct (if is_set then _ else _); exact I.
    - destruct os; [exact I|]. destruct (init_children _); exact I.
  Qed.
  Lemma del_required i f s v : is_seq v -> nth_error fs i = Some (f, s) -> f_pres f = Required ->
    exists x, del_seq os is_set i v = (fst (len_seq os is_set v), Err x) /\ (snd (len_seq os is_set v) <> Err x -> x = ValueError).
  Proof.
    intros Sh N R. rewrite len_state. pose proof (ensure_shape v Sh) as Sh'. unfold del_seq, len_seq. destruct (ensure os is_set v) as [w [l|x]]; cbn [fst snd] in *.
    - destruct w; try easy. rewrite (ops_nth i f s N). cbn [fst]. rewrite R. eauto.
    - destruct w; try easy. exists x. split; [reflexivity|]. now intros [].
  Qed.
  Lemma set_none_required i f s v : is_seq v -> nth_error fs i = Some (f, s) -> f_pres f = Required -> nothing s ->
    exists x, set_seq os is_set i ANone v = (fst (len_seq os is_set v), Err x).
  Proof.
    intros Sh N R Nt. rewrite len_state. pose proof (ensure_shape v Sh) as Sh'. unfold set_seq, len_seq. destruct (ensure os is_set v) as [w [l|x]]; cbn [fst snd] in *.
    2: destruct w; eauto.
    destruct w; try easy. rewrite (ops_nth i f s N). destruct (make_value (f, methods s) ANone) as [u|] eqn:M; [|eauto].
    cbn [snd]. cbn [make_value] in M. rewrite R in M. destruct (x_choice (methods s)); [discriminate|].
    apply bind_ok in M as (u0 & M0 & M). unfold default_of in M0. rewrite R in M0.
    assert (nv u) as V.
    { unfold fix_tagging in M. destruct (_ || _)%bool; [eapply fm_retag; [apply firm_methods|exact M]|]. inversion M; subst. eapply fm_make; [apply firm_methods|exact M0]. }
    assert (snd (x_contents (methods s) u) = Ok None) as C.
    { unfold fix_tagging in M. destruct (_ || _)%bool.
      - eapply retag_none; eauto.
      - inversion M; subst. destruct (make_none s (f_params f) u Nt M0) as (w & -> & _). reflexivity. }
    assert (child_contents (methods s) u = x_contents (methods s) u) as -> by (destruct u; easy).
    destruct (x_contents (methods s) u) as [u1 r]. cbn [snd] in C. subst r. eauto.
  Qed.

  (* a field without a value stops dump *)
  Lemma missing_void i f o : forall l vs, nth_error l i = Some (f, o) -> f_pres f = Required -> nth_error vs i = Some VVoid -> missing l vs = true.
  Proof.
    induction i as [|i IH]; intros [|[g q] l] [|v vs] N R V; try discriminate; cbn [nth_error missing] in *.
    - inversion N; inversion V; subst. now rewrite R.
    - rewrite (IH l vs N R V). now destruct (f_pres g), v.
  Qed.
  Lemma dump_fields_void force i : forall (l : list (fld * ops)) vs, nth_error vs i = Some VVoid -> nth_error (fst (dump_fields force l vs)) i = Some VVoid.
  Proof.
    induction i as [|i IH]; intros [|fo l] [|v vs] V; try discriminate; cbn [nth_error dump_fields] in *; try assumption.
    - inversion V; subst. cbn [child_dump]. destruct (is_default fo []); [|reflexivity]. now destruct (dump_fields force l vs).
    - destruct (match v with VLazy _ => _ | _ => _ end) as [v1 [b|]]; [|exact V]. destruct (is_default fo b); [|exact V].
      specialize (IH l vs V). destruct (dump_fields force l vs) as [vr y]. exact IH.
  Qed.
  Lemma dump_members_void force i : forall (l : list (fld * ops)) vs, nth_error vs i = Some VVoid -> nth_error (fst (dump_members force l vs)) i = Some VVoid.
  Proof.
    induction i as [|i IH]; intros [|fo l] [|v vs] V; try discriminate; cbn [nth_error dump_members] in *; try assumption.
    - inversion V; subst. cbn [child_dump]. destruct (is_default fo []); [|reflexivity]. now destruct (dump_members force l vs).
    - destruct (match v with VLazy _ => _ | _ => _ end) as [v1 [b|]]; [|exact V]. destruct (is_default fo b); [|exact V].
      specialize (IH l vs V). destruct (dump_members force l vs) as [vr y]. exact IH.
  Qed.
  Lemma set_contents_void force i t e l m nc : nth_error l i = Some VVoid ->
    exists t' e' l' m' nc', fst (set_contents_seq os is_set force (VSeq t e (Some l) m nc)) = VSeq t' e' (Some l') m' nc' /\ nth_error l' i = Some VVoid.
  Proof.
    intros V. unfold set_contents_seq. cbn [ensure].
    assert (nth_error (fst (if is_set then (let '(l', y) := dump_members force os l in (l', do ms <- y; sort_members ms)) else dump_fields force os l)) i = Some VVoid) as K.
    { destruct is_set; [|now apply dump_fields_void]. pose proof (dump_members_void force i os l V) as D. now destruct (dump_members force os l). }
    destruct (if is_set then _ else _) as [l' [b|]]; cbn [fst] in *; repeat eexists; exact K.
  Qed.
  Lemma dump_void force i f s t e l m nc b : nth_error fs i = Some (f, s) -> f_pres f = Required -> nth_error l i = Some VVoid ->
    snd (dump_seq os is_set force (VSeq t e (Some l) m nc)) <> Ok b.
  Proof.
    intros N R V. unfold dump_seq. set (g := (_ && _)%bool).
    assert (exists t' e' l' m' nc', fst (if g then set_contents_seq os is_set g (VSeq t e (Some l) m nc) else (VSeq t e (Some l) m nc, Ok tt)) = VSeq t' e' (Some l') m' nc' /\ nth_error l' i = Some VVoid) as K.
    { destruct g; [now apply set_contents_void|repeat eexists; exact V]. }
    destruct (if g then _ else _) as [w x]. cbn [fst] in K. destruct K as (t' & e' & l' & m' & nc' & -> & V'). destruct x; [|discriminate].
    rewrite (missing_void i f (methods s) os l' (ops_nth i f s N) R V'). discriminate.
  Qed.
End Refused.

(* the three operations on objects of classes with fields *)
Definition row (v : value) : Prop := match v with VSeq _ _ _ _ _ => True | _ => False end.
Lemma methods_fields s b fs : fields_of s = Some (b, fs) -> exists c, methods s = seq_ops c (ops_of fs) b.
Proof. destruct s; try discriminate; intros H; inversion H; subst; exists c; reflexivity. Qed.
Lemma delete_refused s i f s' v : needed s i f s' -> row v ->
  exists x, perform s (ADel i) v = (fst (perform s ALen v), Err x) /\ (snd (perform s ALen v) <> Err x -> x = ValueError).
Proof.
  unfold needed. intros N Sh. destruct v; try easy. destruct (fields_of s) as [[b fs]|] eqn:Fs; [|easy]. destruct N as [N R].
  destruct (methods_fields s b fs Fs) as [c M]. cbn [perform]. rewrite M. cbn [reply fst snd seq_ops x_del x_len].
  destruct (del_required fs b i f s' (VSeq t e ch m nc) I N R) as (x & D & X). exists x. rewrite D. split; [reflexivity|].
  intros H. apply X. intros E. apply H. rewrite E. reflexivity.
Qed.
Lemma none_refused s i f s' v : needed s i f s' -> nothing s' -> row v ->
  exists x, perform s (ASet i ANone) v = (fst (perform s ALen v), Err x).
Proof.
  unfold needed. intros N Nt Sh. destruct v; try easy. destruct (fields_of s) as [[b fs]|] eqn:Fs; [|easy]. destruct N as [N R].
  destruct (methods_fields s b fs Fs) as [c M]. cbn [perform]. rewrite M. cbn [reply fst snd seq_ops x_set x_len].
  destruct (set_none_required fs b i f s' (VSeq t e ch m nc) I N R Nt) as (x & D). exists x. rewrite D. reflexivity.
Qed.
Lemma dump_refused s i f s' t e l m nc force r : needed s i f s' -> nth_error l i = Some VVoid ->
  snd (perform s (ADump force) (VSeq t e (Some l) m nc)) <> Ok r.
Proof.
  unfold needed. intros N V. destruct (fields_of s) as [[b fs]|] eqn:Fs; [|easy]. destruct N as [N R].
  destruct (methods_fields s b fs Fs) as [c M]. cbn [perform]. rewrite M. cbn [reply snd seq_ops x_dump]. intros H.
  destruct (snd (dump_seq _ _ force _)) as [y|] eqn:D; [|discriminate]. eapply dump_void in D; eauto.
Qed.

(* an object made without a value for a required field *)
Section Made.
  Variable fs : list (fld * spec).
  Variable is_set : bool.
  Let os := ops_of fs.
  Variable i : nat.
  Variable f : fld.
  Variable s : spec.
  Hypothesis N : nth_error fs i = Some (f, s).
  Hypothesis R : f_pres f = Required.
  (* no contents, and the field has no value *)
  Definition lacks (v : value) : Prop := match v with VSeq _ e ch _ nc => e_contents e = None /\ nc = None /\ (forall l, ch = Some l -> nth_error l i = Some VVoid) | _ => False end.
  Lemma init_children_void : forall j (l : list (fld * ops)) g o vs, nth_error l j = Some (g, o) -> f_pres g = Required -> init_children l = Ok vs -> nth_error vs j = Some VVoid.
  Proof.
    induction j as [|j IH]; intros [|[g' o'] l] g o vs N' R' H; try discriminate; cbn [nth_error init_children] in *;
      apply bind_ok in H as (v & V & H); apply bind_ok in H as (ws & W & H); inversion H; subst; cbn [nth_error].
    - inversion N'; subst. rewrite R' in V. now inversion V.
    - eapply IH; eauto.
  Qed.
  Lemma lacks_ensure v : lacks v -> lacks (fst (ensure os is_set v)) /\ forall l, snd (ensure os is_set v) = Ok l -> nth_error l i = Some VVoid.
  Proof.
    intros L. destruct v; try easy. destruct L as (L1 & L2 & L3). unfold ensure. destruct ch as [l|].
    - split; [now split|]. cbn. intros l' H. inversion H; subst. now apply L3.
    - unfold parse_flat. rewrite L1. destruct os as [|fo r] eqn:Eo; [split; [now split|discriminate]|]. rewrite <- Eo in *.
      destruct (init_children os) as [vs|] eqn:In; cbn [fst snd]; [|split; [now split|discriminate]].
      assert (nth_error vs i = Some VVoid) as V. { eapply init_children_void; [|exact R|exact In]. apply (ops_nth fs); exact N. }
      split; [|intros l H; inversion H; now subst]. split; [exact L1|]. split; [exact L2|]. intros l X. inversion X; now subst.
  Qed.
  Lemma lacks_set j a v : j <> i -> lacks v -> lacks (fst (set_seq os is_set j a v)).
  Proof.
    intros D L. destruct (lacks_ensure v L) as [E V]. unfold set_seq. destruct (ensure os is_set v) as [w [l0|]]; cbn [fst snd] in *; [|destruct w; exact E].
    specialize (V l0 eq_refl). destruct w; try easy. destruct (nth_error os j) as [fo|]; [|exact E]. destruct (make_value fo a) as [u|]; [|exact E].
    destruct (child_contents (snd fo) u) as [u1 [[x|]|]]; try exact E. destruct E as (E1 & -> & E3).
    cbn [fst lacks]. split; [exact E1|]. split; [reflexivity|]. intros l X. inversion X; subst.
    rewrite update_nth. destruct (Nat.eqb_spec j i) as [->|_]; [easy|exact V].
  Qed.
  Lemma lacks_keys keep d : dict_get d (f_name f) = None ->
    forall l j v w, (forall k, nth_error l k = nth_error os (j + k)) -> lacks v -> set_keys os is_set keep d l j v = Ok w -> lacks w.
  Proof.
    intros Dn. induction l as [|fo l IH]; intros j v w Sub L H; cbn [set_keys] in H; [inversion H; now subst|].
    assert (forall k, nth_error l k = nth_error os (S j + k)) as Sub' by (intros k; specialize (Sub (S k)); cbn in Sub; rewrite Sub; f_equal; lia).
    destruct (dict_get d (f_name (fst fo))) as [a|] eqn:G; [|eauto].
    assert (j <> i) as D.
    { intros ->. specialize (Sub 0%nat). rewrite Nat.add_0_r in Sub. cbn in Sub. unfold os in Sub. rewrite (ops_nth fs i f s N) in Sub. inversion Sub; subst. cbn in G. congruence. }
    destruct (keep j v); [eauto|]. pose proof (lacks_set j a v D L) as L'. destruct (set_seq os is_set j a v) as [v' [[]|]]; [|discriminate]. eauto.
  Qed.
  Lemma lacks_dump force v b : lacks v -> snd (dump_seq os is_set force v) <> Ok b.
  Proof.
    intros L. destruct v; try easy. destruct ch as [l|].
    - destruct L as (_ & _ & L3). eapply dump_void; eauto.
    - unfold dump_seq. set (g := (_ && _)%bool). destruct L as (L1 & -> & _). destruct g.
      + destruct (lacks_ensure (VSeq t e None m None) (conj L1 (conj eq_refl (fun l (H : None = Some l) => False_ind _ (eq_ind None (fun o => match o with None => True | Some _ => False end) I _ H))))) as [E V].
        assert (snd (set_contents_seq os is_set true (VSeq t e None m None)) = Ok tt -> exists t' e' l' m' nc', fst (set_contents_seq os is_set true (VSeq t e None m None)) = VSeq t' e' (Some l') m' nc' /\ nth_error l' i = Some VVoid) as K.
        { unfold set_contents_seq. destruct (ensure os is_set _) as [w [l0|]]; cbn [fst snd] in *; [|destruct w; discriminate]. specialize (V l0 eq_refl).
          destruct w; try easy.
          assert (nth_error (fst (if is_set then (let '(l', y) := dump_members true os l0 in (l', do ms <- y; sort_members ms)) else dump_fields true os l0)) i = Some VVoid) as K.
          { destruct is_set; [|now apply dump_fields_void]. pose proof (dump_members_void true i os l0 V) as D. now destruct (dump_members true os l0). }
          destruct (if is_set then _ else _) as [l' [x|]]; cbn [fst snd] in *; [|discriminate]. intros _. repeat eexists. exact K. }
        destruct (set_contents_seq os is_set true _) as [w [[]|]]; [|discriminate]. destruct (K eq_refl) as (t' & e' & l' & m' & nc' & X & V'). cbn [fst] in X. subst w.
        rewrite (missing_void i f (methods s) os l' (ops_nth fs i f s N) R V'). discriminate.
      + rewrite L1. discriminate.
  Qed.
End Made.
Lemma made_dump s i f s' p d v force r : needed s i f s' -> dict_get d (f_name f) = None -> x_make (methods s) p None (ADict d) = Ok v ->
  snd (perform s (ADump force) v) <> Ok r.
Proof.
  unfold needed. intros N D. destruct (fields_of s) as [[b fs]|] eqn:Fs; [|easy]. destruct N as [N R].
  destruct (methods_fields s b fs Fs) as [c M]. rewrite M. cbn [seq_ops x_make]. unfold make_seq, set_dict. intros H.
  apply bind_ok in H as (t & _ & H). apply bind_ok in H as (w & W & H). destruct (known_keys _ d); inversion H; subst.
  assert (lacks i v) as L.
  { refine (lacks_keys fs b i f s' N R (fun _ _ => false) d D (ops_of fs) 0 (VSeq t no_enc None false None) v (fun k => eq_refl) _ W).
    split; [reflexivity|]. split; [reflexivity|discriminate]. }
  destruct v; try easy. cbn [perform]. rewrite M. cbn [reply snd seq_ops x_dump]. intros X.
  destruct (snd (dump_seq _ _ force _)) as [y|] eqn:Dm; [|discriminate]. eapply lacks_dump in Dm; eauto.
Qed.

(* ---- unknown members of a Set ---- *)
(* the elements found one after another in the contents *)
Inductive elements (cont : bytes) : Z -> list info -> Prop :=
| no_more p : len cont <= p -> elements cont p []
| one_more p i q l : p < len cont -> parse_ cont (len cont) p = Ok (i, q) -> elements cont q l -> elements cont p (i :: l).
Definition unknown (fs : list (fld * spec)) (i : info) : Prop :=
  forall f s, In (f, s) fs -> same_id (field_id (f_params f) (methods s)) (i_class i) (i_tag i) = false.

Lemma find_unknown i : forall fs n, unknown fs i -> find_field (ops_of fs) n i = None.
Proof.
  induction fs as [|[f s] fs IH]; intros n U; [reflexivity|]. cbn [ops_of map find_field fst snd].
  fold (ops_of fs). rewrite IH by (intros g q H; apply U; now right). now rewrite (U f s (or_introl eq_refl)).
Qed.
Lemma set_loop_unknown fs cont i n : unknown fs i -> forall p l found r, elements cont p l -> In i l -> set_loop (ops_of fs) n cont p found <> Ok r.
Proof.
  intros U. induction n as [|n IH]; intros p l found r E Hi; [discriminate|]. cbn [set_loop].
  destruct E as [p L|p j q l Lt P E]; [easy|]. rewrite (proj2 (Z.ltb_lt _ _) Lt), P. cbn [bind].
  destruct Hi as [->|Hi]; [now rewrite find_unknown|]. destruct (find_field (ops_of fs) 0 j); [|discriminate]. eauto.
Qed.
Lemma unknown_member c fs t e m nc cont l i : e_contents e = Some cont -> elements cont 0 l -> In i l -> unknown fs i ->
  forall r, snd (perform (SSet c fs) ALen (VSeq t e None m nc)) <> Ok r.
Proof.
  intros C E Hi U r. cbn [perform reply snd methods seq_ops x_len]. fold (ops_of fs). unfold len_seq, ensure, parse_flat. rewrite C.
  unfold set_children. destruct (set_loop (ops_of fs) _ cont 0 _) as [found|] eqn:S; [eapply set_loop_unknown in S; eauto; easy|]. discriminate.
Qed.
