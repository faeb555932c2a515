(* C101: all ways to write the tags of a constructor mean the same. *)
Require Import Verif.Base Verif.BaseFacts Verif.Text Verif.PrimModel Verif.ArgModel.
Ltac calc := vm_compute; reflexivity.
Local Arguments tx : simpl never.
Local Arguments eqb_text : simpl never.

(* the four classes of X.690, 8.1.2.2 *)
Theorem C101_classes (c : carg) (z : Z) :
  class_num c = Some z <->
  In (c, z) [(CInt 0, 0); (CInt 1, 1); (CInt 2, 2); (CInt 3, 3);
             (CText (tx "universal"), 0); (CText (tx "application"), 1); (CText (tx "context"), 2); (CText (tx "private"), 3)].
Proof.
  split.
  - destruct c as [y|s|]; cbn [class_num].
    + destruct ((0 <=? y) && (y <=? 3)) eqn:E; [|discriminate]. intros H. inversion H; subst. rewrite andb_true_iff, !Z.leb_le in E.
      assert (z = 0 \/ z = 1 \/ z = 2 \/ z = 3) as [->|[->|[->| ->]]] by lia; cbn; auto 10.
    + repeat match goal with |- context [eqb_text s ?r] => let W := fresh "W" in destruct (eqb_text s r) eqn:W; [apply Text.eqb_text_spec in W; intros G; injection G as <-; rewrite W; cbn; auto 10|] end. discriminate.
    + discriminate.
  - cbn. intros H. repeat (destruct H as [H|H]; [inversion H; subst; reflexivity|]). destruct H.
Qed.
Print Assumptions C101_classes.

(* class_ and tag alone replace those of the class *)
Theorem C101_alone (k : pcls) (ne : bool) (c : option carg) (t : option targ) :
  arguments k None None ne None c t =
  match c, option_map class_num c with
  | Some _, Some None => Err ValueError
  | _, o => Ok (Tags (match o with Some (Some z) => z | _ => k_class k end) (match t with Some t => Some t | None => Some (TInt (k_tag k)) end) false
                     (if ne then [] else map (fun ct => (fst ct, Some (TInt (snd ct)))) (k_explicit k)))
  end.
Proof. unfold arguments. destruct c as [c|]; cbn [option_map bind]; [destruct (class_num c) as [z|]|]; destruct ne; reflexivity. Qed.
Print Assumptions C101_alone.

(* a number alone means that number in the class given, or in "context" *)
Theorem C101_explicit_number (k : pcls) (n : Z) (im : option iarg) (ne : bool) (tt : option text) (c : option carg) (t : option targ) :
  arguments k (Some (EInt n)) im ne tt c t = arguments k (Some (EPair (or_context c) (Some (TInt n)))) im ne tt c t.
Proof.
  unfold arguments. cbn [or_context]. destruct tt as [s|]; cbn; [destruct (eqb_text s (tx "explicit")) eqn:E|];
    destruct im as [[]|]; cbn; try reflexivity; rewrite ?E; destruct (eqb_text s (tx "implicit")) eqn:I; cbn; rewrite ?E, ?I; reflexivity.
Qed.
Print Assumptions C101_explicit_number.
Theorem C101_implicit_number (k : pcls) (n : Z) (ne : bool) (tt : option text) (c : option carg) (t : option targ) :
  arguments k None (Some (IInt n)) ne tt c t = arguments k None (Some (IPair (or_context c) (Some (TInt n)))) ne tt c t.
Proof.
  unfold arguments. destruct tt as [s|]; cbn; [|reflexivity]. destruct (eqb_text s (tx "implicit")) eqn:I; cbn; [reflexivity|].
  rewrite ?I. destruct (eqb_text s (tx "explicit")); [|reflexivity]. destruct c; reflexivity.
Qed.
Print Assumptions C101_implicit_number.

(* the old style means the new style *)
Theorem C101_old_explicit (k : pcls) (n : Z) (ne : bool) (c : option carg) :
  arguments k None None ne (Some (tx "explicit")) c (Some (TInt n)) = arguments k (Some (EPair (or_context c) (Some (TInt n)))) None ne None None None.
Proof. reflexivity. Qed.
Print Assumptions C101_old_explicit.
Theorem C101_old_implicit (k : pcls) (n : Z) (ne : bool) (c : option carg) :
  arguments k None None ne (Some (tx "implicit")) c (Some (TInt n)) = arguments k None (Some (IPair (or_context c) (Some (TInt n)))) ne None None None.
Proof. reflexivity. Qed.
Print Assumptions C101_old_implicit.
(* and what is given in the new style comes first *)
Theorem C101_new_first (k : pcls) (e : earg) (i : iarg) (ne : bool) (c : option carg) (t : option targ) :
  arguments k (Some e) None ne (Some (tx "explicit")) c t = arguments k (Some e) None ne None c None /\
  arguments k None (Some i) ne (Some (tx "implicit")) c t = arguments k None (Some i) ne None c None.
Proof. split; [destruct e; reflexivity|destruct i; reflexivity]. Qed.
Print Assumptions C101_new_first.

(* classes by their names and by their numbers *)
Definition number_of (c c' : carg) : Prop := exists z, class_num c = Some z /\ c' = CInt z.
Lemma number_num c c' : number_of c c' -> class_num c' = class_num c /\ exists z, class_num c = Some z.
Proof.
  intros (z & H & ->). rewrite H. split; [|eauto]. destruct c as [y|s|]; cbn in H.
  - destruct ((0 <=? y) && (y <=? 3)) eqn:E; inversion H; subst. cbn. rewrite E. reflexivity.
  - repeat match goal with H : (if ?b then _ else _) = _ |- _ => destruct b end; inversion H; subst; reflexivity.
  - discriminate.
Qed.
Lemma explicit_tag_number c c' t : number_of c c' -> explicit_tag (c', t) = explicit_tag (c, t).
Proof.
  intros H. pose proof (number_num _ _ H) as (E & z & Z). destruct H as (z' & Z' & ->). unfold explicit_tag. cbn [fst snd]. rewrite E, Z. destruct c; reflexivity.
Qed.
Theorem C101_names (k : pcls) (ne : bool) (l l' : list (carg * option targ)) (c c' : carg) (t : option targ) :
  Forall2 (fun a b => number_of (fst a) (fst b) /\ snd a = snd b) l l' -> number_of c c' ->
  arguments k (Some (EMany l')) None ne None None None = arguments k (Some (EMany l)) None ne None None None /\
  arguments k None (Some (IPair c' t)) ne None None None = arguments k None (Some (IPair c t)) ne None None None /\
  arguments k None None ne None (Some c') t = arguments k None None ne None (Some c) t.
Proof.
  intros F H. pose proof (number_num _ _ H) as (E & _). repeat split; unfold arguments; cbn.
  - assert (X : explicit_tags l' = explicit_tags l); [|rewrite X; reflexivity].
    induction F as [|[a t1] [b t2] l l' [N S] F IH]; [reflexivity|]. cbn in N, S. subst. cbn [explicit_tags]. rewrite (explicit_tag_number _ _ _ N), IH. reflexivity.
  - rewrite E. reflexivity.
  - rewrite E. reflexivity.
Qed.
Print Assumptions C101_names.

(* with numbers it is the tagging the other properties are stated with *)
Definition shown (t : tagging) : tags :=
  Tags (t_class t) (Some (TInt (t_tag t))) (t_implicit t) (map (fun ct => (fst ct, Some (TInt (snd ct)))) (t_explicit t)).
Definition written (l : list (Z * Z)) : list (carg * option targ) := map (fun ct => (CInt (fst ct), Some (TInt (snd ct)))) l.
Lemma written_tags l : explicit_tags (written l) =
  if forallb (fun ct => class_ok (fst ct)) l then Ok (map (fun ct => (fst ct, Some (TInt (snd ct)))) l) else Err ValueError.
Proof.
  induction l as [|[c t] l IH]; [reflexivity|]. cbn [written map explicit_tags forallb fst snd]. unfold explicit_tag, class_ok at 1. cbn [fst snd class_num].
  destruct ((0 <=? c) && (c <=? 3)); cbn; [|reflexivity]. fold (written l). rewrite IH. destruct (forallb _ l); reflexivity.
Qed.
Theorem C101_tagging (k : pcls) (p : params) :
  arguments k (match p_explicit p with [] => None | l => Some (EMany (written l)) end)
    (match p_implicit p with Some (c, t) => Some (IPair (CInt c) (Some (TInt t))) | None => None end) (p_no_explicit p) None None None
  = match init_tagging k p with Ok t => Ok (shown t) | Err e => Err e end.
Proof.
  destruct p as [ex im ne]. cbn [p_explicit p_implicit p_no_explicit]. unfold arguments, init_tagging. cbn [p_explicit p_implicit p_no_explicit].
  destruct ex as [|ct ex].
  - destruct im as [[c t]|]; cbn; [unfold class_ok; destruct ((0 <=? c) && (c <=? 3)); cbn; [|reflexivity]|]; destruct ne; reflexivity.
  - cbn [given_explicit bind]. destruct im as [[c t]|]; cbn [bind given_explicit]; rewrite written_tags;
      destruct (forallb _ (ct :: ex)); cbn [bind]; try reflexivity; unfold shown; cbn [t_class t_tag t_implicit t_explicit g_class g_tag g_implicit];
      destruct ne; cbn [bind map t_class t_tag t_implicit t_explicit]; rewrite ?map_app; reflexivity.
Qed.
Print Assumptions C101_tagging.

(* constructors raise three exceptions; KeyError only for an explicit class that is no number and unknown *)
Definition strange (c : carg) : Prop := class_num c = None /\ forall z, c <> CInt z.
Definition explicit_classes (e : option earg) : list carg :=
  match e with Some (EPair c _) => [c] | Some (EMany l) => map fst l | _ => [] end.
Lemma explicit_tags_err l e : explicit_tags l = Err e -> e = ValueError \/ e = TypeError \/ (e = KeyError /\ exists c, In c (map fst l) /\ strange c).
Proof.
  induction l as [|[c t] l IH]; [discriminate|]. cbn [explicit_tags map fst]. unfold explicit_tag. cbn [fst snd]. intros H.
  assert (G : explicit_tags l = Err e -> e = ValueError \/ e = TypeError \/ e = KeyError /\ (exists c0 : carg, In c0 (c :: map fst l) /\ strange c0)).
  { intros X. destruct (IH X) as [A|[A|(A & c0 & B & C)]]; auto. right. right. split; [exact A|]. exists c0. cbn. auto. }
  destruct (class_num c) as [z|] eqn:E.
  - destruct c; cbn in H; destruct t as [[]|]; cbn in H; try (inversion H; auto; fail); destruct (explicit_tags l); inversion H; subst; auto.
  - destruct c as [z|x|]; cbn [bind] in H; [inversion H; auto| |]; inversion H; subst; right; right; (split; [reflexivity|]).
    + exists (CText x). split; [left; reflexivity|split; [exact E|discriminate]].
    + exists COther. split; [left; reflexivity|split; [exact E|discriminate]].
Qed.
Local Arguments given_explicit : simpl never.
Local Arguments class_num : simpl never.
Theorem C101_errors (k : pcls) (ex : option earg) (im : option iarg) (ne : bool) (tt : option text) (c : option carg) (t : option targ) (e : exn) :
  arguments k ex im ne tt c t = Err e ->
  e = ValueError \/ e = TypeError \/ (e = KeyError /\ exists x, strange x /\ (c = Some x \/ In x (explicit_classes ex))).
Proof.
  assert (P : forall a b e', given_explicit (EPair a b) = Err e' -> e' = ValueError \/ e' = TypeError \/ (e' = KeyError /\ strange a)).
  { intros a b e' H. unfold given_explicit in H.
    assert (U : forall y, bind (unpacked a) (fun _ => @Err (list (Z * option targ)) TypeError) = Err y -> y = ValueError \/ y = TypeError \/ (y = KeyError /\ strange a)).
    { intros y. unfold unpacked. destruct a as [z|s|]; cbn; [intros X; inversion X; auto| |intros X; inversion X; auto].
      destruct s as [|x [|x' [|]]]; cbn; try (intros X; inversion X; auto; fail).
      intros X. assert (N : strange (CText [x; x'])). { split; [|discriminate]. unfold class_num.
        assert (V : forall r, length r <> 2%nat -> eqb_text [x; x'] r = false).
        { intros r L. destruct (eqb_text [x; x'] r) eqn:W; [|reflexivity]. apply Text.eqb_text_spec in W. subst r. destruct L. reflexivity. }
        rewrite !V by discriminate. reflexivity. }
      unfold explicit_tag in X. cbn [fst snd] in X. destruct (class_num (CText [x])) as [z|] eqn:Q.
      - cbn in X. inversion X; auto.
      - cbn in X. inversion X; auto. }
    destruct b as [[z|]|]; [|apply (U _ H)|apply (U _ H)].
    destruct (explicit_tags_err _ _ H) as [A|[A|(A & c0 & B & C)]]; auto. cbn in B. destruct B as [<-|[]]. auto. }
  assert (Q : forall x e', given_explicit x = Err e' -> (forall z, x <> EInt z) -> e' = ValueError \/ e' = TypeError \/ (e' = KeyError /\ exists y, strange y /\ In y (explicit_classes (Some x)))).
  { intros [z|a b|l] e' H N; [destruct (N z); reflexivity| |].
    - destruct (P _ _ _ H) as [A|[A|(A & B)]]; auto. right; right. split; auto. exists a. cbn. auto.
    - destruct (explicit_tags_err _ _ H) as [A|[A|(A & c0 & B & C)]]; auto. right; right. split; auto. exists c0. cbn. auto. }
  assert (O : forall e', e' = ValueError \/ e' = TypeError \/ (e' = KeyError /\ strange (or_context c)) ->
     e' = ValueError \/ e' = TypeError \/ (e' = KeyError /\ exists x, strange x /\ (c = Some x \/ In x (explicit_classes ex)))).
  { intros e' [A|[A|(A & B)]]; auto. right; right. split; auto. destruct c as [x|]; [exists x; auto|]. destruct B as [B _]. discriminate B. }
  assert (Q' : forall x e', ex = Some x -> (forall z, x <> EInt z) -> given_explicit x = Err e' ->
     e' = ValueError \/ e' = TypeError \/ (e' = KeyError /\ exists x, strange x /\ (c = Some x \/ In x (explicit_classes ex)))).
  { intros x e' -> N H. destruct (Q _ _ H N) as [A|[A|(A & y & B & C)]]; auto. right; right. split; auto. exists y. auto. }
  unfold arguments.
  assert (F : forall X : res tags, bind X (fun g => Ok (if ne then Tags (g_class g) (g_tag g) (g_implicit g) [] else g)) = Err e -> X = Err e).
  { intros [x|x]; cbn; [destruct ne; discriminate|congruence]. }
  destruct tt as [s|]; [destruct (eqb_text s (tx "explicit")) eqn:E; destruct (eqb_text s (tx "implicit")) eqn:I|];
    destruct ex as [[z|a b|l]|]; destruct im as [[z'|a' b']|]; cbn; rewrite ?E, ?I; cbn; rewrite ?E, ?I; cbn; rewrite ?E, ?I; intros H;
    try (inversion H; auto; fail); apply F in H;
    try match type of H with bind (given_explicit ?x) _ = _ => destruct (given_explicit x) as [?|w] eqn:G; [discriminate H|]; assert (w = e) by (cbn in H; congruence); subst w; first [apply O; exact (P _ _ _ G)|apply (Q' x); [reflexivity|discriminate|exact G]] end;
    repeat match type of H with
    | context [class_num ?x] => destruct (class_num x)
    | context [match ?x with _ => _ end] => destruct x
    end; cbn in H; inversion H; auto.
Qed.
Print Assumptions C101_errors.

(* old style parameters of fields are converted to the new ones *)
Theorem C101_convert (k : pcls) (ne : bool) (d : pdict) (n : Z) :
  d_tag_type d = Some (tx "explicit") \/ d_tag_type d = Some (tx "implicit") -> d_tag d = Some (Some (TInt n)) ->
  d_explicit d = None -> d_implicit d = None -> d_class_ d = None ->
  snd (convert d) = Ok tt /\
  apply k ne (fst (convert d)) = arguments k None None ne (d_tag_type d) (d_class d) (Some (TInt n)).
Proof.
  destruct d as [ex im tt_ tg cl cl']. cbn [d_tag_type d_tag d_explicit d_implicit d_class_ d_class]. intros S -> -> -> ->.
  destruct S as [-> | ->]; (split; [reflexivity|]); destruct cl as [c|]; reflexivity.
Qed.
Print Assumptions C101_convert.
(* after it there is nothing to convert; what it cannot convert it leaves as it was *)
Theorem C101_convert_again (d : pdict) :
  (snd (convert d) = Ok tt -> convert (fst (convert d)) = (fst (convert d), Ok tt) /\ d_tag_type (fst (convert d)) = None) /\
  (d_tag_type d = None -> convert d = (d, Ok tt)) /\
  d_class_ (fst (convert d)) = d_class_ d.
Proof.
  destruct d as [ex im [s|] tg cl cl']; unfold convert; cbn.
  - destruct (eqb_text s (tx "explicit")); [|destruct (eqb_text s (tx "implicit"))]; destruct tg; cbn; repeat split; discriminate.
  - repeat split.
Qed.
Print Assumptions C101_convert_again.
Theorem C101_convert_missing (d : pdict) :
  d_tag_type d = Some (tx "explicit") \/ d_tag_type d = Some (tx "implicit") -> d_tag d = None -> convert d = (d, Err KeyError).
Proof. destruct d as [ex im tt_ tg cl cl']. cbn. intros [-> | ->] ->; reflexivity. Qed.
Print Assumptions C101_convert_missing.

Definition integer : pcls := Cls 0 2 [] [].
Example C101_ex :
  arguments integer (Some (EInt 5)) None false None (Some (CText (tx "application"))) None = Ok (Tags 0 (Some (TInt 2)) false [(1, Some (TInt 5))]) /\
  arguments integer None None false (Some (tx "implicit")) None (Some (TInt 3)) = Ok (Tags 2 (Some (TInt 3)) true []) /\
  arguments integer (Some (EMany [(context, Some (TInt 1)); (CText (tx "private"), Some (TInt 2))])) None false None None None
    = Ok (Tags 0 (Some (TInt 2)) false [(2, Some (TInt 1)); (3, Some (TInt 2))]) /\
  number_of (CText (tx "private")) (CInt 3) /\
  arguments integer None (Some (IPair (CInt 7) (Some (TInt 1)))) false None None None = Err ValueError /\
  (let d := Dict None None (Some (tx "explicit")) (Some (Some (TInt 4))) (Some (CInt 1)) None in
   convert d = (Dict (Some (EPair (CInt 1) (Some (TInt 4)))) None None None None None, Ok tt)) /\
  convert (Dict None None (Some (tx "implicit")) None None None) = (Dict None None (Some (tx "implicit")) None None None, Err KeyError).
Proof. repeat split; try calc. exists 3. split; calc. Qed.

(* the documentation promises ValueError for an invalid class: an unknown name in explicit gives KeyError *)
Theorem C101_class_name_refuted : exists c n, forall k,
  arguments k (Some (EPair c (Some (TInt n)))) None false None None None = Err KeyError /\
  arguments k None (Some (IPair c (Some (TInt n)))) false None None None = Err ValueError.
Proof. exists (CText (tx "contextual")), 1. intros k. split; reflexivity. Qed.
Print Assumptions C101_class_name_refuted.
(* implicit tags given together with explicit ones are dropped without a word *)
Theorem C101_both_refuted : exists e i, forall k,
  arguments k (Some e) (Some i) false None None None = arguments k (Some e) None false None None None /\
  match arguments k (Some e) (Some i) false None None None with Ok g => g_implicit g = false | Err _ => False end.
Proof. exists (EPair (CInt 2) (Some (TInt 1))), (IPair (CInt 2) (Some (TInt 5))). intros k. split; reflexivity. Qed.
Print Assumptions C101_both_refuted.
(* parameters of fields and arguments of constructors differ: a misspelt tag_type is dropped in a field,
   so that the value has no tag; explicit given in both styles is the new one in constructors and the old
   one in fields; without a tag the misspelt tag_type raises KeyError the first time only *)
Theorem C101_convert_refuted : exists d1 d2 d3, forall k,
  (snd (convert d1) = Ok tt /\ apply k false (fst (convert d1)) = arguments k None None false None None None /\ apply k false d1 = Err ValueError) /\
  (snd (convert d2) = Ok tt /\ apply k false (fst (convert d2)) <> apply k false d2) /\
  (snd (convert d3) = Err KeyError /\ snd (convert (fst (convert d3))) = Ok tt).
Proof.
  exists (Dict None None (Some (tx "explict")) (Some (Some (TInt 1))) None None),
         (Dict (Some (EInt 1)) None (Some (tx "explicit")) (Some (Some (TInt 2))) None None),
         (Dict None None (Some (tx "explict")) None None None).
  intros k. repeat split; try reflexivity. cbn. intros H. inversion H as [E]. apply app_inv_head in E. discriminate E.
Qed.
Print Assumptions C101_convert_refuted.
