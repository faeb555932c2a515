(* Proofs about Any. *)
Require Import Verif.Base Verif.BaseFacts Verif.IntModel Verif.IntSpec Verif.IntProofs
  Verif.ParserModel Verif.ParserSpec Verif.ParserProofs Verif.ParserFacts Verif.Text
  Verif.TagSpec Verif.TagProofs Verif.ChunkSpec Verif.ChunkProofs
  Verif.PrimModel Verif.PrimSpec Verif.PrimProofs Verif.PrimSet Verif.PrimDump Verif.PrimLoad Verif.HistSpec Verif.PrimHist
  Verif.PrimRead Verif.PrimSide Verif.ContModel Verif.ContSpec Verif.ContBase Verif.ContRep Verif.ContPrim Verif.ContSeq Verif.ContSeq2
  Verif.ContList Verif.ContChoice Verif.ContPath Verif.ContHistSpec Verif.ContHist Verif.ContHist2 Verif.ContFinal Verif.BerSpec Verif.BerProofs Verif.BerFinal
  Verif.ParsModel Verif.ParsSpec Verif.ParsProofs Verif.AnyModel Verif.AnySpec.

Lemma within_app g : forall h Q i, within (g ++ h) Q i -> within g (within h Q) i.
Proof.
  induction g as [|[c t] g IH]; intros h Q i; cbn [within app]; auto. intros (H1 & H2 & H3 & j & Bj & Ej & H). repeat split; auto. exists j. auto.
Qed.
Lemma within_any k ex Q i : within (rev (k ++ ex)) Q i -> within (rev ex) (fun _ => True) i.
Proof. rewrite rev_app_distr. intros H. apply within_app in H. eapply within_impl; [|exact H]. auto. Qed.

Lemma tags_explicit c p : t_explicit (tags_of c p) = k_explicit c ++ p_explicit p \/ p_no_explicit p = true.
Proof.
  unfold tags_of. destruct (p_explicit p); [|now left]. rewrite app_nil_r. destruct (p_implicit p) as [[]|]; now left.
Qed.

Lemma ber_something s p a d : wf s -> taggable s p -> ber_encodes s (stags s p) a d -> something (p_explicit p) d.
Proof.
  intros W T (i & B & -> & H). exists i. split; auto. split; auto.
  assert (Hp : p_no_explicit p = false) by (destruct T as ((N & _) & _); exact N).
  assert (X : forall c, t_explicit (tags_of c p) = k_explicit c ++ p_explicit p) by (intros c; destruct (tags_explicit c p); congruence).
  destruct s as [k c|c fs|c fs|c s|c s|ex alts]; cbn [ber_of stags] in H; try contradiction.
  - assert (k = KNull \/ k <> KNull) as [->|Nk] by (destruct k; auto; right; discriminate).
    + destruct a as [|v| | | |]; try contradiction. destruct v; try contradiction; try (destruct H as (N & _); congruence). cbn [der] in H. destruct H as (_ & x & _ & (inner & D1 & D2)).
      destruct (tlv_info _ _ _ _ _ D1) as (h & Bj & Ej). rewrite <- Ej in D2.
      destruct (wrapped_within (t_explicit (tags_of c p)) (fun _ => True) _ _ Bj Logic.I D2) as (i' & B' & E' & H').
      assert (i' = i) by (apply same_info0; auto). subst i'. rewrite X in H'. eapply within_any; eauto.
    + destruct k; try congruence; destruct a as [|v| | | |]; try contradiction; destruct H as (_ & _ & H); rewrite X in H; eapply within_any; eauto.
  - destruct a; try contradiction. rewrite X in H. eapply within_any; eauto.
  - destruct a; try contradiction. rewrite X in H. eapply within_any; eauto.
  - destruct a; try contradiction. rewrite X in H. eapply within_any; eauto.
  - destruct a; try contradiction. cbn [t_explicit] in H. eapply within_any; eauto.
Qed.

(* taking off explicit tags loses nothing *)
Lemma within_octets ex : forall i P T, ber_info max_budget i -> within ex (fun _ => True) i ->
  exists j hd tl, peel ex i (P ++ i_header i) (i_trailer i ++ T) = Ok (j, hd, tl) /\ hd ++ i_contents j ++ tl = P ++ encoding_of i ++ T.
Proof.
  induction ex as [|[c t] ex IH]; intros i P T B H; cbn [within] in H.
  - exists i, (P ++ i_header i), (i_trailer i ++ T). split; auto. unfold encoding_of. now rewrite <- !app_assoc.
  - destruct H as (H1 & H2 & H3 & j & Bj & Ej & H). cbn [peel]. rewrite H1, H2, H3, !Z.eqb_refl. cbn [negb]. rewrite Ej.
    pose proof (parse__0_complete j [] Bj) as E. rewrite app_nil_r in E. rewrite E. cbn [bind].
    destruct (IH j (P ++ i_header i) (i_trailer i ++ T) Bj H) as (j' & hd & tl & E1 & E2). exists j', hd, tl. split; auto. rewrite E2.
    unfold encoding_of at 2. rewrite Ej. now rewrite <- !app_assoc.
Qed.

Section Facts.
  Variable cls : nat -> spec.
  Variable guess : option params -> bytes -> res (nat * value).
  Notation any_parse := (any_parse cls guess).
  Notation any_parsed := (any_parsed cls guess).
  Notation any_native := (any_native cls guess).
  Notation any_dump := (any_dump cls guess).
  Notation astep := (astep cls guess).
  Notation aafter := (aafter cls guess).
  Notation parse_with := (parse_with cls guess).

  Definition octets_are (d : bytes) (y : aobj) : Prop :=
    exists h c, y_header y = Some h /\ y_contents y = Some c /\ h ++ c ++ y_trailer y = d.

  Lemma any_load_something ex d r strict : something ex d -> (strict = true -> r = []) ->
    exists y, any_load ex (d ++ r) strict = Ok y /\ y_explicit y = ex /\ y_parsed y = None /\ octets_are d y.
  Proof.
    intros (i & B & -> & H) Hr. unfold any_load. rewrite parse__0_complete by auto. cbn [bind].
    replace (strict && negb (len (encoding_of i) =? len (encoding_of i ++ r))) with false
      by (destruct strict; auto; rewrite Hr, app_nil_r, Z.eqb_refl by auto; reflexivity).
    unfold any_build. destruct (within_octets (rev ex) i [] [] B H) as (j & hd & tl & E1 & E2). cbn [app] in E1. rewrite app_nil_r in E1.
    rewrite E1. cbn [bind]. eexists. split; [reflexivity|]. split; auto. split; auto. exists hd, (i_contents j). repeat split; auto.
    cbn [y_trailer]. rewrite E2. cbn [app]. now rewrite app_nil_r.
  Qed.

  (* ---- histories that keep the object inside ---- *)
  Definition has (n : nat) (v : value) (y : aobj) : Prop := exists q, y_parsed y = Some q /\ h_class q = n /\ h_value q = v.

  Lemma on_has {A} (f : nat -> value -> value * res A) n v y : has n v y ->
    has n (fst (f n v)) (fst (on_parsed cls guess f y)) /\ snd (on_parsed cls guess f y) = snd (f n v).
  Proof.
    intros (q & Q & <- & <-). unfold on_parsed, AnyModel.any_parsed. rewrite Q. rewrite Q.
    destruct (f (h_class q) (h_value q)) as [v r]. cbn [fst snd]. split; auto. exists (with_inner q v). auto.
  Qed.
  Lemma has_step n v y d : keeps d = true -> has n v y -> has n (after (cls n) (inside d) v) (astep d y).
  Proof.
    intros K H. destruct d as [s p| | |f|l]; try discriminate; cbn [AnyModel.astep inside].
    - unfold AnyModel.any_parsed. destruct H as (q & Q & H). rewrite Q. exists q. auto.
    - rewrite <- native_is_read. exact (proj1 (on_has _ n v y H)).
    - rewrite <- dump_is_read. exact (proj1 (on_has _ n v y H)).
    - destruct H as (q & Q & <- & <-). rewrite Q. eexists. split; [reflexivity|]. auto.
  Qed.
  Lemma has_after h : forall n v y, forallb keeps h = true -> has n v y -> has n (after (cls n) (insides h) v) (aafter h y).
  Proof.
    induction h as [|d h IH]; intros n v y K H; auto. cbn [forallb] in K. apply andb_true_iff in K as [K1 K2].
    cbn [AnyModel.aafter insides flat_map]. rewrite after_app. apply IH; auto. now apply has_step.
  Qed.

  Lemma any_follows_rep q n t a v y nc : wf (cls n) -> tagging_ok t -> has n v y -> rep (mode_of q) nc (cls n) t a v ->
    nc = true -> any_follows cls guess q n t a y.
  Proof.
    intros W T H R -> h K S. destruct (has_after h n v y K H) as (r & Q & E1 & E2).
    destruct (follows_from_ok q (cls n) t a v W T R (insides h) S) as (b & L & _ & F). exists b. split; auto.
    destruct (history_ok (cls n) t W T (insides h) a q true v S R) as (b' & L' & Rb).
    assert (Nv : after (cls n) (insides h) v <> VVoid) by (eapply rep_void; eauto).
    destruct (F [] (cls n) t b (S_here _ _ _)) as ((x & Ex & Sx) & D & _).
    assert (Hh : has n (after (cls n) (insides h) v) (aafter h y)) by (exists r; auto).
    split.
    - exists x. split; auto. unfold AnyModel.any_native. rewrite (proj2 (on_has _ n _ _ Hh)).
      cbn [through] in Ex. rewrite perform_step in Ex by auto. unfold reply in Ex. cbn [fst snd] in Ex.
      destruct (snd (x_native (methods (cls n)) (after (cls n) (insides h) v))); [|discriminate]. cbn in Ex. now injection Ex as ->.
    - intros f. destruct (D f) as (d & Ed & Dd). exists d. split; auto. unfold AnyModel.any_dump. rewrite (proj2 (on_has _ n _ _ Hh)).
      cbn [through] in Ed. rewrite perform_step in Ed by auto. unfold reply in Ed. cbn [fst snd] in Ed.
      destruct (snd (x_dump (methods (cls n)) f (after (cls n) (insides h) v))); [|discriminate]. cbn in Ed. now injection Ed as ->.
  Qed.

  Theorem any_parse_ok ex p D n a d r strict : wf (cls n) ->
    put_explicit ex (match p with Some g => g | None => empty_dict end) = Ok D ->
    ex = [] \/ p_explicit (params_of D) = ex ->
    taggable (cls n) (params_of D) -> ber_encodes (cls n) (stags (cls n) (params_of D)) a d -> (strict = true -> r = []) ->
    exists y y1 v p' a', any_load ex (d ++ r) strict = Ok y /\ any_parse (Some n) p y = (y1, Ok (n, v), p') /\
      sim (cls n) a a' /\ any_follows cls guess Lost n (stags (cls n) (params_of D)) a' y1.
  Proof.
    intros W P X T H Hr. assert (S : something ex d).
    { destruct X as [->|<-]; [|eapply ber_something; eauto]. destruct H as (i & B & E & _). exists i. cbn. auto. }
    destruct (any_load_something ex d r strict S Hr) as (y & L & Ey & Py & (hd & c & Eh & Ec & Ed)).
    destruct (load_rep (cls n) (params_of D) a d [] false W T H) as (v & a' & E & Sm & R); [discriminate|]. rewrite app_nil_r in E.
    exists y. unfold AnyModel.any_parse. rewrite Py, Ey, P, Eh, Ec, Ed. cbn [ParsModel.parse_with]. rewrite E. cbn [bind].
    eexists _, v, _, a'. split; [exact L|]. split; [reflexivity|]. split; auto.
    eapply any_follows_rep; [exact W|now apply tok| |exact R|reflexivity]. eexists. split; [reflexivity|]. auto.
  Qed.

  (* an object made from a value, or loaded from DER *)
  Lemma any_own ex n q i a d v : wf (cls n) -> taggable (cls n) q -> denotes (cls n) i a -> der (cls n) (stags (cls n) q) a d ->
    x_make (methods (cls n)) q None i = Ok v ->
    exists y a' v', any_make cls ex (Some (n, v)) = Ok y /\ y_contents y = Some d /\ sim (cls n) a a' /\ has n v' y /\
      rep Own true (cls n) (stags (cls n) q) a' v'.
  Proof.
    intros W T Di D Ev. pose proof (tok _ _ W T) as Ht.
    destruct (either_rep (cls n) q i a d v W T Di D (or_introl Ev)) as (a1 & S1 & R1 & N1).
    assert (D1 : der (cls n) (stags (cls n) q) a1 d) by (eapply der_sim; eauto).
    destruct (K_dump (cls n) (contract_all _ W) _ _ _ _ _ false Ht R1) as (v1 & d1 & E1 & Kp & _ & R2 & En).
    assert (d1 = d) as -> by (eapply encodes_fun; [exact W|apply En; auto|now apply der_encodes]).
    unfold any_make. rewrite E1. cbn [bind]. eexists _, a1, v1. split; [reflexivity|]. split; auto. split; auto.
    split; [eexists; split; [reflexivity|auto]|exact R2].
  Qed.
  Theorem any_of_object ex n q i a d v : wf (cls n) -> taggable (cls n) q -> denotes (cls n) i a -> der (cls n) (stags (cls n) q) a d ->
    x_make (methods (cls n)) q None i = Ok v ->
    exists y a', any_make cls ex (Some (n, v)) = Ok y /\ y_contents y = Some d /\ sim (cls n) a a' /\ any_follows cls guess Clean n (stags (cls n) q) a' y.
  Proof.
    intros W T Di D Ev. destruct (any_own ex n q i a d v W T Di D Ev) as (y & a' & v' & E1 & E2 & S & H & R).
    exists y, a'. repeat split; auto. eapply any_follows_rep; [exact W|now apply tok|exact H|exact R|reflexivity].
  Qed.

  (* ---- looking ---- *)
  Definition dict_or (p : option dict) : dict := match p with Some g => g | None => empty_dict end.
  Definition viewed (d : bytes) (q : aparsed) : Prop := exists l v, reads l = true /\
    parse_with (h_spec q) (Some (params_of (dict_or (h_dict q)))) d = Ok (h_class q, v) /\ h_value q = after (cls (h_class q)) l v.
  Record seen (d : bytes) (y : aobj) : Prop := Seen {
    s_oct : octets_are d y; s_ex : y_explicit y = []; s_view : forall q, y_parsed y = Some q -> viewed d q }.

  Lemma eqb_dict_eq a b : eqb_dict a b = true -> a = b.
  Proof.
    destruct a as [ea ia], b as [eb ib]. unfold eqb_dict. cbn [g_explicit g_implicit]. intros H. apply andb_true_iff in H as [A B]. f_equal.
    - destruct ea, eb; try discriminate; auto; cbn in A; f_equal; [now apply Z.eqb_eq|now apply eqb_pairs_eq].
    - destruct ia as [[]|], ib as [[]|]; try discriminate; auto. cbn in B. apply andb_true_iff in B as [A1 B]. apply Z.eqb_eq in A1, B. now subst.
  Qed.
  Lemma same_dict_eq q s p : same_dict q s p = true -> h_spec q = s /\ h_dict q = p.
  Proof.
    unfold same_dict. intros H. apply andb_true_iff in H as [A B]. split.
    - destruct (h_spec q), s; try discriminate; auto. cbn in A. apply Nat.eqb_eq in A. now subst.
    - destruct (h_dict q), p; try discriminate; auto. cbn in B. apply eqb_dict_eq in B. now subst.
  Qed.

  Lemma seen_parse d y s p : seen d y -> seen d (fst (fst (any_parse s p y))) /\ snd (any_parse s p y) = p /\
    match snd (fst (any_parse s p y)) with
    | Ok (n, v) => exists l v0, reads l = true /\ parse_with s (Some (params_of (dict_or p))) d = Ok (n, v0) /\ v = after (cls n) l v0
    | Err e => parse_with s (Some (params_of (dict_or p))) d = Err e
    end.
  Proof.
    intros S. pose proof S as [(h & c & Eh & Ec & Ed) X V]. unfold AnyModel.any_parse. rewrite X, Eh, Ec, Ed. cbn [put_explicit].
    assert (P : match p with Some d0 => if is_empty d0 then p else Some (match p with Some d1 => d1 | None => empty_dict end) | None => None end = p)
      by (destruct p as [g|]; auto; now destruct (is_empty g)). rewrite P.
    change (match p with Some d0 => d0 | None => empty_dict end) with (dict_or p).
    match goal with |- context [match parse_with s ?x d with _ => _ end] => set (again := match parse_with s x d with
      | Ok (n, v) => (AnyObj [] (Some []) (Some d) [] (Some (AParsed n v s p)), Ok (n, v), p) | Err e => (y, Err e, p) end) end.
    assert (A : seen d (fst (fst again)) /\ snd again = p /\ match snd (fst again) with
    | Ok (n, v) => exists l v0, reads l = true /\ parse_with s (Some (params_of (dict_or p))) d = Ok (n, v0) /\ v = after (cls n) l v0
    | Err e => parse_with s (Some (params_of (dict_or p))) d = Err e
    end).
    { unfold again. destruct (parse_with s (Some (params_of (dict_or p))) d) as [[n v]|e] eqn:E; cbn [fst snd]; [|auto].
      split; [|split; [auto|exists [], v; auto]]. split; cbn; auto; [exists [], d; cbn; rewrite app_nil_r; auto|].
      intros q Q. injection Q as <-. exists [], v. auto. }
    destruct (y_parsed y) as [q|] eqn:Q; [|exact A]. destruct (same_dict q s p) eqn:K; [|exact A]. cbn [fst snd].
    split; auto. split; auto. apply same_dict_eq in K as [<- <-]. destruct (V q eq_refl) as (l & v & H). exists l, v. exact H.
  Qed.
  Lemma seen_inner d y q l : seen d y -> y_parsed y = Some q -> reads l = true ->
    seen d (AnyObj (y_explicit y) (y_header y) (y_contents y) (y_trailer y) (Some (with_inner q (after (cls (h_class q)) l (h_value q))))).
  Proof.
    intros [O X V] Q L. split; auto. intros r R. injection R as <-. destruct (V q Q) as (l0 & v & L0 & P & E).
    exists (l0 ++ l), v. split; [unfold reads in *; rewrite forallb_app; apply andb_true_iff; auto|]. cbn. split; auto. now rewrite after_app, <- E.
  Qed.
  Lemma seen_parsed d y : seen d y -> seen d (fst (any_parsed y)).
  Proof.
    intros S. unfold AnyModel.any_parsed. destruct (y_parsed y) eqn:Q; [exact S|]. exact (proj1 (seen_parse d y None None S)).
  Qed.
  Lemma seen_on {A} (f : nat -> value -> value * res A) l d y : reads l = true -> (forall n v, fst (f n v) = after (cls n) l v) ->
    seen d y -> seen d (fst (on_parsed cls guess f y)).
  Proof.
    intros L F S. unfold on_parsed. pose proof (seen_parsed d y S) as S1. destruct (any_parsed y) as [y1 [r|e]]; [|exact S1]. cbn [fst] in S1.
    destruct (y_parsed y1) as [q|] eqn:Q; [|exact S1]. specialize (F (h_class q) (h_value q)). destruct (f (h_class q) (h_value q)) as [v r']. cbn [fst] in *.
    subst v. now apply seen_inner.
  Qed.
  Lemma seen_step d y x : watching x = true -> seen d y -> seen d (astep x y).
  Proof.
    intros W S. destruct x as [s p| | |f|l]; cbn [AnyModel.astep].
    - exact (proj1 (seen_parse d y s p S)).
    - now apply seen_parsed.
    - apply (seen_on _ [([], ARead)]); auto. intros n v. apply native_is_read.
    - apply (seen_on _ [([], ADump f)]); auto. intros n v. apply dump_is_read.
    - destruct (y_parsed y) as [q|] eqn:Q; [|exact S]. now apply seen_inner.
  Qed.
  Lemma seen_after d h : forall y, forallb watching h = true -> seen d y -> seen d (aafter h y).
  Proof.
    induction h as [|x h IH]; intros y W S; auto. cbn [forallb] in W. apply andb_true_iff in W as [W1 W2]. cbn [AnyModel.aafter]. apply IH; auto. now apply seen_step.
  Qed.

  Theorem any_looking d r strict h : something [] d -> (strict = true -> r = []) -> forallb watching h = true ->
    exists y, any_load [] (d ++ r) strict = Ok y /\ forall s p,
      snd (any_parse s p (aafter h y)) = p /\
      match snd (fst (any_parse s p (aafter h y))) with
      | Ok (n, v) => exists l v0, reads l = true /\ parse_with s (Some (params_of (dict_or p))) d = Ok (n, v0) /\ v = after (cls n) l v0
      | Err e => parse_with s (Some (params_of (dict_or p))) d = Err e
      end.
  Proof.
    intros H Hr W. destruct (any_load_something [] d r strict H Hr) as (y & L & X & P & O). exists y. split; auto. intros s p.
    apply (seen_parse d). apply seen_after; auto. split; auto. intros q Q. congruence.
  Qed.

  (* ---- copies ---- *)
  Theorem any_copied ex ex' n q i a d v : wf (cls n) -> taggable (cls n) q -> denotes (cls n) i a -> der (cls n) (stags (cls n) q) a d ->
    x_make (methods (cls n)) q None i = Ok v ->
    exists y z, any_make cls ex (Some (n, v)) = Ok y /\ any_retag cls ex' y = Ok z /\ forall f, snd (any_dump f z) = Ok d.
  Proof.
    intros W T Di D Ev. destruct (any_own ex n q i a d v W T Di D Ev) as (y & a1 & v1 & E1 & E2 & S & (r & Q & Hn & Hv) & R).
    pose proof (tok _ _ W T) as Ht. assert (D1 : der (cls n) (stags (cls n) q) a1 d) by (eapply der_sim; eauto).
    destruct (K_copy (cls n) (contract_all _ W) Own _ _ _ _ eq_refl Ht (der_fits _ _ _ _ Ht D1) R) as (v2 & a2 & E3 & S2 & R2 & N2).
    exists y. unfold any_retag. rewrite Q, Hn, Hv, E3. cbn [bind]. eexists. split; [exact E1|]. split; [reflexivity|]. intros f.
    assert (Hz : has n v2 (AnyObj ex' None (y_contents y) [] (Some (with_inner r v2)))) by (eexists; split; [reflexivity|]; split; [exact Hn|reflexivity]).
    unfold AnyModel.any_dump. rewrite (proj2 (on_has _ n v2 _ Hz)).
    destruct (K_dump (cls n) (contract_all _ W) _ _ _ _ _ f Ht R2) as (v3 & d3 & E4 & _ & _ & _ & En). rewrite E4. cbn. f_equal.
    eapply encodes_fun; [exact W|apply En; auto|]. apply der_encodes; auto. eapply der_sim; eauto.
  Qed.
End Facts.

Lemma any_implicit (cls : nat -> spec) (guess : option params -> bytes -> res (nat * value)) (im : option (Z * Z)) (n : nat) (a : aval) (d : bytes) :
  wf (cls n) -> taggable (cls n) (Params [] im false) -> ber_encodes (cls n) (stags (cls n) (Params [] im false)) a d ->
  exists y y1 v p' a', any_load [] d true = Ok y /\ any_parse cls guess (Some n) (Some (Dict GNone im)) y = (y1, Ok (n, v), p') /\
    sim (cls n) a a' /\ any_follows cls guess Lost n (stags (cls n) (Params [] im false)) a' y1.
Proof.
  intros W T E. rewrite <- (app_nil_r d).
  exact (any_parse_ok cls guess [] (Some (Dict GNone im)) (Dict GNone im) n a d [] true W eq_refl (or_introl eq_refl) T E (fun _ => eq_refl)).
Qed.
Lemma any_number (cls : nat -> spec) (guess : option params -> bytes -> res (nat * value)) (k : Z) (n : nat) (a : aval) (d : bytes) :
  wf (cls n) -> taggable (cls n) (Params [(2, k)] None false) -> ber_encodes (cls n) (stags (cls n) (Params [(2, k)] None false)) a d ->
  exists y y1 v p' a', any_load [] d true = Ok y /\ any_parse cls guess (Some n) (Some (Dict (GTag k) None)) y = (y1, Ok (n, v), p') /\
    sim (cls n) a a' /\ any_follows cls guess Lost n (stags (cls n) (Params [(2, k)] None false)) a' y1.
Proof.
  intros W T E. rewrite <- (app_nil_r d).
  exact (any_parse_ok cls guess [] (Some (Dict (GTag k) None)) (Dict (GTag k) None) n a d [] true W eq_refl (or_introl eq_refl) T E (fun _ => eq_refl)).
Qed.
Lemma put_keeps ex p p' : put_explicit ex p = Ok p' -> g_implicit p' = g_implicit p.
Proof. unfold put_explicit. destruct ex; [now intros [= <-]|]. destruct (g_explicit p); try discriminate; now intros [= <-]. Qed.
Lemma any_implicit_stays (cls : nat -> spec) (guess : option params -> bytes -> res (nat * value)) (s : option nat) (p : option dict) (y : aobj) :
  option_map g_implicit (snd (any_parse cls guess s p y)) = option_map g_implicit p.
Proof.
  unfold any_parse. set (again := match put_explicit _ _ with Ok _ => _ | Err _ => _ end).
  assert (A : option_map g_implicit (snd again) = option_map g_implicit p).
  { unfold again. destruct (put_explicit _ _) as [p'|e] eqn:P; [|reflexivity].
    assert (K : option_map g_implicit (match p with Some d => if is_empty d then p else Some p' | None => None end) = option_map g_implicit p).
    { destruct p as [d|]; [|reflexivity]. destruct (is_empty d); [reflexivity|]. cbn. f_equal. exact (put_keeps _ _ _ P). }
    destruct (y_header y), (y_contents y); try exact K. destruct (parse_with _ _ _ _ _) as [[n v]|e]; exact K. }
  destruct (y_parsed y) as [q|]; [|exact A]. destruct (same_dict q s p); [reflexivity|exact A].
Qed.

Lemma any_unparsed (cls : nat -> spec) (guess : option params -> bytes -> res (nat * value)) (ex : list (Z * Z)) (d r : bytes) (strict : bool) :
  something ex d -> (strict = true -> r = []) ->
  exists y, any_load ex (d ++ r) strict = Ok y /\
    match guess (Some (Params ex None false)) d with
    | Ok (n, v) => snd (any_native cls guess y) = snd (x_native (methods (cls n)) v) /\
                   forall f, snd (any_dump cls guess f y) = snd (x_dump (methods (cls n)) f v)
    | Err e => snd (any_native cls guess y) = Err e /\ forall f, snd (any_dump cls guess f y) = Err e
    end.
Proof.
  intros S Hr. destruct (any_load_something ex d r strict S Hr) as (y & L & Ey & Py & (hd & c & Eh & Ec & Ed)). exists y. split; [exact L|].
  assert (P : exists D, put_explicit ex empty_dict = Ok D /\ params_of D = Params ex None false) by (destruct ex; eexists; split; reflexivity).
  destruct P as (D & P & E).
  assert (K : forall A (f : nat -> value -> value * res A), snd (on_parsed cls guess f y) =
    match guess (Some (Params ex None false)) d with Ok (n, v) => snd (f n v) | Err e => Err e end).
  { intros A f. unfold on_parsed, any_parsed. rewrite Py. unfold any_parse. rewrite Py, Ey, P, Eh, Ec, Ed. cbn [parse_with]. rewrite E.
    destruct (guess _ d) as [[n v]|e]; [|reflexivity]. cbn [fst snd y_parsed h_class h_value]. now destruct (f n v). }
  unfold any_native, any_dump. rewrite K. destruct (guess _ d) as [[n v]|e] eqn:G; split; auto; intros f; rewrite K; reflexivity.
Qed.
