(* Equality of names: an equivalence, and what it says of the attributes. *)
Require Import Verif.Base Verif.BaseFacts Verif.Text Verif.NameModel Verif.NameSpec Verif.NameSort.
Require Import Permutation Sorted.

(* ---- equality of prepared values ---- *)
Lemma peq_spec p q : peq p q = true <-> p = q \/ exists n, as_number p = Some n /\ as_number q = Some n.
Proof.
  destruct p, q; cbn [peq as_number]; rewrite ?eqb_text_spec, ?Z.eqb_eq;
    (split; [intros H|intros [H|(k & H1 & H2)]]);
    try (left; congruence); try congruence; try discriminate; eauto;
    try (right; eexists; split; [reflexivity|congruence]).
  - injection H as <-. reflexivity.
Qed.
Lemma peq_refl p : peq p p = true.
Proof. apply peq_spec. left. reflexivity. Qed.
Lemma peq_sym p q : peq p q = peq q p.
Proof.
  destruct (peq q p) eqn:E.
  - apply peq_spec in E. apply peq_spec. destruct E as [E|(n & H1 & H2)]; [left; congruence|right; eauto].
  - destruct (peq p q) eqn:F; [|reflexivity]. apply peq_spec in F.
    assert (peq q p = true) by (apply peq_spec; destruct F as [F|(n & H1 & H2)]; [left; congruence|right; eauto]).
    congruence.
Qed.
Lemma peq_trans p q r : peq p q = true -> peq q r = true -> peq p r = true.
Proof.
  rewrite !peq_spec. intros [->|(n & H1 & H2)] [H|(m & H3 & H4)]; subst; eauto.
  right. exists n. split; [exact H1|congruence].
Qed.

(* ---- attributes ---- *)
Lemma eq_attr_spec L x y : eq_attr L x y = Ok true <-> same_attr L x y.
Proof.
  unfold eq_attr, same_attr. rewrite (eqb_text_sym (a_type y)).
  destruct (eqb_text (a_type x) (a_type y)) eqn:E; cbn [negb].
  - apply eqb_text_spec in E.
    destruct (prep_value L (a_value y)) as [q|]; cbn [bind]; [|split; [discriminate|intros (_ & ? & ? & _ & ? & _); discriminate]].
    destruct (prep_value L (a_value x)) as [p|]; cbn [bind]; [|split; [discriminate|intros (_ & ? & ? & ? & _); discriminate]].
    rewrite peq_sym. split.
    + intros H. injection H as H. split; [exact E|]. eauto.
    + intros (_ & ? & ? & H1 & H2 & H3). congruence.
  - apply eqb_text_false in E. split; [discriminate|]. intros [? _]. congruence.
Qed.

(* ---- the dictionary of prepared values ---- *)
Fixpoint last_of (t : text) (r : rdn) : option attr :=
  match r with
  | [] => None
  | x :: r' => match last_of t r' with
               | Some y => Some y
               | None => if eqb_text t (a_type x) then Some x else None
               end
  end.
Definition okp {A} (x : res A) : option A := match x with Ok a => Some a | Err _ => None end.
Definition val (L : prep_lib) (r : rdn) (t : text) : option prepped :=
  match last_of t r with Some x => okp (prep_value L (a_value x)) | None => None end.

Lemma get_values_ok L r : forall d d', get_values L r d = Ok d' ->
  Forall (can_prepare L) r /\
  forall t, dget t d' = match last_of t r with Some x => okp (prep_value L (a_value x)) | None => dget t d end.
Proof.
  induction r as [|x r IH]; intros d d'; cbn [get_values last_of].
  - intros [= <-]. split; [constructor|reflexivity].
  - destruct (prep_value L (a_value x)) as [p|] eqn:E; cbn [bind]; [|discriminate].
    intros H. destruct (IH _ _ H) as [F G]. split.
    + constructor; [exists p; exact E|exact F].
    + intros t. rewrite G. destruct (last_of t r); [reflexivity|]. rewrite dget_dset.
      destruct (eqb_text t (a_type x)); [|reflexivity]. rewrite E. reflexivity.
Qed.
Lemma get_values_total L r : forall d, Forall (can_prepare L) r -> exists d', get_values L r d = Ok d'.
Proof.
  induction r as [|x r IH]; intros d F; cbn [get_values]; [eauto|].
  inversion F as [|? ? [p E] F']; subst. rewrite E. cbn [bind]. apply IH, F'.
Qed.
Lemma get_values_keys L r : forall d d', get_values L r d = Ok d' ->
  (NoDup (map fst d) -> NoDup (map fst d')) /\
  (forall t, In t (map fst d') <-> In t (types r) \/ In t (map fst d)).
Proof.
  induction r as [|x r IH]; intros d d'; cbn [get_values types map].
  - intros [= <-]. split; [auto|]. cbn. intuition.
  - destruct (prep_value L (a_value x)) as [p|]; cbn [bind]; [|discriminate].
    intros H. destruct (IH _ _ H) as [N I]. split.
    + intros Nd. apply N, keys_dset_nodup, Nd.
    + intros t. rewrite I, keys_dset_in. cbn [In]. fold (types r). intuition.
Qed.
Lemma last_of_in t r : In t (types r) -> exists x, last_of t r = Some x.
Proof.
  induction r as [|x r IH]; cbn [types map In last_of]; [intros []|].
  intros [<-|H].
  - destruct (last_of (a_type x) r); [eauto|]. rewrite eqb_text_refl. eauto.
  - destruct (IH H) as [y ->]. eauto.
Qed.
Lemma last_of_some t r x : last_of t r = Some x -> In x r /\ a_type x = t.
Proof.
  induction r as [|y r IH]; cbn [last_of]; [discriminate|].
  destruct (last_of t r) as [z|].
  - intros [= ->]. destruct (IH eq_refl). split; [right|]; assumption.
  - destruct (eqb_text t (a_type y)) eqn:E; [|discriminate]. intros [= <-].
    apply eqb_text_spec in E. split; [left; reflexivity|congruence].
Qed.
Lemma val_in L r t : Forall (can_prepare L) r -> In t (types r) -> exists p, val L r t = Some p.
Proof.
  intros F H. unfold val. destruct (last_of_in t r H) as [x E]. rewrite E.
  destruct (last_of_some _ _ _ E) as [I _]. rewrite Forall_forall in F. destruct (F x I) as [p ->]. exists p. reflexivity.
Qed.

(* ---- equality of relative distinguished names ---- *)
Definition eqv (L : prep_lib) (a b : rdn) : Prop :=
  len a = len b /\ (forall t, In t (types a) <-> In t (types b)) /\
  Forall (can_prepare L) a /\ Forall (can_prepare L) b /\
  forall t, In t (types a) -> exists p q, val L a t = Some p /\ val L b t = Some q /\ peq p q = true.

Lemma forallb_false {A} (f : A -> bool) l : forallb f l = false <-> exists x, In x l /\ f x = false.
Proof.
  induction l as [|x l IH]; cbn [forallb In]; [split; [discriminate|intros (? & [] & _)]|].
  rewrite andb_false_iff, IH. split.
  - intros [H|(y & Hy & H)]; eauto.
  - intros (y & [<-|Hy] & H); eauto.
Qed.

(* what the comparison can answer *)
Lemma eq_rdn_cases L a b :
  (eq_rdn L a b = Ok true /\ eqv L a b) \/
  (eq_rdn L a b = Ok false /\
     (len a <> len b \/ ~ (forall t, In t (types a) <-> In t (types b)) \/
      Forall (can_prepare L) a /\ Forall (can_prepare L) b /\ (forall t, In t (types a) <-> In t (types b)) /\
        exists t p q, In t (types a) /\ val L a t = Some p /\ val L b t = Some q /\ peq p q = false)) \/
  (exists e, eq_rdn L a b = Err e /\ len a = len b /\ (forall t, In t (types a) <-> In t (types b)) /\
     ~ (Forall (can_prepare L) a /\ Forall (can_prepare L) b)).
Proof.
  unfold eq_rdn. destruct (len a =? len b) eqn:El; cbn [negb]; [|right; left; split; [reflexivity|left; lia]].
  apply Z.eqb_eq in El.
  destruct (same_set (types a) (types b)) eqn:Es; cbn [negb].
  2:{ right. left. split; [reflexivity|]. right. left. intros H. apply same_set_spec in H. congruence. }
  assert (S := proj1 (same_set_spec _ _) Es).
  destruct (get_values L a []) as [va|e] eqn:Ea; cbn [bind].
  2:{ right. right. exists e. repeat split; auto; try apply S. intros [F _].
      destruct (get_values_total L a [] F). congruence. }
  destruct (get_values L b []) as [vb|e] eqn:Eb; cbn [bind].
  2:{ right. right. exists e. repeat split; auto; try apply S. intros [_ F].
      destruct (get_values_total L b [] F). congruence. }
  destruct (get_values_ok _ _ _ _ Ea) as [Fa Ga]. destruct (get_values_ok _ _ _ _ Eb) as [Fb Gb].
  assert (Ga' : forall t, dget t va = val L a t) by (intros t; rewrite Ga; reflexivity).
  assert (Gb' : forall t, dget t vb = val L b t) by (intros t; rewrite Gb; reflexivity).
  set (f := fun t => match dget t va with Some p => match dget t vb with Some q => peq p q | None => false end | None => false end).
  destruct (forallb f (types a)) eqn:Ef.
  - left. split; [reflexivity|]. split; [exact El|]. split; [exact S|]. split; [exact Fa|]. split; [exact Fb|].
    intros t Ht. rewrite forallb_forall in Ef. specialize (Ef t Ht). unfold f in Ef. rewrite Ga', Gb' in Ef.
    destruct (val L a t) as [p|]; [|discriminate]. destruct (val L b t) as [q|]; [|discriminate]. eauto.
  - right. left. split; [reflexivity|]. right. right. repeat (split; [assumption|]).
    apply forallb_false in Ef. destruct Ef as (t & Ht & Ef). unfold f in Ef. rewrite Ga', Gb' in Ef.
    destruct (val_in L a t Fa Ht) as [p Hp]. destruct (val_in L b t Fb (proj1 (S t) Ht)) as [q Hq].
    rewrite Hp, Hq in Ef. exists t, p, q. auto.
Qed.

Lemma eq_rdn_true L a b : eq_rdn L a b = Ok true <-> eqv L a b.
Proof.
  destruct (eq_rdn_cases L a b) as [[H E]|[[H E]|(e & H & E)]]; rewrite H.
  - split; auto.
  - split; [discriminate|]. intros (H1 & H2 & H3 & H4 & H5). exfalso.
    destruct E as [E|[E|(_ & _ & _ & t & p & q & Ht & Hp & Hq & E)]]; [contradiction..|].
    destruct (H5 t Ht) as (p' & q' & Hp' & Hq' & E'). congruence.
  - split; [discriminate|]. intros (H1 & H2 & H3 & H4 & H5). destruct E as (_ & _ & E). exfalso. auto.
Qed.
Lemma eqv_sym L a b : eqv L a b -> eqv L b a.
Proof.
  intros (H1 & H2 & H3 & H4 & H5). split; [congruence|]. split; [intros t; symmetry; apply H2|].
  split; [exact H4|]. split; [exact H3|]. intros t Ht.
  destruct (H5 t (proj2 (H2 t) Ht)) as (p & q & Hp & Hq & E). exists q, p. rewrite peq_sym. auto.
Qed.
Lemma eqv_trans L a b c : eqv L a b -> eqv L b c -> eqv L a c.
Proof.
  intros (H1 & H2 & H3 & H4 & H5) (K1 & K2 & K3 & K4 & K5).
  split; [congruence|]. split; [intros t; rewrite H2; apply K2|]. split; [exact H3|]. split; [exact K4|].
  intros t Ht. destruct (H5 t Ht) as (p & q & Hp & Hq & E).
  destruct (K5 t (proj1 (H2 t) Ht)) as (q' & r & Hq' & Hr & E').
  exists p, r. split; [exact Hp|]. split; [exact Hr|]. eapply peq_trans; [exact E|]. congruence.
Qed.
Lemma eqv_refl L a : Forall (can_prepare L) a -> eqv L a a.
Proof.
  intros F. repeat (split; [auto; tauto|]). intros t Ht. destruct (val_in L a t F Ht) as [p Hp].
  exists p, p. auto using peq_refl.
Qed.

(* both directions give the same answer, or both raise *)
Lemma eq_rdn_sym L a b : match eq_rdn L a b, eq_rdn L b a with
  | Ok x, Ok y => x = y | Err _, Err _ => True | _, _ => False end.
Proof.
  destruct (eq_rdn_cases L a b) as [[H E]|[[H E]|(e & H & E)]]; rewrite H.
  - apply eqv_sym, eq_rdn_true in E. rewrite E. reflexivity.
  - destruct (eq_rdn_cases L b a) as [[H' E']|[[H' E']|(e' & H' & E')]]; rewrite H'.
    + exfalso. apply eqv_sym, eq_rdn_true in E'. congruence.
    + reflexivity.
    + destruct E' as (K1 & K2 & K3).
      destruct E as [E|[E|(F1 & F2 & _)]]; [congruence| |tauto].
      apply E. intros t. symmetry. apply K2.
  - destruct (eq_rdn_cases L b a) as [[H' E']|[[H' E']|(e' & H' & E')]]; rewrite H'; [| |exact I].
    + exfalso. apply eqv_sym, eq_rdn_true in E'. congruence.
    + destruct E as (K1 & K2 & K3).
      destruct E' as [E|[E|(F1 & F2 & _)]]; [congruence| |tauto].
      apply E. intros t. symmetry. apply K2.
Qed.

(* ---- names ---- *)
Lemma eq_rdns_true L a : forall b, length a = length b -> (eq_rdns L a b = Ok true <-> Forall2 (eqv L) a b).
Proof.
  induction a as [|x a IH]; intros [|y b] E; try discriminate; cbn [eq_rdns].
  - split; auto.
  - injection E as E. specialize (IH b E). pose proof (eq_rdn_true L y x) as T.
    destruct (eq_rdn L y x) as [[|]|]; cbn [bind].
    + rewrite IH. split; [intros H; constructor; [apply eqv_sym, T; reflexivity|exact H]|]. intros H. inversion H. assumption.
    + split; [discriminate|]. intros H. inversion H as [|? ? ? ? V]; subst. apply eqv_sym, T in V. discriminate.
    + split; [discriminate|]. intros H. inversion H as [|? ? ? ? V]; subst. apply eqv_sym, T in V. discriminate.
Qed.
Lemma Forall2_length {A B} (R : A -> B -> Prop) a b : Forall2 R a b -> length a = length b.
Proof. induction 1; cbn; congruence. Qed.
Lemma eq_name_true L a b : eq_name L a b = Ok true <-> Forall2 (eqv L) a b.
Proof.
  unfold eq_name. destruct (len a =? len b) eqn:E; cbn [negb].
  - apply eq_rdns_true. unfold len in E. lia.
  - split; [discriminate|]. intros H. apply Forall2_length in H. unfold len in E. lia.
Qed.
Lemma name_refl L n : comparable L n -> eq_name L n n = Ok true.
Proof.
  intros H. apply eq_name_true. induction H; constructor; auto using eqv_refl.
Qed.
Lemma name_sym L a b : match eq_name L a b, eq_name L b a with
  | Ok x, Ok y => x = y | Err _, Err _ => True | _, _ => False end.
Proof.
  unfold eq_name. rewrite (Z.eqb_sym (len b)). destruct (len a =? len b) eqn:E; cbn [negb]; [|reflexivity].
  assert (El : length a = length b) by (unfold len in E; lia). clear E.
  revert b El. induction a as [|x a IH]; intros [|y b] El; try discriminate; cbn [eq_rdns]; [reflexivity|].
  injection El as El. specialize (IH b El). pose proof (eq_rdn_sym L y x) as S.
  destruct (eq_rdn L y x) as [[|]|], (eq_rdn L x y) as [[|]|]; cbn [bind]; try discriminate; try contradiction; auto.
Qed.
Lemma name_trans L a b c : eq_name L a b = Ok true -> eq_name L b c = Ok true -> eq_name L a c = Ok true.
Proof.
  rewrite !eq_name_true. intros H. revert c. induction H as [|x y a b E _ IH]; intros c K; inversion K; subst; constructor.
  - eapply eqv_trans; eauto.
  - apply IH. assumption.
Qed.

(* ---- no repeated types: exactly the same attributes ---- *)
Lemma last_of_unique r x : distinct_types r -> In x r -> last_of (a_type x) r = Some x.
Proof.
  unfold distinct_types. induction r as [|y r IH]; intros N I; [destruct I|]. cbn [map] in N. inversion N as [|? ? Ny N']; subst.
  cbn [last_of]. destruct I as [->|I].
  - destruct (last_of (a_type x) r) as [z|] eqn:E.
    + apply last_of_some in E. destruct E as [I E]. exfalso. apply Ny. rewrite <- E. apply in_map, I.
    + rewrite eqb_text_refl. reflexivity.
  - rewrite (IH N' I). reflexivity.
Qed.
Lemma pair_up L a : forall b, length a = length b -> distinct_types a ->
  (forall x, In x a -> exists y, In y b /\ same_attr L x y) -> same_attrs L a b.
Proof.
  unfold distinct_types. induction a as [|x a IH]; intros b El N H.
  - destruct b; [|discriminate]. exists []. split; constructor.
  - destruct (H x (or_introl eq_refl)) as (y & Iy & Sy).
    destruct (in_split _ _ Iy) as (b1 & b2 & ->). cbn [map] in N. inversion N as [|? ? Nx N']; subst.
    destruct (IH (b1 ++ b2)) as (b' & P & F).
    + cbn [length] in El. rewrite app_length in *. cbn [length] in El. lia.
    + exact N'.
    + intros x' Hx'. destruct (H x' (or_intror Hx')) as (y' & Iy' & Sy'). exists y'. split; [|exact Sy'].
      apply in_app_iff in Iy'. apply in_app_iff. destruct Iy' as [?|[<-|?]]; auto.
      exfalso. apply Nx. destruct Sy as [Sy _], Sy' as [Sy' _].
      replace (a_type x) with (a_type x') by congruence. apply in_map, Hx'.
    + exists (y :: b'). split; [|constructor; assumption].
      rewrite <- P. symmetry. apply Permutation_middle.
Qed.
Lemma same_attrs_types L a b : same_attrs L a b -> Permutation (types a) (types b).
Proof.
  intros (b' & P & F). unfold types. rewrite P. clear P.
  induction F as [|x y a' b0 [E _] _ IH]; cbn [map]; [constructor|]. rewrite E. constructor. exact IH.
Qed.
Lemma eqv_attrs L a b : distinct_types a -> (eqv L a b <-> same_attrs L a b).
Proof.
  intros N. split.
  - intros (H1 & H2 & H3 & H4 & H5). apply pair_up; [unfold len in H1; lia|exact N|].
    intros x Ix. assert (Ht : In (a_type x) (types a)) by (apply in_map, Ix).
    destruct (H5 _ Ht) as (p & q & Hp & Hq & E).
    unfold val in Hp, Hq. rewrite (last_of_unique a x N Ix) in Hp.
    destruct (last_of (a_type x) b) as [y|] eqn:Ey; [|discriminate].
    destruct (last_of_some _ _ _ Ey) as [Iy Ty]. exists y. split; [exact Iy|]. split; [congruence|].
    exists p, q. destruct (prep_value L (a_value x)); [|discriminate]. destruct (prep_value L (a_value y)); [|discriminate].
    cbn in Hp, Hq. repeat split; congruence.
  - intros S. assert (Pt := same_attrs_types _ _ _ S). destruct S as (b' & P & F).
    assert (Nb : distinct_types b) by (unfold distinct_types; eapply Permutation_NoDup; [exact Pt|exact N]).
    assert (X : forall x, In x a -> exists y, In y b' /\ same_attr L x y).
    { clear -F. induction F as [|x y a b' S _ IH]; [intros ? []|].
      intros x0 [<-|I]; [exists y; split; [left; reflexivity|exact S]|].
      destruct (IH _ I) as (y0 & I0 & S0). exists y0. split; [right|]; assumption. }
    assert (Y : forall y, In y b' -> exists x, In x a /\ same_attr L x y).
    { clear -F. induction F as [|x y a b' S _ IH]; [intros ? []|].
      intros y0 [<-|I]; [exists x; split; [left; reflexivity|exact S]|].
      destruct (IH _ I) as (x0 & I0 & S0). exists x0. split; [right|]; assumption. }
    split.
    { apply Forall2_length in F. apply Permutation_length in P. unfold len. lia. }
    split.
    { intros t. split; apply Permutation_in; [|symmetry]; exact Pt. }
    split; [|split].
    + apply Forall_forall. intros x Ix. destruct (X x Ix) as (y & _ & _ & p & q & Hp & _). exists p. exact Hp.
    + apply Forall_forall. intros y Iy. destruct (Y y (Permutation_in _ P Iy)) as (x & _ & _ & p & q & _ & Hq & _).
      exists q. exact Hq.
    + intros t Ht. unfold types in Ht. apply in_map_iff in Ht. destruct Ht as (x & <- & Ix).
      destruct (X x Ix) as (y & Iy & T & p & q & Hp & Hq & E). exists p, q. unfold val.
      rewrite (last_of_unique a x N Ix), T, (last_of_unique b y Nb (Permutation_in _ (Permutation_sym P) Iy)).
      rewrite Hp, Hq. auto.
Qed.
Lemma Forall2_iff {A} (P : A -> Prop) (R S : A -> A -> Prop) a b :
  Forall P a -> (forall x y, P x -> (R x y <-> S x y)) -> (Forall2 R a b <-> Forall2 S a b).
Proof.
  intros F H. split; intros K; revert F; induction K; intros F; inversion F; subst; constructor; auto; apply H; auto.
Qed.
Lemma name_attrs L a b : Forall distinct_types a -> (eq_name L a b = Ok true <-> Forall2 (same_attrs L) a b).
Proof.
  intros F. rewrite eq_name_true. apply Forall2_iff with (P := distinct_types); [exact F|].
  intros x y N. apply eqv_attrs, N.
Qed.
Lemma reordered L a b : Permutation a b -> distinct_types a -> Forall (can_prepare L) a -> same_attrs L a b.
Proof.
  intros P _ F. exists a. split; [symmetry; exact P|]. clear P b.
  induction F as [|x a [p E] _ IH]; constructor; [|exact IH].
  split; [reflexivity|]. exists p, p. auto using peq_refl.
Qed.
Lemma name_order L a b : Forall2 (@Permutation attr) a b -> Forall distinct_types a -> comparable L a ->
  eq_name L a b = Ok true.
Proof.
  intros P N C. apply name_attrs; [exact N|]. unfold comparable in C. revert N C.
  induction P; intros N C; inversion N; inversion C; subst; constructor; auto using reordered.
Qed.

(* ---- hashable ---- *)
Lemma show_eq p q : peq p q = true -> (forall b, p <> PBool b) -> (forall b, q <> PBool b) -> show p = show q.
Proof.
  intros H Hp Hq. apply peq_spec in H. destruct H as [->|(n & H1 & H2)]; [reflexivity|].
  destruct p, q; cbn in *; try discriminate; try congruence; exfalso; eapply Hp + eapply Hq; reflexivity.
Qed.
Lemma val_not_bool L r t p : Forall not_bool r -> val L r t = Some p -> forall b, p <> PBool b.
Proof.
  intros F H b ->. unfold val in H. destruct (last_of t r) as [x|] eqn:E; [|discriminate].
  destruct (last_of_some _ _ _ E) as [I _]. rewrite Forall_forall in F. specialize (F x I). unfold not_bool in F.
  destruct (a_value x); cbn in H; try discriminate; try contradiction.
  - destruct (ldap_prep L s); discriminate.
  - destruct (cp1252 b0); discriminate.
Qed.
Lemma hash_rdn_eq L a b : Forall not_bool a -> Forall not_bool b -> eqv L a b ->
  exists h, hash_rdn L a = Ok h /\ hash_rdn L b = Ok h.
Proof.
  intros Na Nb (H1 & H2 & H3 & H4 & H5). unfold hash_rdn.
  destruct (get_values_total L a [] H3) as [da Ea]. destruct (get_values_total L b [] H4) as [db Eb].
  rewrite Ea, Eb. cbn [bind]. eexists. split; [reflexivity|]. do 2 f_equal.
  destruct (get_values_keys _ _ _ _ Ea) as [Da Ia]. destruct (get_values_keys _ _ _ _ Eb) as [Db Ib].
  destruct (get_values_ok _ _ _ _ Ea) as [_ Ga]. destruct (get_values_ok _ _ _ _ Eb) as [_ Gb].
  assert (P : Permutation (map fst db) (map fst da)).
  { apply NoDup_Permutation; [apply Db; constructor|apply Da; constructor|].
    intros t. rewrite Ia, Ib, H2. reflexivity. }
  rewrite (sort_keys_unique _ _ P). apply map_ext_in. intros t Ht.
  assert (Ht' : In t (types a)).
  { apply (Permutation_in _ (Permutation_sym (sort_keys_perm _))) in Ht. apply Ia in Ht. destruct Ht as [?|[]]; assumption. }
  destruct (H5 t Ht') as (p & q & Hp & Hq & E). unfold entry. rewrite Ga, Gb.
  fold (val L a t). fold (val L b t).
  assert (Xa : match last_of t a with Some x => okp (prep_value L (a_value x)) | None => dget t [] end = Some p)
    by (unfold val in Hp; destruct (last_of t a); [exact Hp|discriminate]).
  assert (Xb : match last_of t b with Some x => okp (prep_value L (a_value x)) | None => dget t [] end = Some q)
    by (unfold val in Hq; destruct (last_of t b); [exact Hq|discriminate]).
  rewrite Xa, Xb. do 2 f_equal. symmetry.
  apply show_eq; [exact E|exact (val_not_bool _ _ _ _ Na Hp)|exact (val_not_bool _ _ _ _ Nb Hq)].
Qed.
Lemma name_hash L a b : Forall (Forall not_bool) a -> Forall (Forall not_bool) b -> eq_name L a b = Ok true ->
  exists h, hash_name L a = Ok h /\ hash_name L b = Ok h.
Proof.
  intros Na Nb H. apply eq_name_true in H. unfold hash_name.
  assert (X : exists hs, hash_rdns L a = Ok hs /\ hash_rdns L b = Ok hs).
  { revert Na Nb. induction H as [|x y a b E _ IH]; intros Na Nb; cbn [hash_rdns]; [eauto|].
    inversion Na; inversion Nb; subst. destruct (hash_rdn_eq L x y) as (h & -> & ->); [assumption..|].
    destruct IH as (hs & -> & ->); [assumption..|]. cbn [bind]. eauto. }
  destruct X as (hs & -> & ->). cbn [bind]. eauto.
Qed.
