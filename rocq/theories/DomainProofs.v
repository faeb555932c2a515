(* Host name matching. *)
Require Import Verif.Base Verif.BaseFacts Verif.Text Verif.NameModel Verif.NameSort Verif.DomainModel Verif.DomainSpec.

(* ---- lists of labels ---- *)
Lemma labels_eq a : forall b, forallb (fun xy => eqb_text (fst xy) (snd xy)) (combine a b) = true -> length a = length b -> a = b.
Proof.
  induction a as [|x a IH]; intros [|y b] H E; try discriminate; [reflexivity|].
  cbn [combine forallb fst snd] in H. apply andb_true_iff in H. destruct H as [H1 H2].
  apply eqb_text_spec in H1. subst y. f_equal. apply IH; [exact H2|]. cbn [length] in E. lia.
Qed.
Lemma labels_refl a : forallb (fun xy => eqb_text (fst xy) (snd xy)) (combine a a) = true.
Proof. induction a as [|x a IH]; [reflexivity|]. cbn. rewrite eqb_text_refl. exact IH. Qed.

Lemma count_app c a b : count c (a ++ b) = count c a + count c b.
Proof. unfold count. rewrite filter_app, len_app. reflexivity. Qed.
Lemma count_cons c x a : count c (x :: a) = (if x =? c then 1 else 0) + count c a.
Proof. unfold count. cbn [filter]. rewrite Z.eqb_sym. destruct (x =? c); [rewrite len_cons|]; lia. Qed.
Lemma count_nonneg c a : 0 <= count c a.
Proof. apply len_nonneg. Qed.
Lemma count_zero c a : count c a = 0 <-> ~ In c a.
Proof.
  induction a as [|x a IH]; [split; [intros _ []|reflexivity]|]. rewrite count_cons. pose proof (count_nonneg c a).
  cbn [In]. destruct (x =? c) eqn:E; [split; [lia|intros H1; exfalso; apply H1; left; lia]|].
  rewrite Z.add_0_l, IH. split; [intros H1 [?|?]; [lia|auto]|auto].
Qed.
Lemma count_one c s : count c s = 1 <-> exists a b, s = a ++ c :: b /\ ~ In c a /\ ~ In c b.
Proof.
  split.
  - induction s as [|x s IH]; [discriminate|]. rewrite count_cons. destruct (x =? c) eqn:E; intros H.
    + apply Z.eqb_eq in E. subst x. exists [], s. split; [reflexivity|]. split; [intros []|]. apply count_zero. lia.
    + destruct IH as (a & b & -> & Ha & Hb); [lia|]. exists (x :: a), b. split; [reflexivity|]. split; [|exact Hb].
      intros [?|?]; [lia|auto].
  - intros (a & b & -> & Ha & Hb). apply count_zero in Ha, Hb. rewrite count_app, count_cons, Z.eqb_refl. lia.
Qed.
Lemma count_join c l : c <> 46 -> count c (join_with 46 l) = fold_right (fun w n => count c w + n) 0 l.
Proof.
  intros N. induction l as [|w l IH]; [reflexivity|]. cbn [fold_right]. rewrite <- IH. destruct l as [|w' l].
  - cbn [join_with]. rewrite Z.add_0_r. reflexivity.
  - change (join_with 46 (w :: w' :: l)) with (w ++ 46 :: join_with 46 (w' :: l)).
    rewrite count_app, count_cons. replace (46 =? c) with false by lia. lia.
Qed.
Lemma sum_zero c l : fold_right (fun w n => count c w + n) 0 l = 0 <-> Forall (fun w => ~ In c w) l.
Proof.
  assert (P : forall l, 0 <= fold_right (fun w n => count c w + n) 0 l).
  { induction l0 as [|w l0 IH]; cbn [fold_right]; [lia|]. pose proof (count_nonneg c w). lia. }
  induction l as [|w l IH]; cbn [fold_right]; [split; [constructor|reflexivity]|].
  pose proof (count_nonneg c w). pose proof (P l). split.
  - intros E. constructor; [apply count_zero; lia|apply IH; lia].
  - intros F. inversion F as [|? ? F1 F2]; subst. apply count_zero in F1. apply IH in F2. lia.
Qed.
Lemma has_in c s : has c s = true <-> In c s.
Proof.
  unfold has. rewrite existsb_exists. split; [intros (x & I & E); apply Z.eqb_eq in E; congruence|].
  intros I. exists c. split; [exact I|apply Z.eqb_refl].
Qed.
Lemma lower_idem s : lower_ascii (lower_ascii s) = lower_ascii s.
Proof.
  unfold lower_ascii. rewrite map_map. apply map_ext. intros c. unfold lower_char.
  destruct ((65 <=? c) && (c <=? 90)) eqn:E; [|rewrite E; reflexivity].
  destruct ((65 <=? c + 32) && (c + 32 <=? 90)) eqn:E2; lia.
Qed.

(* the name is a wildcard: one star, in the first label, not an A-label *)
Lemma is_wildcard_spec s : is_wildcard (lower_ascii s) = true <->
  exists w rest a b, labels_of s = w :: rest /\ star_label w a b /\ Forall (fun l => ~ In 42 l) rest.
Proof.
  unfold is_wildcard, labels_of. fold (lower_ascii s). rewrite lower_idem. set (e := lower_ascii s).
  destruct (split_on 46 e) as [|w rest] eqn:E; [destruct (split_on_nonnil 46 e E)|]. cbn [hd].
  assert (J : e = join_with 46 (w :: rest)) by (rewrite <- E; symmetry; apply join_split).
  assert (C : count 42 e = count 42 w + fold_right (fun w n => count 42 w + n) 0 rest)
    by (rewrite J, count_join by lia; reflexivity).
  assert (X : slice w 0 4 = firstn 4 w) by reflexivity. rewrite X.
  split.
  - destruct (count 42 e =? 1) eqn:C1; cbn [negb]; [|discriminate]. destruct (has 42 w) eqn:H; cbn [negb]; [|discriminate].
    destruct (eqb_text (firstn 4 w) (tx "xn--")) eqn:N; [discriminate|]. intros _.
    apply has_in in H. apply eqb_text_false in N.
    assert (Hw : count 42 w <> 0) by (intros Z0; apply count_zero in Z0; auto).
    pose proof (count_nonneg 42 w).
    assert (R : 0 <= fold_right (fun w n => count 42 w + n) 0 rest).
    { clear. induction rest as [|x l IH]; cbn [fold_right]; [lia|]. pose proof (count_nonneg 42 x). lia. }
    assert (Cw : count 42 w = 1) by lia. apply count_one in Cw. destruct Cw as (a & b & Ew & Ha & Hb).
    exists w, rest, a, b. split; [reflexivity|]. split; [split; [exact Ew|auto]|]. apply sum_zero. lia.
  - intros (w' & rest' & a & b & [= <- <-] & (Ew & Ha & Hb & N) & F). apply sum_zero in F.
    assert (Cw : count 42 w = 1) by (apply count_one; eauto).
    replace (count 42 e =? 1) with true by lia. cbn [negb].
    replace (has 42 w) with true; [|symmetry; apply has_in; rewrite Ew; apply in_app_iff; right; left; reflexivity].
    cbn [negb]. apply eqb_text_false in N. rewrite N. reflexivity.
Qed.

(* ---- the regular expression ---- *)
Definition lits (s : text) : list item := map (fun c => IOne (atom c)) s.
Definition no_start (l : list item) : bool := forallb (fun i => match i with IStart => false | _ => true end) l.
Lemma run_start l : no_start l = true -> forall x y s, run l x s = run l y s.
Proof.
  induction l as [|i l IH]; intros N x y s; [reflexivity|]. cbn [no_start forallb] in N. apply andb_true_iff in N.
  destruct N as [N1 N2]. specialize (IH N2).
  assert (ST : forall p x y s, star p (run l) x s = star p (run l) y s).
  { intros p u v t. destruct t; cbn [star]; rewrite (IH u v); reflexivity. }
  destruct i; try discriminate; cbn [run]; rewrite ?(IH x y), ?(ST p x y); reflexivity.
Qed.
Lemma run_lits a : forall l x s, no_start l = true -> Forall (fun c => c <> 46) a ->
  (run (lits a ++ l) x s = true <-> exists t, s = a ++ t /\ run l x t = true).
Proof.
  induction a as [|c a IH]; intros l x s N P; cbn [lits map app run].
  - split; [intros H; exists s; auto|]. intros (t & -> & H). exact H.
  - inversion P as [|? ? Pc Pa]; subst. destruct s as [|d s]; [split; [discriminate|intros (t & H & _); discriminate]|].
    fold (lits a). unfold atom. replace (c =? 46) with false by lia. rewrite andb_true_iff, (IH l false s N Pa). split.
    + intros (E & t & -> & H). exists t. split; [f_equal; lia|]. rewrite (run_start l N x false). exact H.
    + intros (t & E & H). injection E as -> ->. split; [lia|]. exists t. split; [reflexivity|].
      rewrite (run_start l N false x). exact H.
Qed.
Lemma run_star p l x s : no_start l = true ->
  (star p (run l) x s = true <-> exists m t, s = m ++ t /\ forallb p m = true /\ run l x t = true).
Proof.
  intros N. revert x. induction s as [|c s IH]; intros x; cbn [star].
  - rewrite orb_false_r. split; [intros H; exists [], []; auto|].
    intros (m & t & E & _ & H). destruct m; [|discriminate]. cbn [app] in E. subst t. exact H.
  - rewrite orb_true_iff, andb_true_iff, IH. split.
    + intros [H|(E & m & t & -> & F & H)]; [exists [], (c :: s); auto|].
      exists (c :: m), t. split; [reflexivity|]. cbn [forallb]. rewrite E. split; [exact F|].
      rewrite (run_start l N x false). exact H.
    + intros ([|d m] & t & E & F & H); cbn [app] in E; [left; subst t; exact H|].
      injection E as -> ->. cbn [forallb] in F. apply andb_true_iff in F. destruct F as [F1 F2].
      right. split; [exact F1|]. exists m, t. split; [reflexivity|]. split; [exact F2|].
      rewrite (run_start l N false x). exact H.
Qed.
Definition literal (c : Z) : Prop := plain_char c /\ c <> 42.
Lemma parse_lits a : forall r l, Forall literal a -> parse r = Some l -> quantifier (hd 0 r) = false ->
  parse (a ++ r) = Some (lits a ++ l).
Proof.
  induction a as [|c a IH]; intros r l F P Q; [exact P|]. inversion F as [|? ? [Pc Nc] Fa]; subst.
  cbn [app parse]. unfold plain_char in Pc.
  replace (c =? 94) with false by lia. replace (c =? 36) with false by lia.
  replace (other_syntax c || quantifier c) with false by (unfold other_syntax, quantifier; lia).
  specialize (IH r l Fa P Q). destruct (a ++ r) as [|q u] eqn:E.
  - apply app_eq_nil in E. destruct E as [-> ->]. cbn in P. injection P as <-. reflexivity.
  - assert (Hq : quantifier q = false).
    { destruct a as [|d a]; cbn [app] in E.
      - subst r. exact Q.
      - injection E as -> _. inversion Fa as [|? ? [Pd Nd] _]; subst. unfold plain_char in Pd. unfold quantifier. lia. }
    unfold quantifier in Hq. replace (q =? 42) with false by lia. replace (q =? 43) with false by lia.
    replace (q =? 63) with false by lia. rewrite IH. reflexivity.
Qed.
Lemma literal_no_star a : Forall literal a -> flat_map (fun c => if c =? 42 then [46; 42] else [c]) a = a.
Proof.
  induction 1 as [|c a [_ N] _ IH]; [reflexivity|]. cbn [flat_map]. replace (c =? 42) with false by lia. rewrite IH. reflexivity.
Qed.
Lemma literal_facts a : Forall literal a -> Forall (fun c => c <> 46) a /\ ~ In 124 a.
Proof.
  intros F. rewrite Forall_forall in F. split.
  - apply Forall_forall. intros c H. destruct (F c H) as [P _]. unfold plain_char in P. lia.
  - intros H. destruct (F _ H) as [P _]. unfold plain_char in P. lia.
Qed.
Lemma star_regex a b s : Forall literal a -> Forall literal b ->
  exists r, re_match ([94] ++ dot_stars (a ++ 42 :: b) ++ [36]) s = Ok r /\
  (r = true <-> exists m t, s = a ++ m ++ b ++ t /\ ~ In 10 m /\ (t = [] \/ t = [10])).
Proof.
  intros Fa Fb. destruct (literal_facts a Fa) as [Da Ba]. destruct (literal_facts b Fb) as [Db Bb].
  unfold dot_stars. rewrite flat_map_app. cbn [flat_map]. change (42 =? 42) with true. cbn iota.
  rewrite !literal_no_star by assumption. unfold re_match.
  assert (E : [94] ++ (a ++ [46; 42] ++ b) ++ [36] = 94 :: a ++ 46 :: 42 :: b ++ [36])
    by (cbn [app]; rewrite <- app_assoc; reflexivity).
  rewrite E. rewrite split_on_nosep.
  2:{ intros [H|H]; [lia|]. apply in_app_iff in H. destruct H as [H|[H|[H|H]]]; [auto|lia|lia|].
      apply in_app_iff in H. destruct H as [H|[H|[]]]; [auto|lia]. }
  set (tail := IStar (atom 46) :: lits b ++ [IEnd]).
  assert (P : parse (94 :: a ++ 46 :: 42 :: b ++ [36]) = Some (IStart :: lits a ++ tail)).
  { change (option_map (cons IStart) (parse (a ++ 46 :: 42 :: b ++ [36])) = Some (IStart :: lits a ++ tail)).
    rewrite (parse_lits a _ tail Fa); [reflexivity| |reflexivity].
    change (option_map (cons (IStar (atom 46))) (parse (b ++ [36])) = Some tail).
    rewrite (parse_lits b _ [IEnd] Fb); reflexivity. }
  cbn [run_any]. rewrite P. cbn [bind]. rewrite orb_false_r. eexists. split; [reflexivity|].
  assert (N1 : no_start (lits b ++ [IEnd]) = true).
  { unfold no_start, lits. rewrite forallb_app. cbn [forallb]. rewrite !andb_true_r. apply forallb_forall.
    intros i H. apply in_map_iff in H. destruct H as (c & <- & _). reflexivity. }
  assert (N2 : no_start tail = true) by exact N1.
  change (run (IStart :: lits a ++ tail) true s) with (run (lits a ++ tail) true s).
  rewrite (run_lits a tail true s N2 Da). unfold tail. cbn [run].
  assert (Any : forall m, forallb (atom 46) m = true <-> ~ In 10 m).
  { intros m. rewrite forallb_forall. unfold atom. change (46 =? 46) with true. cbn iota. split.
    - intros H I. specialize (H 10 I). discriminate.
    - intros H c I. destruct (c =? 10) eqn:X; [|reflexivity]. apply Z.eqb_eq in X. subst. contradiction. }
  split.
  - intros (t & -> & H). apply (run_star (atom 46) (lits b ++ [IEnd]) true t N1) in H.
    destruct H as (m & u & -> & F & H). apply (run_lits b [IEnd] true u eq_refl Db) in H.
    destruct H as (v & -> & H). exists m, v. split; [reflexivity|]. split; [apply Any, F|].
    cbn [run] in H. rewrite andb_true_r in H. destruct v as [|c [|? ?]]; [auto| |discriminate]. right. f_equal. lia.
  - intros (m & v & -> & F & H). exists (m ++ b ++ v). split; [reflexivity|].
    apply (run_star (atom 46) (lits b ++ [IEnd]) true _ N1). exists m, (b ++ v). split; [reflexivity|]. split; [apply Any, F|].
    apply (run_lits b [IEnd] true _ eq_refl Db). exists v. split; [reflexivity|]. destruct H as [-> | ->]; reflexivity.
Qed.

(* ---- wildcards ---- *)
Lemma tails_spec (d v : list text) :
  forallb (fun xy => eqb_text (fst xy) (snd xy)) (combine d v) && (len d =? len v) = true <-> d = v.
Proof.
  rewrite andb_true_iff. split.
  - intros [H E]. apply labels_eq; [exact H|]. unfold len in E. lia.
  - intros ->. split; [apply labels_refl|apply Z.eqb_refl].
Qed.
(* whatever the characters mean, the labels after the first are equal *)
Lemma wildcard_tails d v : wildcard_match d v = Ok true -> tl d = tl v.
Proof.
  unfold wildcard_match. destruct (forallb _ _ && _) eqn:E; cbn [negb]; [|discriminate]. intros _. apply tails_spec, E.
Qed.
Lemma wildcard_plain (h : text) (rest : list text) (w a b : text) (rest' : list text) : star_label w a b -> Forall plain_char w -> ~ In 10 h ->
  exists r, wildcard_match (h :: rest) (w :: rest') = Ok r /\ (r = true <-> rest = rest' /\ exists m, h = a ++ m ++ b).
Proof.
  intros (-> & Ha & Hb & N) P Nl. unfold wildcard_match. cbn [hd tl].
  destruct (forallb _ _ && _) eqn:E; cbn [negb].
  2:{ exists false. split; [reflexivity|]. split; [discriminate|]. intros [-> _].
      assert (T : forallb (fun xy => eqb_text (fst xy) (snd xy)) (combine rest' rest') && (len rest' =? len rest') = true)
        by (apply tails_spec; reflexivity). congruence. }
  apply tails_spec in E. subst rest'.
  apply Forall_app in P. destruct P as [Pa Pb]. inversion Pb as [|? ? _ Pb']; subst.
  assert (La : Forall literal a).
  { rewrite Forall_forall in *. intros c H. split; [auto|]. intros ->. auto. }
  assert (Lb : Forall literal b).
  { rewrite Forall_forall in *. intros c H. split; [auto|]. intros ->. auto. }
  destruct (eqb_text (a ++ 42 :: b) [42]) eqn:S.
  - apply eqb_text_spec in S. exists true. split; [reflexivity|]. split; [intros _|auto]. split; [reflexivity|].
    destruct a as [|x a]; [|destruct a; discriminate]. injection S as ->. exists h. rewrite app_nil_r. reflexivity.
  - destruct (star_regex a b h La Lb) as (r & R & I). exists r. split; [exact R|]. rewrite I. split.
    + intros (m & t & -> & _ & [-> | ->]).
      * split; [reflexivity|]. exists m. rewrite app_nil_r. reflexivity.
      * exfalso. apply Nl. rewrite !in_app_iff. right. right. right. left. reflexivity.
    + intros (_ & m & ->). exists m, []. rewrite app_nil_r. split; [reflexivity|]. split; [|left; reflexivity].
      intros H. apply Nl. rewrite !in_app_iff. auto.
Qed.

(* ---- lists of names ---- *)
Section Names.
  Variable idna : text -> res text.
  (* what a listed name needs to match, whatever its characters *)
  Definition shape (valid host : list text) : Prop :=
    valid = host \/ exists a b h, wildcard_for valid host a b h.

  Lemma check_shape (labels : list text) l : labels <> [] -> check_domains idna labels l = Ok true ->
    exists v e, In v l /\ idna v = Ok e /\ shape (labels_of e) labels.
  Proof.
    intros Nn. induction l as [|v l IH]; cbn [check_domains]; [discriminate|].
    destruct (idna v) as [e|] eqn:Ee; cbn [bind]; [|discriminate]. change (split_on 46 (lower_ascii e)) with (labels_of e).
    assert (R : check_domains idna labels l = Ok true -> exists v0 e0, In v0 (v :: l) /\ idna v0 = Ok e0 /\ shape (labels_of e0) labels).
    { intros H. destruct (IH H) as (v0 & e0 & I & E0 & S). exists v0, e0. split; [right; exact I|auto]. }
    destruct (len (labels_of e) =? len labels) eqn:El; cbn [negb]; [|exact R].
    destruct (forallb _ _) eqn:Eq.
    { intros _. exists v, e. split; [left; reflexivity|]. split; [exact Ee|]. left. apply labels_eq; [exact Eq|].
      unfold len in El. lia. }
    destruct (is_wildcard (lower_ascii e)) eqn:W; [|exact R].
    destruct (wildcard_match labels (labels_of e)) as [[|]|] eqn:M; cbn [bind]; [|exact R|discriminate].
    intros _. exists v, e. split; [left; reflexivity|]. split; [exact Ee|]. right.
    apply is_wildcard_spec in W. destruct W as (w & rest & a & b & E & S & F). rewrite E in *.
    apply wildcard_tails in M. cbn [tl] in M. destruct labels as [|h labels]; [congruence|]. cbn [tl] in M. subst labels.
    exists a, b, h, w, rest. auto.
  Qed.
  Lemma check_plain (labels : list text) l :
    labels <> [] -> ~ In 10 (hd [] labels) ->
    Forall (fun v => exists e, idna v = Ok e /\ plain_name e) l ->
    exists r, check_domains idna labels l = Ok r /\
      (r = true <-> exists v e, In v l /\ idna v = Ok e /\ covers (labels_of e) labels).
  Proof.
    intros Nn Nl F. induction F as [|v l (e & Ee & Pe) F IH]; cbn [check_domains].
    { exists false. split; [reflexivity|]. split; [discriminate|]. intros (v & e & [] & _). }
    rewrite Ee. cbn [bind]. change (split_on 46 (lower_ascii e)) with (labels_of e).
    destruct IH as (r & Hr & I).
    (* this name decides *)
    assert (Yes : covers (labels_of e) labels -> (true = true <-> exists v0 e0, In v0 (v :: l) /\ idna v0 = Ok e0 /\ covers (labels_of e0) labels)).
    { intros C. split; auto. intros _. exists v, e. split; [left; reflexivity|auto]. }
    assert (No : ~ covers (labels_of e) labels -> (r = true <-> exists v0 e0, In v0 (v :: l) /\ idna v0 = Ok e0 /\ covers (labels_of e0) labels)).
    { intros C. rewrite I. split.
      - intros (v0 & e0 & I0 & H). exists v0, e0. split; [right; exact I0|exact H].
      - intros (v0 & e0 & [<-|I0] & E0 & H); [congruence|]. exists v0, e0. auto. }
    destruct (len (labels_of e) =? len labels) eqn:El; cbn [negb].
    2:{ exists r. split; [exact Hr|]. apply No. intros [E|(a & b & h & m & (w & rest & E1 & E2 & _) & _)].
        - rewrite E in El. lia.
        - rewrite E1, E2, !len_cons in El. lia. }
    destruct (forallb _ _) eqn:Eq.
    { exists true. split; [reflexivity|]. apply Yes. left. apply labels_eq; [exact Eq|]. unfold len in El. lia. }
    assert (Ne : labels_of e <> labels) by (intros E; rewrite E, labels_refl in Eq; discriminate).
    destruct (is_wildcard (lower_ascii e)) eqn:W.
    - apply is_wildcard_spec in W. destruct W as (w & rest & a & b & E & S & Fr).
      unfold plain_name in Pe. rewrite E in Pe, Ne, El, Yes, No |- *. cbn [hd] in Pe.
      destruct labels as [|h rest']; [congruence|]. cbn [hd] in Nl.
      destruct (wildcard_plain h rest' w a b rest S Pe Nl) as (q & Q & J). setoid_rewrite Q. cbn [bind]. destruct q.
      + exists true. split; [reflexivity|]. destruct J as [J _]. destruct (J eq_refl) as [-> (m & ->)].
        apply Yes. right. exists a, b, (a ++ m ++ b), m. split; [|reflexivity]. exists w, rest. auto.
      + exists r. split; [exact Hr|]. apply No. intros [C|(a' & b' & h' & m & (w' & rest0 & E1 & E2 & S' & _) & Hh)]; [auto|].
        injection E1 as <- <-. injection E2 as -> ->. destruct J as [_ J].
        assert (false = true); [|discriminate]. apply J. split; [reflexivity|].
        destruct S as (-> & Ha & Hb & _), S' as (Ew & Ha' & Hb' & _).
        assert (a = a' /\ b = b') as [-> ->].
        { clear -Ew Ha Ha'. revert a' Ew Ha'. induction a as [|x a IH]; intros [|y a'] Ew Ha'; cbn [app] in Ew.
          - injection Ew as ->. auto.
          - injection Ew as Ey _. exfalso. apply Ha'. left. lia.
          - injection Ew as Ey _. exfalso. apply Ha. left. lia.
          - injection Ew as -> Ew. destruct (IH (fun h => Ha (or_intror h)) a' Ew (fun h => Ha' (or_intror h))) as [-> ->]. auto. }
        exists m. exact Hh.
    - exists r. split; [exact Hr|]. apply No. intros [C|(a & b & h & m & (w & rest & E1 & E2 & S & Fr) & _)]; [auto|].
      assert (is_wildcard (lower_ascii e) = true); [|congruence]. apply is_wildcard_spec. exists w, rest, a, b. auto.
  Qed.
End Names.

(* ---- texts taken for addresses ---- *)
Lemma chomp_spec s : (exists r, s = r ++ [10] /\ chomp s = r) \/ (chomp s = s /\ ~ exists r, s = r ++ [10]).
Proof.
  unfold chomp. destruct (rev s) as [|c r] eqn:E.
  - right. split; [reflexivity|]. intros (r & ->). rewrite rev_app_distr in E. discriminate.
  - assert (Es : s = rev r ++ [c]) by (rewrite <- (rev_involutive s), E; reflexivity).
    destruct (Z.eq_dec c 10) as [->|N].
    + left. exists (rev r). auto.
    + right. split.
      * destruct c as [|p|p]; try reflexivity. repeat (destruct p; try reflexivity). congruence.
      * intros (r' & H). rewrite H in Es. apply app_inj_tail in Es. destruct Es. congruence.
Qed.
Lemma digits_iff w : negb (len w =? 0) && forallb is_digit w = true <-> digits_only w.
Proof.
  unfold digits_only. rewrite andb_true_iff, forallb_forall, Forall_forall. unfold is_digit. split.
  - intros [H1 H2]. split; [intros ->; discriminate|]. intros c H. specialize (H2 c H). lia.
  - intros [H1 H2]. split; [destruct w; [congruence|rewrite len_cons; pose proof (len_nonneg w); lia]|].
    intros c H. specialize (H2 c H). lia.
Qed.
Lemma digits_no_dot w : digits_only w -> ~ In 46 w.
Proof. intros [_ F] H. rewrite Forall_forall in F. specialize (F _ H). lia. Qed.
Lemma quad_iff s : (len (split_on 46 s) =? 4) && forallb (fun w => negb (len w =? 0) && forallb is_digit w) (split_on 46 s) = true <-> dotted_quad s.
Proof.
  rewrite andb_true_iff, forallb_forall. split.
  - intros [H1 H2]. pose proof (join_split 46 s) as J.
    destruct (split_on 46 s) as [|a [|b [|c [|d [|? ?]]]]]; try discriminate.
    2:{ exfalso. unfold len in H1. cbn [length] in H1. lia. }
    exists a, b, c, d. split; [rewrite <- J; reflexivity|]. repeat split; apply digits_iff, H2; cbn [In]; auto.
  - intros (a & b & c & d & -> & Ha & Hb & Hc & Hd).
    rewrite !split_on_app, split_on_nosep by (apply digits_no_dot; assumption). split; [reflexivity|].
    intros w [<-|[<-|[<-|[<-|[]]]]]; apply digits_iff; assumption.
Qed.
Lemma looks_ipv4_spec s : looks_ipv4 s = true <-> dotted_quad s \/ exists r, s = r ++ [10] /\ dotted_quad r.
Proof.
  unfold looks_ipv4. destruct (chomp_spec s) as [(r & E & ->)|[-> N]]; rewrite quad_iff.
  - split; [intros H; right; eauto|]. intros [H|(r' & E' & H)].
    + exfalso. destruct H as (a & b & c & d & E' & _ & _ & _ & [Nd Fd]).
      destruct (exists_last Nd) as (d' & x & ->). rewrite Forall_app in Fd. destruct Fd as [_ Fd]. inversion Fd; subst.
      assert (X : (a ++ 46 :: b ++ 46 :: c ++ 46 :: d') ++ [x] = r ++ [10])
        by (rewrite E'; rewrite <- !app_assoc; cbn [app]; rewrite <- !app_assoc; cbn [app]; rewrite <- !app_assoc; reflexivity).
      apply app_inj_tail in X. destruct X. lia.
    + rewrite E' in E. apply app_inj_tail in E. destruct E as [-> _]. exact H.
  - split; [auto|]. intros [H|(r & E & _)]; [exact H|]. exfalso. eauto.
Qed.
