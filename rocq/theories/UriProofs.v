(* Proofs about UriModel.v. *)
Require Import Verif.Base Verif.BaseFacts Verif.Text Verif.DomainModel Verif.IriModel Verif.IriSpec Verif.IriProofs Verif.IriParts
  Verif.AddrModel Verif.AddrSpec Verif.AddrProofs Verif.UriModel Verif.UriSpec.

Lemma partition_app c a b : ~ In c a -> partition c (a ++ c :: b) = (a, true, b).
Proof.
  induction a as [|x a IH]; intro N; cbn; [now rewrite Z.eqb_refl|]. destruct (Z.eqb_spec x c) as [->|D]; [destruct N; now left|].
  rewrite IH; [reflexivity|]. intro I. apply N. now right.
Qed.
Lemma partition_none c s : ~ In c s -> partition c s = (s, false, []).
Proof.
  induction s as [|x s IH]; intro N; cbn; [reflexivity|]. destruct (Z.eqb_spec x c) as [->|D]; [destruct N; now left|].
  rewrite IH; [reflexivity|]. intro I. apply N. now right.
Qed.
Lemma span_app p a b : (forall c, In c a -> p c = false) -> match b with [] => True | x :: _ => p x = true end -> span p (a ++ b) = (a, b).
Proof.
  induction a as [|x a IH]; intros N B; cbn.
  - destruct b as [|y b]; [reflexivity|]. cbn. now rewrite B.
  - rewrite N by now left. rewrite IH; [reflexivity| |exact B]. intros c I. apply N. now right.
Qed.
Lemma rpartition_app c a b : ~ In c b -> rpartition c (a ++ c :: b) = (a, true, b).
Proof. intro N. unfold rpartition. now rewrite (proj2 (rsplit_some c _ a b) (conj eq_refl N)). Qed.
Lemma rpartition_none c s : ~ In c s -> rpartition c s = ([], false, s).
Proof. intro N. unfold rpartition. now rewrite (proj2 (rsplit_none c s) N). Qed.

Lemma in_all (P : Z -> bool) l c : forallb P l = true -> In c l -> P c = true.
Proof. intros F I. now apply (proj1 (forallb_forall P l) F). Qed.
Lemma lacks_app l a b : lacks l (a ++ b) <-> lacks l a /\ lacks l b.
Proof.
  unfold lacks. split.
  - intro H. split; intros c I; apply H; apply in_or_app; auto.
  - intros [A B] c I. apply in_app_or in I. destruct I; auto.
Qed.
Lemma lacks_cons l c s : lacks l (c :: s) <-> ~ In c (9 :: 10 :: 13 :: l) /\ lacks l s.
Proof.
  unfold lacks. split.
  - intro H. split; [apply H; now left|]. intros x I. apply H. now right.
  - intros [A B] x [<-|I]; auto.
Qed.
Lemma lacks_nil l : lacks l []. Proof. intros c []. Qed.
Definition inclb (l m : text) : bool := forallb (fun c => existsb (Z.eqb c) m) l.
Lemma inclb_in l m c : inclb l m = true -> In c l -> In c m.
Proof. intros F I. apply (in_all _ _ _ F) in I. apply existsb_exists in I. destruct I as (y & I & E). apply Z.eqb_eq in E. now subst. Qed.
Lemma lacks_mono l m s : inclb l m = true -> lacks m s -> lacks l s.
Proof. intros F L c I J. apply (L c I). cbn in J |- *. destruct J as [J|[J|[J|J]]]; auto. right. right. right. now apply (inclb_in l). Qed.
Lemma lacks_not l s c : In c (9 :: 10 :: 13 :: l) -> lacks l s -> ~ In c s.
Proof. intros I L J. now apply (L c). Qed.
Lemma lacks_chars l s : forallb (fun c => negb (existsb (Z.eqb c) (9 :: 10 :: 13 :: l))) s = true -> lacks l s.
Proof.
  intros F c I J. apply (in_all _ _ _ F) in I. apply negb_true_iff in I.
  assert (existsb (Z.eqb c) (9 :: 10 :: 13 :: l) = true) by (apply existsb_exists; exists c; split; [exact J|apply Z.eqb_refl]). congruence.
Qed.
Lemma has_in c s : has c s = true <-> In c s.
Proof.
  unfold has. rewrite existsb_exists. split; [intros (x & I & E); apply Z.eqb_eq in E; now subst|intro I; exists c; split; [exact I|apply Z.eqb_refl]].
Qed.

(* ---- splitting what render writes ---- *)
Lemma digits_lack l s : forallb (fun c => negb (is_digit c)) (9 :: 10 :: 13 :: l) = true -> all_digits s -> lacks l s.
Proof.
  intros F D c I J. apply (in_all _ _ _ F) in J. unfold all_digits in D. rewrite Forall_forall in D. apply D in I.
  unfold is_digit in J. lia.
Qed.
Lemma lacks_tx l s t : lacks l t -> lacks l (tx s) -> lacks l (tx s ++ t). Proof. intros. now apply lacks_app. Qed.
Ltac lacks_const := apply lacks_chars; vm_compute; reflexivity.
Ltac weaker H := eapply lacks_mono; [|exact H]; vm_compute; reflexivity.

Lemma user_lacks o : (forall u, o = Some u -> user_form u) -> lacks (tx "/?#[]") (render_user o).
Proof.
  intro F. destruct o as [[n p]|]; cbn [render_user]; [|apply lacks_nil]. destruct (F _ eq_refl) as [[_ N] P]. cbn [fst snd] in N, P.
  destruct p as [p|].
  - destruct (P p eq_refl) as [_ L]. repeat (apply lacks_app; split); [weaker N|lacks_const|weaker L|lacks_const].
  - apply lacks_app; split; [weaker N|lacks_const].
Qed.
Lemma port_lacks l o : forallb (fun c => negb (is_digit c)) (9 :: 10 :: 13 :: l) = true -> lacks l (tx ":") -> port_form o ->
  lacks l (match o with Some n => tx ":" ++ dec n | None => [] end).
Proof.
  intros F C P. destruct o as [n|]; [|apply lacks_nil]. apply lacks_app; split; [exact C|]. apply digits_lack; [exact F|].
  apply dec_digits. apply P. reflexivity.
Qed.
Lemma auth_lacks s a : auth_form s a -> lacks (tx "/?#[]") (render_auth a).
Proof.
  intros (U & [_ H] & P). unfold render_auth. repeat (apply lacks_app; split); [now apply user_lacks|weaker H|].
  apply port_lacks; [reflexivity|lacks_const|exact P].
Qed.
Lemma scheme_lacks s : scheme_form s -> lacks (tx ":/?#") s.
Proof. intros [_ F] c I. apply F in I. revert c I. change (lacks (tx ":/?#") scheme_set). lacks_const. Qed.
Lemma after_lacks l c s : lacks l c -> lacks l s -> lacks l (after c s).
Proof. intros. destruct s; [apply lacks_nil|]. cbn [after]. apply lacks_app. auto. Qed.
Lemma filter_all {A} (p : A -> bool) s : (forall c, In c s -> p c = true) -> filter p s = s.
Proof. induction s as [|x s IH]; intro H; cbn; [reflexivity|]. rewrite H by now left. rewrite IH; [reflexivity|]. intros c I. apply H. now right. Qed.
Lemma cleaned_same c s : 32 < c -> lacks [] (c :: s) -> cleaned (c :: s) = c :: s.
Proof.
  intros C L. unfold cleaned. cbn [lstrip_by]. replace ((0 <=? c) && (c <=? 32)) with false by (symmetry; apply andb_false_iff; right; apply Z.leb_gt; lia).
  apply filter_all. intros x I. apply L in I. apply negb_true_iff. rewrite !orb_false_iff, !Z.eqb_neq. cbn in I. intuition.
Qed.
Lemma render_lacks u : form u -> lacks [] (render u).
Proof.
  intros (S & A & P & Q & F). unfold render. repeat (apply lacks_app; split); try lacks_const.
  - weaker (scheme_lacks _ S).
  - destruct (r_auth u) as [a|]; [|apply lacks_nil]. apply lacks_app; split; [lacks_const|]. destruct A as [A _]. weaker (auth_lacks _ _ A).
  - weaker P.
  - apply after_lacks; [lacks_const|weaker Q].
  - apply after_lacks; [lacks_const|exact F].
Qed.
Definition tail_of (u : uri) : text := after (tx "?") (r_query u) ++ after (tx "#") (r_fragment u).
Lemma tail_head u : match tail_of u with [] => True | x :: _ => x = 63 \/ x = 35 end.
Proof. unfold tail_of, after. destruct (r_query u); [destruct (r_fragment u)|]; cbn; auto. Qed.

Definition scheme_letter (c : Z) : bool := scheme_char c && negb (c =? 58) && (lower_char c =? c).
Lemma scheme_split s r : scheme_form s -> split_scheme (s ++ 58 :: r) = (s, r).
Proof.
  intros [(c & t & -> & C) F].
  assert (A : forall x, In x (c :: t) -> scheme_letter x = true) by (intros x I; apply F in I; revert x I; apply (proj1 (forallb_forall _ _)); vm_compute; reflexivity).
  assert (B : is_upper c || is_lower c = true) by (apply (in_all (fun c => is_upper c || is_lower c) (tx "abcdefghijklmnopqrstuvwxyz")); [vm_compute; reflexivity|exact C]).
  unfold split_scheme. cbn [app]. change (c :: t ++ 58 :: r) with ((c :: t) ++ 58 :: r). rewrite partition_app.
  - rewrite B. cbn [andb]. replace (forallb scheme_char (c :: t)) with true.
    + f_equal. unfold lower_ascii. rewrite <- (map_id (c :: t)) at 2. apply map_ext_in. intros x I. apply A in I. unfold scheme_letter in I.
      rewrite !andb_true_iff in I. apply Z.eqb_eq. apply I.
    + symmetry. apply forallb_forall. intros x I. apply A in I. unfold scheme_letter in I. rewrite !andb_true_iff in I. apply I.
  - intro I. apply A in I. discriminate.
Qed.
Lemma no_slashes p r : match r with [] => True | x :: _ => x = 63 \/ x = 35 end -> (forall t, p <> tx "//" ++ t) -> starts (tx "//") (p ++ r) = false.
Proof.
  intros R P. destruct (starts (tx "//") (p ++ r)) eqn:E; [|reflexivity]. exfalso. apply starts_iff in E. destruct E as [b E]. cbn in E.
  destruct p as [|x [|y p]]; cbn in E.
  - subst r. lia.
  - injection E as -> ->. lia.
  - injection E as -> -> _. now apply (P p).
Qed.
Lemma partition_after c a s : ~ In c a -> exists f, partition c (a ++ after [c] s) = (a, f, s).
Proof.
  intro N. destruct s as [|x s].
  - exists false. cbn. rewrite app_nil_r. now apply partition_none.
  - exists true. now apply partition_app.
Qed.

Section Split.
  Variable bracket_ok netloc_ok : text -> bool.
  Lemma urlsplit_render u : form u -> is_ascii (authority_text u) || netloc_ok (authority_text u) = true ->
    urlsplit bracket_ok netloc_ok (render u) = Ok (Split (r_scheme u) (authority_text u) (r_path u) (r_query u) (r_fragment u)).
  Proof.
    intros F K. assert (CL := render_lacks u F). destruct F as (S & A & P & Q & Fr). unfold urlsplit.
    assert (C : cleaned (render u) = render u).
    { destruct S as [(c & t & E & I) _]. unfold render in CL |- *. rewrite E in CL |- *. cbn [app] in CL |- *. apply cleaned_same; [|exact CL].
      assert (is_lower c = true) by (apply (in_all _ (tx "abcdefghijklmnopqrstuvwxyz")); [vm_compute; reflexivity|exact I]).
      unfold is_lower in H. lia. }
    rewrite C. clear C CL. unfold render. change (tx ":" ++ ?x) with (58 :: x). rewrite scheme_split by exact S.
    fold (tail_of u). assert (T := tail_head u).
    assert (E : split_netloc bracket_ok (match r_auth u with Some a => tx "//" ++ render_auth a | None => [] end ++ r_path u ++ tail_of u)
                = Ok (authority_text u, r_path u ++ tail_of u)).
    { unfold split_netloc, authority_text. destruct (r_auth u) as [a|].
      - destruct A as [A D]. rewrite <- app_assoc. replace (starts _ _) with true by (symmetry; apply starts_iff; eexists; reflexivity).
        change (skipn 2 (tx "//" ++ ?x)) with x. assert (L := auth_lacks _ _ A). rewrite span_app.
        + replace (has 91 (render_auth a)) with false. replace (has 93 (render_auth a)) with false. reflexivity.
          * symmetry. apply not_true_iff_false. rewrite has_in. apply (lacks_not _ _ _) with (2 := L). cbn. tauto.
          * symmetry. apply not_true_iff_false. rewrite has_in. apply (lacks_not _ _ _) with (2 := L). cbn. tauto.
        + intros c I. apply L in I. cbn in I. rewrite !orb_false_iff, !Z.eqb_neq. intuition.
        + destruct D as [->|[r ->]]; cbn [app]; [|reflexivity]. destruct (tail_of u); [exact Logic.I|]. destruct T as [->| ->]; reflexivity.
      - cbn [app]. rewrite no_slashes; [reflexivity|exact T|apply A]. }
    rewrite E. clear E. cbn [bind]. unfold tail_of. rewrite app_assoc. change (tx "#") with [35].
    destruct (partition_after 35 (r_path u ++ after (tx "?") (r_query u)) (r_fragment u)) as [f1 ->].
    { intro I. apply in_app_or in I. destruct I as [I|I]; [apply P in I; cbn in I; tauto|]. unfold after in I. destruct (r_query u) as [|y q] eqn:EQ; [exact I|].
      apply in_app_or in I. destruct I as [[I|[]]|I]; [discriminate|]. apply Q in I. cbn in I. tauto. }
    destruct (partition_after 63 (r_path u) (r_query u)) as [f2 E2]; [intro I; apply P in I; cbn in I; tauto|].
    change (tx "?") with [63]. rewrite E2, K. reflexivity.
  Qed.
End Split.

(* ---- the attributes ---- *)
Definition user_of (u : uri) : option text := match r_auth u with Some a => option_map fst (au_user a) | None => None end.
Definition pw_of (u : uri) : option text :=
  match r_auth u with Some a => match au_user a with Some (_, p) => p | None => None end | None => None end.
Definition host_of (u : uri) : text := match r_auth u with Some a => au_host a | None => [] end.
Definition port_of (u : uri) : option Z := match r_auth u with Some a => au_port a | None => None end.
Definition host_port (a : authority) : text := au_host a ++ match au_port a with Some n => tx ":" ++ dec n | None => [] end.
Lemma host_port_lacks s a : auth_form s a -> lacks (tx "@/?#[]%") (host_port a).
Proof.
  intros (U & [_ H] & P). unfold host_port. apply lacks_app; split; [weaker H|]. apply port_lacks; [reflexivity|lacks_const|exact P].
Qed.
Lemma userinfo_render u sp : form u -> u_netloc sp = authority_text u -> userinfo sp = (user_of u, pw_of u).
Proof.
  intros F E. unfold userinfo. rewrite E. unfold authority_text, user_of, pw_of. destruct F as (_ & A & _).
  destruct (r_auth u) as [a|]; [|reflexivity]. destruct A as [A _]. unfold render_auth. fold (host_port a).
  assert (L := host_port_lacks _ _ A). assert (N : ~ In 64 (host_port a)) by (intro I; apply L in I; cbn in I; tauto).
  destruct A as (U & _ & _). destruct (au_user a) as [[n p]|]; cbn [render_user option_map fst].
  - destruct (U _ eq_refl) as [[NN NL] PF]. cbn [fst snd] in NN, NL, PF. assert (NC : ~ In 58 n) by (intro I; apply NL in I; cbn in I; tauto).
    destruct p as [p|].
    + replace ((n ++ tx ":" ++ p ++ tx "@") ++ host_port a) with ((n ++ 58 :: p) ++ 64 :: host_port a) by (rewrite <- !app_assoc; reflexivity).
      rewrite rpartition_app by exact N. rewrite partition_app by exact NC. reflexivity.
    + rewrite <- app_assoc. change (tx "@" ++ ?x) with (64 :: x). rewrite rpartition_app by exact N. rewrite partition_none by exact NC. reflexivity.
  - cbn [app]. rewrite rpartition_none by exact N. reflexivity.
Qed.
Lemma hostinfo_render u sp : form u -> u_netloc sp = authority_text u -> hostinfo sp = (host_of u, option_map dec (port_of u)).
Proof.
  intros F E. unfold hostinfo. rewrite E. unfold authority_text, host_of, port_of. destruct F as (_ & A & _).
  destruct (r_auth u) as [a|]; [|reflexivity]. destruct A as [A _]. unfold render_auth. fold (host_port a).
  assert (L := host_port_lacks _ _ A). assert (N : ~ In 64 (host_port a)) by (intro I; apply L in I; cbn in I; tauto).
  assert (R : snd (rpartition 64 (render_user (au_user a) ++ host_port a)) = host_port a).
  { destruct (au_user a) as [[n [p|]]|]; cbn [render_user].
    - replace ((n ++ tx ":" ++ p ++ tx "@") ++ host_port a) with ((n ++ 58 :: p) ++ 64 :: host_port a) by (rewrite <- !app_assoc; reflexivity).
      now rewrite rpartition_app.
    - rewrite <- app_assoc. change (tx "@" ++ ?x) with (64 :: x). now rewrite rpartition_app.
    - cbn [app]. now rewrite rpartition_none. }
  destruct (rpartition 64 _) as [[x f] h]. cbn [snd] in R. subst h. rewrite partition_none by (intro I; apply L in I; cbn in I; tauto).
  destruct A as (_ & [_ H] & P). unfold host_port. destruct (au_port a) as [n|]; cbn [option_map].
  - change (tx ":" ++ ?x) with (58 :: x). rewrite partition_app by (intro I; apply H in I; cbn in I; tauto).
    destruct (dec n) eqn:D; [|reflexivity]. destruct (dec_nonnil n); [apply P; reflexivity|exact D].
  - rewrite app_nil_r. rewrite partition_none by (intro I; apply H in I; cbn in I; tauto). reflexivity.
Qed.
Lemma hostname_render low u sp : form u -> u_netloc sp = authority_text u ->
  hostname low sp = match host_of u with [] => None | h => Some (lower low h) end.
Proof.
  intros F E. unfold hostname. rewrite (hostinfo_render u sp F E). cbn [fst]. destruct (host_of u) as [|c h] eqn:H; [reflexivity|].
  rewrite partition_none; [now rewrite app_nil_r|]. destruct F as (_ & A & _). unfold host_of in H. destruct (r_auth u) as [a|]; [|discriminate].
  destruct A as [(_ & [_ L] & _) _]. rewrite H in L. intro I. apply L in I. cbn in I. tauto.
Qed.
Lemma port_render u sp : form u -> u_netloc sp = authority_text u -> port sp = Ok (port_of u).
Proof.
  intros F E. unfold port. rewrite (hostinfo_render u sp F E). cbn [snd]. destruct (port_of u) as [n|] eqn:H; [|reflexivity]. cbn [option_map].
  destruct F as (_ & A & _). unfold port_of in H. destruct (r_auth u) as [a|]; [|discriminate]. destruct A as [(_ & _ & P) _]. apply P in H.
  assert (D := dec_digits n ltac:(lia)). replace (forallb is_digit (dec n)) with true.
  - rewrite dec_value_dec by lia. now replace (n <=? 65535) with true by lia.
  - symmetry. apply forallb_forall. unfold all_digits in D. rewrite Forall_forall in D. intros c I. apply D in I. unfold is_digit. lia.
Qed.

(* ---- writing ---- *)
Definition writable (v : uri) : Prop :=
  r_scheme v <> [] /\
  match r_auth v with
  | Some a => (render_auth a <> [] \/ In (r_scheme v) with_slashes) /\ (r_path v = [] \/ exists r, r_path v = 47 :: r)
  | None => ~ In (r_scheme v) with_slashes /\ forall r, r_path v <> tx "//" ++ r
  end.
Lemma in_list_iff s l : in_list s l = true <-> In s l.
Proof.
  unfold in_list. rewrite existsb_exists. split.
  - intros (x & I & E). apply eqb_text_spec in E. now subst.
  - intro I. exists s. split; [exact I|]. now apply eqb_text_spec.
Qed.
Lemma urlunsplit_render v : writable v ->
  urlunsplit (Split (r_scheme v) (authority_text v) (r_path v) (r_query v) (r_fragment v)) = render v.
Proof.
  intros [S A]. unfold urlunsplit, render. cbn [u_scheme u_netloc u_path u_query u_fragment].
  assert (X : with_netloc (Split (r_scheme v) (authority_text v) (r_path v) (r_query v) (r_fragment v)) =
              match r_auth v with Some a => tx "//" ++ render_auth a | None => [] end ++ r_path v).
  { unfold with_netloc, authority_text. cbn [u_scheme u_netloc u_path]. destruct (r_auth v) as [a|].
    - destruct A as [A P]. replace (negb _ || _ || _) with true.
      + rewrite <- app_assoc. do 2 f_equal. destruct P as [->|[r ->]]; reflexivity.
      + symmetry. apply orb_true_iff. left. apply orb_true_iff. destruct A as [A|A]; [left|right].
        * apply negb_true_iff. apply not_true_iff_false. rewrite eqb_text_spec. exact A.
        * apply in_list_iff. exact A.
    - destruct A as [A P]. replace (negb _ || _ || _) with false; [reflexivity|]. symmetry. rewrite !orb_false_iff. split; [split|].
      + reflexivity.
      + apply not_true_iff_false. rewrite in_list_iff. exact A.
      + apply not_true_iff_false. rewrite starts_iff. intros [b B]. now apply (P b). }
  rewrite X. clear X. change (tx ":" ++ ?x) with (58 :: x). destruct (r_scheme v) as [|c s]; [now destruct S|]. clear S A.
  destruct (r_query v), (r_fragment v); cbn [after]; rewrite ?app_nil_r, <- ?app_assoc; cbn; rewrite <- ?app_assoc; reflexivity.
Qed.

Lemma netloc_render a (h : option text) : (forall u, au_user a = Some u -> fst u <> [] /\ snd u <> Some []) -> joined h = au_host a ->
  netloc_of (option_map fst (au_user a)) (match au_user a with Some (_, p) => p | None => None end) h (option_map dec (au_port a)) = render_auth a.
Proof.
  intros U H. unfold netloc_of, render_auth. rewrite H. destruct (au_user a) as [[n [p|]]|]; cbn [option_map fst render_user].
  - destruct (U _ eq_refl) as [_ P]. destruct p as [|c p]; [now destruct P|]. destruct (au_port a); cbn; rewrite <- !app_assoc; cbn; rewrite <- ?app_assoc; reflexivity.
  - destruct (au_port a); cbn; rewrite <- !app_assoc; reflexivity.
  - destruct (au_port a); reflexivity.
Qed.
