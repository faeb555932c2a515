(* Preparation of texts: case, spaces, the characters of RFC 4518; and what
   the text called hashable tells apart. *)
Require Import Verif.Base Verif.BaseFacts Verif.Text Verif.NameModel Verif.NameSpec Verif.NameSort Verif.NameProofs.
Require Import Permutation Sorted.

(* ---- the map step, character by character ---- *)
Lemma drop_app l a b : drop l (a ++ b) = drop l a ++ drop l b.
Proof. apply filter_app. Qed.
Lemma blank_app l a b : blank l (a ++ b) = blank l a ++ blank l b.
Proof. apply map_app. Qed.
Lemma map_step_app a b : map_step (a ++ b) = map_step a ++ map_step b.
Proof. unfold map_step. rewrite !drop_app, !blank_app, !drop_app, !blank_app. reflexivity. Qed.
Lemma map_step_flat s : map_step s = flat_map (fun c => map_step [c]) s.
Proof.
  induction s as [|c s IH]; [reflexivity|]. cbn [flat_map]. rewrite <- IH, <- map_step_app. reflexivity.
Qed.
Lemma map_step_char c : map_step [c] =
  if in_ranges drop_first c then []
  else if in_ranges blank_controls c then [32]
  else if in_ranges drop_high c then []
  else if in_ranges drop_controls c then []
  else if in_ranges [(0x200b, 0x200b)] c then []
  else if in_ranges blank_spaces c then [32] else [c].
Proof.
  unfold map_step, drop, blank. cbn [filter].
  destruct (in_ranges drop_first c); cbn [negb map filter]; [reflexivity|].
  destruct (in_ranges blank_controls c); cbn [filter]; [reflexivity|].
  destruct (in_ranges drop_high c); cbn [negb map filter]; [reflexivity|].
  destruct (in_ranges drop_controls c); cbn [negb map filter]; [reflexivity|].
  destruct (in_ranges [(0x200b, 0x200b)] c); cbn [negb map filter]; [reflexivity|].
  destruct (in_ranges blank_spaces c); reflexivity.
Qed.
Lemma map_step_printable s : printable s -> map_step s = s.
Proof.
  intros H. rewrite map_step_flat. induction H as [|c s Hc _ IH]; [reflexivity|].
  cbn [flat_map]. rewrite IH, map_step_char. unfold drop_first, blank_controls, drop_high, drop_controls, blank_spaces.
  cbn [in_ranges].
  repeat match goal with |- context [if ?b then _ else _] => replace b with false by lia end. reflexivity.
Qed.
(* every character left is at least a space *)
Lemma map_step_quiet s : Forall (fun c => 0 <= c) s -> Forall (fun c => 32 <= c) (map_step s).
Proof.
  intros H. rewrite map_step_flat. induction H as [|c s Hc _ IH]; [constructor|].
  cbn [flat_map]. apply Forall_app. split; [|exact IH]. rewrite map_step_char.
  destruct (in_ranges drop_first c); [constructor|].
  destruct (in_ranges blank_controls c) eqn:E1; [repeat constructor; lia|].
  destruct (in_ranges drop_high c); [constructor|].
  destruct (in_ranges drop_controls c) eqn:E2; [constructor|].
  destruct (in_ranges [(0x200b, 0x200b)] c); [constructor|].
  destruct (in_ranges blank_spaces c); [repeat constructor; lia|].
  repeat constructor. unfold blank_controls, drop_controls in *. cbn [in_ranges] in *. lia.
Qed.

(* ---- RFC 4518 ---- *)
Lemma rfc_char c : ~ (0xfe00 <= c < 0xfeff) -> c <> 0xff00 ->
  map_step [c] = if rfc_nothing c then [] else if rfc_space c then [32] else [c].
Proof.
  intros H1 H2. rewrite map_step_char.
  destruct (in_ranges drop_first c) eqn:E1.
  { replace (rfc_nothing c) with true; [reflexivity|]. unfold rfc_nothing, between.
    unfold drop_first in E1. cbn [in_ranges] in E1. lia. }
  destruct (in_ranges blank_controls c) eqn:E2.
  { unfold blank_controls in E2. cbn [in_ranges] in E2.
    replace (rfc_nothing c) with false by (unfold rfc_nothing, between; lia).
    replace (rfc_space c) with true by (unfold rfc_space, between; lia). reflexivity. }
  destruct (in_ranges drop_high c) eqn:E3.
  { unfold drop_high in E3. cbn [in_ranges] in E3.
    replace (rfc_nothing c) with true by (unfold rfc_nothing, between; lia). reflexivity. }
  destruct (in_ranges drop_controls c) eqn:E4.
  { unfold drop_controls in E4. cbn [in_ranges] in E4.
    replace (rfc_nothing c) with true by (unfold rfc_nothing, between; lia). reflexivity. }
  destruct (in_ranges [(0x200b, 0x200b)] c) eqn:E5.
  { cbn [in_ranges] in E5. replace (rfc_nothing c) with true by (unfold rfc_nothing, between; lia). reflexivity. }
  unfold drop_first, blank_controls, drop_high, drop_controls in *. cbn [in_ranges] in *.
  replace (rfc_nothing c) with false by (unfold rfc_nothing, between; lia).
  destruct (in_ranges blank_spaces c) eqn:E6; unfold blank_spaces in E6; cbn [in_ranges] in E6.
  - replace (rfc_space c) with true by (unfold rfc_space, between; lia). reflexivity.
  - destruct (rfc_space c) eqn:E7; [|reflexivity]. unfold rfc_space, between in E7. f_equal. lia.
Qed.
Lemma rfc_text s : Forall (fun c => ~ (0xfe00 <= c < 0xfeff) /\ c <> 0xff00) s -> map_step s = rfc_map s.
Proof.
  intros H. rewrite map_step_flat. unfold rfc_map. induction H as [|c s [H1 H2] _ IH]; [reflexivity|].
  cbn [flat_map]. rewrite IH, (rfc_char c H1 H2). reflexivity.
Qed.

(* ---- spaces ---- *)
Lemma lstrip_snoc p a c : lstrip_by p (a ++ [c]) =
  match lstrip_by p a with [] => if p c then [] else [c] | x => x ++ [c] end.
Proof.
  induction a as [|x a IH]; cbn [app lstrip_by].
  - destruct (p c); reflexivity.
  - destruct (p x); [exact IH|reflexivity].
Qed.
Lemma rstrip_cons p c x : rstrip_by p (c :: x) =
  match rstrip_by p x with [] => if p c then [] else [c] | y => c :: y end.
Proof.
  unfold rstrip_by. cbn [rev]. rewrite lstrip_snoc.
  destruct (lstrip_by p (rev x)) as [|y l] eqn:E.
  - cbn [rev]. destruct (p c); reflexivity.
  - rewrite rev_app_distr. cbn [rev app].
    destruct (rev l ++ [y]) as [|z m] eqn:E1; [|reflexivity].
    destruct (rev l); discriminate.
Qed.
Lemma rstrip_keep p c x : p c = false -> rstrip_by p (c :: x) = c :: rstrip_by p x.
Proof. intros H. rewrite rstrip_cons, H. destruct (rstrip_by p x); reflexivity. Qed.

Definition tail_of (l : list text) : text := match l with [] => [] | _ => 32 :: 32 :: spaced l end.
Lemma spaced_cons w l : spaced (w :: l) = w ++ tail_of l.
Proof. destruct l; cbn [spaced tail_of]; [rewrite app_nil_r|]; reflexivity. Qed.

Lemma white_printable c : 32 <= c <= 126 -> in_ranges white c = (c =? 32).
Proof. intros H. unfold white. cbn [in_ranges]. lia. Qed.
Lemma words_cons_space r : words (32 :: r) = words r.
Proof. reflexivity. Qed.
Lemma words_cons c r w ws : c <> 32 -> split_on 32 r = w :: ws ->
  words (c :: r) = (c :: w) :: filter (fun w => negb (len w =? 0)) ws.
Proof.
  intros H E. unfold words. cbn [split_on]. replace (c =? 32) with false by lia. rewrite E. cbn [filter].
  rewrite len_cons. replace (1 + len w =? 0) with false by (pose proof (len_nonneg w); lia). reflexivity.
Qed.
Lemma double_tail s : printable s ->
  (forall w ws, split_on 32 s = w :: ws ->
     rstrip_by (in_ranges white) (double_spaces false s) = w ++ tail_of (filter (fun w => negb (len w =? 0)) ws)) /\
  rstrip_by (in_ranges white) (32 :: 32 :: double_spaces true s) = tail_of (words s).
Proof.
  induction 1 as [|c s Hc Hs [IH1 IH2]].
  - split; [intros w ws [= <- <-]; reflexivity|reflexivity].
  - destruct (split_on 32 s) as [|w0 ws0] eqn:E0; [destruct (split_on_nonnil 32 s E0)|].
    specialize (IH1 w0 ws0 eq_refl).
    destruct (Z.eq_dec c 32) as [->|N].
    + split.
      * intros w ws. cbn [split_on]. change (32 =? 32) with true. cbn iota. intros [= <- <-].
        cbn [double_spaces]. change (32 =? 32) with true. cbn iota. rewrite IH2. unfold words. rewrite E0. reflexivity.
      * cbn [double_spaces]. change (32 =? 32) with true. cbn iota. rewrite IH2. reflexivity.
    + assert (K : rstrip_by (in_ranges white) (c :: double_spaces false s) =
                  c :: w0 ++ tail_of (filter (fun w => negb (len w =? 0)) ws0)).
      { rewrite rstrip_keep; [rewrite IH1; reflexivity|]. rewrite white_printable by lia. lia. }
      split.
      * intros w ws. cbn [split_on]. replace (c =? 32) with false by lia. rewrite E0. intros [= <- <-].
        cbn [double_spaces]. replace (c =? 32) with false by lia. exact K.
      * rewrite (words_cons c s w0 ws0 N E0). cbn [double_spaces]. replace (c =? 32) with false by lia.
        rewrite rstrip_cons, rstrip_cons, K. cbn [tail_of]. rewrite spaced_cons. reflexivity.
Qed.
Lemma strip_double_true s : strip_white (double_spaces true s) = strip_white (double_spaces false s).
Proof.
  destruct s as [|c s]; [reflexivity|]. cbn [double_spaces].
  destruct (c =? 32); [|reflexivity]. unfold strip_white. cbn [lstrip_by].
  change (in_ranges white 32) with true. cbn iota. reflexivity.
Qed.
Lemma spaces_step s : printable s -> strip_white (double_spaces false s) = spaced (words s).
Proof.
  induction 1 as [|c s Hc Hs IH]; [reflexivity|].
  destruct (Z.eq_dec c 32) as [->|N].
  - rewrite words_cons_space, <- IH, <- (strip_double_true s). unfold strip_white.
    cbn [double_spaces]. change (32 =? 32) with true. cbn [lstrip_by]. change (in_ranges white 32) with true. reflexivity.
  - destruct (split_on 32 s) as [|w0 ws0] eqn:E0; [destruct (split_on_nonnil 32 s E0)|].
    rewrite (words_cons c s w0 ws0 N E0), spaced_cons. unfold strip_white. cbn [double_spaces].
    replace (c =? 32) with false by lia. cbn [lstrip_by]. rewrite white_printable by lia.
    replace (c =? 32) with false by lia. rewrite rstrip_keep by (rewrite white_printable by lia; lia).
    destruct (double_tail s Hs) as [D _]. rewrite (D w0 ws0 E0). reflexivity.
Qed.

(* ---- printable ASCII ---- *)
Lemma lower_printable s : printable s -> printable (map lower s).
Proof.
  induction 1 as [|c s Hc _ IH]; constructor; [|exact IH]. unfold lower.
  destruct ((65 <=? c) && (c <=? 90)) eqn:E; lia.
Qed.
Lemma existsb_none {A} (f : A -> bool) l : Forall (fun x => f x = false) l -> existsb f l = false.
Proof. induction 1 as [|x l H _ IH]; cbn [existsb]; [reflexivity|]. rewrite H, IH. reflexivity. Qed.
Lemma prep_ascii L s : ascii_lib L -> printable s ->
  ldap_prep L s = Ok (32 :: spaced (words (map lower s)) ++ [32]).
Proof.
  intros (B & N & T) P. unfold ldap_prep. rewrite (map_step_printable s P).
  assert (E : flat_map (map_b2 L) s = map lower s).
  { clear -B P. induction P as [|c s Hc _ IH]; [reflexivity|]. cbn [flat_map map]. rewrite (B c Hc), IH. reflexivity. }
  rewrite E, (N _ (lower_printable s P)). pose proof (lower_printable s P) as Q.
  rewrite existsb_none.
  2:{ clear -T Q. induction Q as [|c t Hc _ IH]; constructor; [|exact IH].
      destruct (T c Hc) as (H1 & H2 & H3 & H4 & H5 & H6). unfold prohibited. rewrite H1, H2, H3, H4, H5.
      cbn [orb]. lia. }
  unfold bad_bidi. rewrite existsb_none.
  2:{ clear -T Q. induction Q as [|c t Hc _ IH]; constructor; [|exact IH]. apply (T c Hc). }
  cbn [andb]. rewrite (spaces_step _ Q). reflexivity.
Qed.

(* words are recovered from their spaced form *)
Lemma words_spaced l : Forall (fun w => w <> [] /\ ~ In 32 w) l -> words (spaced l) = l.
Proof.
  assert (D : forall w r, ~ In 32 w -> words (w ++ 32 :: r) = (if len w =? 0 then [] else [w]) ++ words r).
  { intros w r H. unfold words. rewrite split_on_app by exact H. cbn [filter]. destruct (len w =? 0); reflexivity. }
  induction 1 as [|w l [H1 H2] F IH]; [reflexivity|].
  assert (Hw : len w =? 0 = false) by (destruct w; [congruence|rewrite len_cons; pose proof (len_nonneg w); lia]).
  rewrite spaced_cons. destruct l as [|w' l].
  - cbn [tail_of]. rewrite app_nil_r. unfold words. rewrite split_on_nosep by exact H2. cbn [filter]. rewrite Hw. reflexivity.
  - cbn [tail_of]. rewrite (D w _ H2), Hw, words_cons_space, IH. reflexivity.
Qed.
Lemma split_pieces s : Forall (fun w => ~ In 32 w) (split_on 32 s).
Proof.
  induction s as [|c s IH]; cbn [split_on]; [repeat constructor; intros []|].
  destruct (c =? 32) eqn:E; [constructor; [intros []|exact IH]|].
  destruct (split_on 32 s) as [|w ws]; [repeat constructor; intros [?|[]]; lia|].
  inversion IH as [|? ? Hw Hws]; subst. constructor; [|exact Hws]. intros [?|?]; [lia|contradiction].
Qed.
Lemma words_ok s : Forall (fun w => w <> [] /\ ~ In 32 w) (words s).
Proof.
  unfold words. apply Forall_forall. intros w H. apply filter_In in H. destruct H as [I H].
  split; [intros ->; discriminate|]. pose proof (split_pieces s) as F. rewrite Forall_forall in F. auto.
Qed.
Lemma snoc_inj {A} (a b : list A) c : a ++ [c] = b ++ [c] -> a = b.
Proof. apply app_inv_tail. Qed.
Lemma prep_same L s t : ascii_lib L -> printable s -> printable t ->
  (ldap_prep L s = ldap_prep L t <-> words (map lower s) = words (map lower t)).
Proof.
  intros A S T. rewrite !(prep_ascii L) by assumption. split; [|congruence].
  intros H. injection H as H. apply snoc_inj in H.
  rewrite <- (words_spaced (words (map lower s)) (words_ok _)), H. apply words_spaced, words_ok.
Qed.

(* ---- letters in any text ---- *)
Definition twin (c d : Z) : Prop := c = d \/ (lower c = lower d /\ 65 <= c <= 122 /\ 65 <= d <= 122).
Lemma lower_twin c d : lower c = lower d -> twin c d.
Proof.
  unfold twin, lower. intros H.
  destruct ((65 <=? c) && (c <=? 90)) eqn:E1, ((65 <=? d) && (d <=? 90)) eqn:E2;
    (left; lia) || (right; split; [exact H|lia]) || idtac.
Qed.
Lemma map_step_case s : forall t, same_but_case s t -> same_but_case (map_step s) (map_step t).
Proof.
  unfold same_but_case. induction s as [|c s IH]; intros [|d t] H; try discriminate; [reflexivity|].
  cbn [map] in H. injection H as H1 H2. specialize (IH t H2).
  change (c :: s) with ([c] ++ s). change (d :: t) with ([d] ++ t). rewrite !map_step_app, !map_app, IH. f_equal.
  destruct (lower_twin c d H1) as [->|(_ & Hc & Hd)]; [reflexivity|].
  rewrite !map_step_printable by (repeat constructor; lia). cbn [map]. congruence.
Qed.
Lemma prep_case L s t : (forall c, 65 <= c <= 90 -> map_b2 L c = map_b2 L (c + 32)) -> same_but_case s t ->
  ldap_prep L s = ldap_prep L t.
Proof.
  intros B H. apply map_step_case in H. unfold ldap_prep.
  assert (E : flat_map (map_b2 L) (map_step s) = flat_map (map_b2 L) (map_step t)).
  { revert H. generalize (map_step s) (map_step t). clear -B. unfold same_but_case.
    assert (X : forall c, map_b2 L c = map_b2 L (lower c)).
    { intros c. unfold lower. destruct ((65 <=? c) && (c <=? 90)) eqn:E; [apply B; lia|reflexivity]. }
    intros a. induction a as [|c a IH]; intros [|d b] H; try discriminate; [reflexivity|].
    cbn [map] in H. injection H as H1 H2. cbn [flat_map]. rewrite (IH b H2), (X c), (X d), H1. reflexivity. }
  rewrite E. reflexivity.
Qed.

(* ---- prepared texts hold no control characters ---- *)
Lemma lstrip_in p s c : In c (lstrip_by p s) -> In c s.
Proof. induction s as [|x s IH]; cbn [lstrip_by]; [auto|]. destruct (p x); cbn [In]; auto. Qed.
Lemma double_quiet s : forall b, Forall (fun c => 32 <= c) s -> Forall (fun c => 32 <= c) (double_spaces b s).
Proof.
  induction s as [|c s IH]; intros b F; cbn [double_spaces]; [constructor|]. inversion F; subst.
  destruct (c =? 32); [destruct b|]; [auto|constructor; [lia|constructor; [lia|auto]]|constructor; auto].
Qed.
Lemma prep_quiet L s r : quiet_lib L -> Forall (fun c => 0 <= c) s -> ldap_prep L s = Ok r ->
  Forall (fun c => 32 <= c) r.
Proof.
  intros [B N] P. unfold ldap_prep.
  assert (Q : Forall (fun c => 32 <= c) (nfkc L (flat_map (map_b2 L) (map_step s)))).
  { apply N. apply map_step_quiet in P. revert P. generalize (map_step s). clear -B.
    induction 1 as [|c l Hc _ IH]; cbn [flat_map]; [constructor|]. apply Forall_app. split; [|exact IH].
    apply Forall_forall. intros x Hx. eapply B; eassumption. }
  destruct (existsb _ _); [discriminate|]. destruct (bad_bidi L _); [discriminate|]. intros [= <-].
  constructor; [lia|]. apply Forall_app. split; [|repeat constructor; lia].
  apply (double_quiet _ false) in Q. rewrite Forall_forall in *. intros c Hc. apply Q.
  unfold strip_white, rstrip_by in Hc. apply in_rev, lstrip_in, in_rev in Hc. eapply lstrip_in, Hc.
Qed.

(* ---- hashable tells tidy names apart ---- *)
Lemma entry_split k v k' v' : ~ In 58 k -> ~ In 58 k' -> k ++ 58 :: v = k' ++ 58 :: v' -> k = k' /\ v = v'.
Proof.
  revert k'. induction k as [|c k IH]; intros [|c' k'] H H' E; cbn [app] in E.
  - injection E as E. auto.
  - injection E as E1 E2. exfalso. apply H'. left. congruence.
  - injection E as E1 E2. exfalso. apply H. left. congruence.
  - injection E as E1 E2. destruct (IH k') as [-> ->]; [firstorder..|exact E2|]. subst. auto.
Qed.
Lemma not_in_quiet c l : c < 32 -> Forall (fun c => 32 <= c) l -> ~ In c l.
Proof. intros H F I. rewrite Forall_forall in F. specialize (F c I). lia. Qed.

Lemma text_values L r d : quiet_lib L -> Forall text_attr r -> get_values L r [] = Ok d ->
  forall t, In t (types r) -> exists s, val L r t = Some (PText s) /\ dget t d = Some (PText s) /\ Forall (fun c => 32 <= c) s.
Proof.
  intros Q F E t Ht. destruct (get_values_ok _ _ _ _ E) as [C G]. specialize (G t).
  destruct (last_of_in t r Ht) as [x Ex]. rewrite Ex in G. unfold val. rewrite Ex, G.
  destruct (last_of_some _ _ _ Ex) as [Ix _]. rewrite Forall_forall in F, C.
  destruct (F x Ix) as [(s & Es & Ps) _]. destruct (C x Ix) as [p Hp]. rewrite Hp. rewrite Es in Hp. cbn [prep_value] in Hp.
  destruct (ldap_prep L s) as [u|] eqn:Eu; cbn [bind] in Hp; [|discriminate]. injection Hp as <-.
  exists u. repeat split. eapply prep_quiet; eassumption.
Qed.
Lemma type_quiet r t : Forall text_attr r -> In t (types r) -> Forall (fun c => 32 <= c) t /\ ~ In 58 t.
Proof.
  intros F H. apply in_map_iff in H. destruct H as (x & <- & Ix). rewrite Forall_forall in F. destruct (F x Ix) as [_ Ft].
  rewrite Forall_forall in Ft. split; [apply Forall_forall; intros c Hc; apply Ft, Hc|]. intros H. apply Ft in H. lia.
Qed.
Lemma hash_rdn_form L r h : quiet_lib L -> text_rdn r -> hash_rdn L r = Ok h ->
  exists d, get_values L r [] = Ok d /\ h = join_with 0x1f (map (entry d) (sort_keys (map fst d))) /\
  Permutation (sort_keys (map fst d)) (types r) /\ sort_keys (map fst d) <> [] /\
  Forall (fun e => e <> [] /\ Forall (fun c => 32 <= c) e) (map (entry d) (sort_keys (map fst d))).
Proof.
  intros Q (Nn & Nd & F). unfold hash_rdn. destruct (get_values L r []) as [d|] eqn:E; cbn [bind]; [|discriminate].
  intros [= <-]. exists d. split; [reflexivity|]. split; [reflexivity|].
  destruct (get_values_keys _ _ _ _ E) as [D I].
  assert (P : Permutation (sort_keys (map fst d)) (types r)).
  { rewrite <- sort_keys_perm. apply NoDup_Permutation; [apply D; constructor|exact Nd|].
    intros t. rewrite I. cbn. intuition. }
  split; [exact P|]. split.
  { intros Z0. rewrite Z0 in P. apply Permutation_nil in P. destruct r; [auto|discriminate]. }
  apply Forall_map, Forall_forall. intros t Ht. apply (Permutation_in _ P) in Ht.
  destruct (text_values L r d Q F E t Ht) as (s & _ & Hs & Qs). destruct (type_quiet r t F Ht) as [Qt _].
  unfold entry. rewrite Hs. cbn [show]. split; [destruct t; discriminate|].
  apply Forall_app. split; [exact Qt|]. change (Forall (fun c => 32 <= c) (58 :: 32 :: s)).
  constructor; [lia|]. constructor; [lia|exact Qs].
Qed.
Lemma join_inj sep a b : a <> [] -> b <> [] -> Forall (fun w => ~ In sep w) a -> Forall (fun w => ~ In sep w) b ->
  join_with sep a = join_with sep b -> a = b.
Proof. intros Na Nb Fa Fb E. rewrite <- (split_join sep a Na Fa), E. apply split_join; assumption. Qed.
Lemma quiet_seps (sep : Z) (l : list text) : sep < 32 -> Forall (fun e => e <> [] /\ Forall (fun c => 32 <= c) e) l ->
  Forall (fun w => ~ In sep w) l.
Proof.
  intros H F. rewrite Forall_forall in *. intros w Hw. destruct (F w Hw) as [_ Q]. apply not_in_quiet; assumption.
Qed.
Lemma entries_inj da db ka kb :
  Forall (fun t => ~ In 58 t) ka -> Forall (fun t => ~ In 58 t) kb -> map (entry da) ka = map (entry db) kb ->
  ka = kb /\ Forall (fun t => match dget t da with Some p => show p | None => [] end = match dget t db with Some p => show p | None => [] end) ka.
Proof.
  revert kb. induction ka as [|t ka IH]; intros [|u kb] Fa Fb E; try discriminate; [split; constructor|].
  cbn [map] in E. injection E as E1 E2. inversion Fa; inversion Fb; subst.
  destruct (IH kb) as [-> F]; [assumption..|].
  unfold entry in E1. change (tx ": ") with [58; 32] in E1. cbn [app] in E1.
  apply entry_split in E1; [|assumption..]. destruct E1 as [-> E1]. injection E1 as E1.
  split; [reflexivity|]. constructor; assumption.
Qed.
Lemma hash_rdn_inj L a b h : quiet_lib L -> text_rdn a -> text_rdn b -> hash_rdn L a = Ok h -> hash_rdn L b = Ok h ->
  eqv L a b.
Proof.
  intros Q Ta Tb Ha Hb.
  destruct (hash_rdn_form L a h Q Ta Ha) as (da & Ea & E1 & Pa & Na & Fa).
  destruct (hash_rdn_form L b h Q Tb Hb) as (db & Eb & E2 & Pb & Nb & Fb).
  rewrite E1 in E2. clear E1 Ha Hb h. destruct Ta as (_ & Da & Xa), Tb as (_ & Db & Xb).
  apply join_inj in E2.
  - apply entries_inj in E2.
    + destruct E2 as [Ek Ev]. rewrite <- Ek in Pb.
      assert (Pt : Permutation (types a) (types b)) by (rewrite <- Pa; exact Pb).
      destruct (get_values_ok _ _ _ _ Ea) as [Ca _]. destruct (get_values_ok _ _ _ _ Eb) as [Cb _].
      split; [|split; [|split; [exact Ca|split; [exact Cb|]]]].
      * apply Permutation_length in Pt. unfold types in Pt. rewrite !map_length in Pt. unfold len. lia.
      * intros t. split; apply Permutation_in; [|symmetry]; exact Pt.
      * intros t Ht. destruct (text_values L a da Q Xa Ea t Ht) as (s & Vs & Gs & _).
        destruct (text_values L b db Q Xb Eb t (Permutation_in _ Pt Ht)) as (u & Vu & Gu & _).
        exists (PText s), (PText u). split; [exact Vs|]. split; [exact Vu|].
        rewrite Forall_forall in Ev. specialize (Ev t (Permutation_in _ (Permutation_sym Pa) Ht)).
        rewrite Gs, Gu in Ev. cbn [show] in Ev. subst. apply peq_refl.
    + apply Forall_forall. intros t Ht. apply (type_quiet a t Xa (Permutation_in _ Pa Ht)).
    + apply Forall_forall. intros t Ht. apply (type_quiet b t Xb (Permutation_in _ Pb Ht)).
  - intros H. apply map_eq_nil in H. auto.
  - intros H. apply map_eq_nil in H. auto.
  - apply quiet_seps; [lia|exact Fa].
  - apply quiet_seps; [lia|exact Fb].
Qed.
Lemma join_quiet sep l c : In c (join_with sep l) -> c = sep \/ exists w, In w l /\ In c w.
Proof.
  induction l as [|w l IH]; [intros []|]. cbn [join_with]. destruct l as [|w' l].
  - intros H. right. exists w. split; [left; reflexivity|exact H].
  - rewrite in_app_iff. intros [H|[H|H]]; [right; exists w; split; [left; reflexivity|exact H]|left; auto|].
    destruct (IH H) as [?|(u & Hu & Hc)]; [left; assumption|right; exists u; split; [right|]; assumption].
Qed.
Lemma hash_rdns_form L n : forall hs, quiet_lib L -> text_name n -> hash_rdns L n = Ok hs ->
  Forall2 (fun r h => hash_rdn L r = Ok h) n hs /\ Forall (fun h => h <> [] /\ ~ In 0x1e h) hs.
Proof.
  induction n as [|r n IH]; intros hs Q T; cbn [hash_rdns]; [intros [= <-]; split; constructor|].
  inversion T as [|? ? Tr Tn]; subst.
  destruct (hash_rdn L r) as [h|] eqn:Eh; cbn [bind]; [|discriminate].
  destruct (hash_rdns L n) as [hs'|]; cbn [bind]; [|discriminate]. intros [= <-].
  destruct (IH hs' Q Tn eq_refl) as [F2 F]. split; [constructor; assumption|]. constructor; [|exact F].
  destruct (hash_rdn_form L r h Q Tr Eh) as (d & _ & -> & _ & Nk & Fe).
  destruct (sort_keys (map fst d)) as [|k ks]; [congruence|]. cbn [map] in *. split.
  - inversion Fe as [|? ? [He _] _]; subst. destruct (map (entry d) ks); cbn [join_with]; [exact He|].
    destruct (entry d k); discriminate.
  - intros H. apply join_quiet in H. destruct H as [H|(w & Hw & Hc)]; [lia|].
    rewrite Forall_forall in Fe. destruct (Fe w Hw) as [_ Qw]. revert Hc. apply not_in_quiet; [lia|exact Qw].
Qed.
Lemma hash_name_inj L a b h : quiet_lib L -> text_name a -> text_name b -> hash_name L a = Ok h -> hash_name L b = Ok h ->
  eq_name L a b = Ok true.
Proof.
  intros Q Ta Tb Ha Hb. unfold hash_name in *.
  destruct (hash_rdns L a) as [ha|] eqn:Ea; cbn [bind] in Ha; [|discriminate].
  destruct (hash_rdns L b) as [hb|] eqn:Eb; cbn [bind] in Hb; [|discriminate].
  injection Ha as Ha. injection Hb as Hb.
  destruct (hash_rdns_form L a ha Q Ta Ea) as [Fa Na]. destruct (hash_rdns_form L b hb Q Tb Eb) as [Fb Nb].
  assert (E : ha = hb).
  { assert (X : forall l : list text, Forall (fun h => h <> [] /\ ~ In 0x1e h) l -> join_with 0x1e l = [] -> l = []).
    { intros [|w [|w' l]] Fl E; [reflexivity| |]; cbn [join_with] in E; inversion Fl as [|? ? [Hw _] _]; subst;
        [contradiction|destruct w; discriminate]. }
    rewrite <- Hb in Ha. clear Hb.
    destruct ha as [|wa ha]; [symmetry; apply X; [exact Nb|symmetry; exact Ha]|].
    destruct hb as [|wb hb]; [apply X; [exact Na|exact Ha]|].
    apply join_inj with (sep := 0x1e); [discriminate..| | |exact Ha];
      (eapply Forall_impl; [|eassumption]); intros w Hw; apply Hw. }
  subst hb. apply eq_name_true. clear -Q Ta Tb Fa Fb. revert b Tb Fb.
  induction Fa as [|r w a ha Hr _ IH]; intros b Tb Fb; inversion Fb; subst; constructor.
  - inversion Ta; inversion Tb; subst. eapply hash_rdn_inj; eassumption.
  - inversion Ta; inversion Tb; subst. apply IH; assumption.
Qed.
