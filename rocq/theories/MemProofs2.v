Require Import Verif.Base Verif.BaseFacts Verif.MemModel Verif.MemSpec Verif.MemProofs.

Section Proofs.
  Context {V R : Type}.
  Variable split : bytes -> res (list R).
  Variable build : R -> res V.
  Variable value_eq : option (V -> V -> res bool).
  Notation lst := (lst V R).
  Notation items := (items split build).
  Notation only_read := (only_read split build).
  Notation item_of := (item_of build).

  Fixpoint scan {A} (c : A -> res bool) (l : list A) : res bool :=
    match l with
    | [] => Ok false
    | x :: r => match c x with Err e => Err e | Ok true => Ok true | Ok false => scan c r end
    end.
  Lemma scan_true {A} (c : A -> res bool) l : scan c l = Ok true <->
    exists n x, nth_error l n = Some x /\ c x = Ok true /\ forall m y, (m < n)%nat -> nth_error l m = Some y -> c y = Ok false.
  Proof.
    induction l as [|x l IH]; cbn.
    - split; [discriminate|]. intros (n & x & H & _). destruct n; discriminate.
    - destruct (c x) as [[|]|e] eqn:E.
      + split; [|auto]. intros _. exists 0%nat, x. repeat split; auto. lia.
      + rewrite IH. split.
        * intros (n & y & H1 & H2 & H3). exists (S n), y. repeat split; auto. intros [|m] z L; cbn; [congruence|]. apply H3. lia.
        * intros ([|n] & y & H1 & H2 & H3); cbn in H1; [congruence|]. exists n, y. repeat split; auto.
          intros m z L. apply (H3 (S m) z). lia.
      + split; [discriminate|]. intros ([|n] & y & H1 & H2 & H3); cbn in H1; [congruence|].
        specialize (H3 0%nat x). rewrite H3 in E; [discriminate|lia|reflexivity].
  Qed.
  Lemma scan_false {A} (c : A -> res bool) l : scan c l = Ok false <-> Forall (fun x => c x = Ok false) l.
  Proof.
    induction l as [|x l IH]; cbn; [split; auto|]. destruct (c x) as [[|]|e] eqn:E.
    - split; [discriminate|]. intros H. inversion H. congruence.
    - rewrite IH. split; intros H; [constructor; auto|inversion H; auto].
    - split; [discriminate|]. intros H. inversion H. congruence.
  Qed.
  Lemma scan_err {A} (c : A -> res bool) l e : scan c l = Err e <->
    exists n x, nth_error l n = Some x /\ c x = Err e /\ forall m y, (m < n)%nat -> nth_error l m = Some y -> c y = Ok false.
  Proof.
    induction l as [|x l IH]; cbn.
    - split; [discriminate|]. intros (n & x & H & _). destruct n; discriminate.
    - destruct (c x) as [[|]|e'] eqn:E.
      + split; [discriminate|]. intros ([|n] & y & H1 & H2 & H3); cbn in H1; [congruence|].
        specialize (H3 0%nat x). rewrite H3 in E; [discriminate|lia|reflexivity].
      + rewrite IH. split.
        * intros (n & y & H1 & H2 & H3). exists (S n), y. repeat split; auto. intros [|m] z L; cbn; [congruence|]. apply H3. lia.
        * intros ([|n] & y & H1 & H2 & H3); cbn in H1; [congruence|]. exists n, y. repeat split; auto.
          intros m z L. apply (H3 (S m) z). lia.
      + split.
        * intros H. injection H as ->. exists 0%nat, x. repeat split; auto. lia.
        * intros ([|n] & y & H1 & H2 & H3); cbn in H1; [congruence|].
          specialize (H3 0%nat x). rewrite H3 in E; [discriminate|lia|reflexivity].
  Qed.

  Lemma skipn_put {A} (l : list A) n x : skipn (S n) (put l n x) = skipn (S n) l.
  Proof. revert n. induction l as [|y l IH]; intros [|n]; cbn; auto. apply (IH n). Qed.
  Lemma firstn_put {A} (l : list A) n x : firstn n (put l n x) = firstn n l.
  Proof. revert n. induction l as [|y l IH]; intros [|n]; cbn; auto. now rewrite IH. Qed.
  Lemma skipn_nth {A} (l : list A) n x : nth_error l n = Some x -> skipn n l = x :: skipn (S n) l.
  Proof. revert n. induction l as [|y l IH]; intros [|n] H; cbn in *; try discriminate; [congruence|]. now apply IH. Qed.

  Lemma seek_scan x m : forall k q l, l_children q = Some l -> (k + m = length l)%nat -> o_id x < l_next q ->
    snd (seek build value_eq (seq k m) x q) = scan (judge value_eq x) (map item_of (skipn k l)).
  Proof.
    induction m as [|m IH]; intros k q l C L X.
    - rewrite skipn_all2 by lia. reflexivity.
    - cbn [seq seek]. unfold next_child. rewrite C. unfold lazy_child.
      destruct (nth_error l k) as [s|] eqn:E; [|apply nth_error_None in E; lia]. rewrite (skipn_nth _ _ _ E). cbn [map scan].
      assert (J : forall i, judge value_eq x i = do v <- snd i; match value_eq with Some f => f v (o_val x)
        | None => Ok (match fst i with Some k => k =? o_id x | None => false end) end) by reflexivity.
      rewrite (J (item_of s)). clear J. destruct s as [r|o]; cbn [MemSpec.item_of snd fst bind].
      + destruct (build r) as [v|e]; cbn [bind]; [|reflexivity].
        assert (K : forall q', q' = Lst (l_contents q) (Some (put l k (SObj (Object (l_next q) v)))) (l_mutated q) (l_next q + 1) ->
          snd (seek build value_eq (seq (S k) m) x q') = scan (judge value_eq x) (map item_of (skipn (S k) l))).
        { intros q' ->. rewrite (IH (S k) _ (put l k (SObj (Object (l_next q) v)))); [now rewrite skipn_put|reflexivity|rewrite put_length; lia|cbn; lia]. }
        unfold equal. cbn [o_val o_id]. destruct value_eq as [f|].
        * destruct (f v (o_val x)) as [[|]|e]; [reflexivity| |reflexivity]. apply K. reflexivity.
        * destruct (Z.eqb_spec (l_next q) (o_id x)); [lia|]. apply K. reflexivity.
      + unfold equal. destruct value_eq as [f|].
        * destruct (f (o_val o) (o_val x)) as [[|]|e]; [reflexivity| |reflexivity]. apply IH; auto; lia.
        * destruct (o_id o =? o_id x); [reflexivity|]. apply IH; auto; lia.
  Qed.
  Lemma contains_scan q x : o_id x < l_next q ->
    snd (contains split build value_eq q (AItem x)) = do l <- items q; scan (judge value_eq x) l.
  Proof.
    intros X. unfold contains. destruct (ensure split q) as [q1 [l|e]] eqn:E.
    - destruct (ensure_ok split build _ _ _ E) as (I & C & _ & _ & N). rewrite I. cbn [bind].
      rewrite (seek_scan x (length l) 0 q1 l C); [reflexivity|reflexivity|lia].
    - apply (ensure_err split build) in E. destruct E as [-> _]. reflexivity.
  Qed.

  (* iter *)
  Lemma iter_from_spec m : forall k q l, l_children q = Some l -> (k + m = length l)%nat ->
    match iter_from build (seq k m) q with
    | (q', Ok os) => exists l', l_children q' = Some l' /\ firstn k l' = firstn k l /\ skipn k l' = map SObj os /\ length l' = length l
    | (_, Err e) => exists n i, (k <= n)%nat /\ nth_error (map item_of l) n = Some i /\ snd i = Err e /\
        forall j y, (k <= j < n)%nat -> nth_error (map item_of l) j = Some y -> exists v, snd y = Ok v
    end.
  Proof.
    induction m as [|m IH]; intros k q l C L.
    - cbn. exists l. rewrite skipn_all2 by lia. auto.
    - cbn [seq iter_from]. unfold next_child. rewrite C.
      destruct (lazy_child build q l k) as [q1 r] eqn:E.
      destruct (nth_error l k) as [s|] eqn:Es; [|apply nth_error_None in Es; lia].
      assert (Z : forall o l1, nth_error l1 k = Some (SObj o) -> l_children q1 = Some l1 -> length l1 = length l ->
         firstn k l1 = firstn k l -> skipn (S k) l1 = skipn (S k) l -> (exists v, snd (item_of s) = Ok v) ->
         match (let (q0, r0) := iter_from build (seq (S k) m) q1 in (q0, do os <- r0; Ok (o :: os))) with
         | (q', Ok os) => exists l', l_children q' = Some l' /\ firstn k l' = firstn k l /\ skipn k l' = map SObj os /\ length l' = length l
         | (_, Err e) => exists n i, (k <= n)%nat /\ nth_error (map item_of l) n = Some i /\ snd i = Err e /\
             forall j y, (k <= j < n)%nat -> nth_error (map item_of l) j = Some y -> exists v, snd y = Ok v
         end).
      { intros o l1 N1 C1 L1 F1 S1 V1. specialize (IH (S k) q1 l1 C1 ltac:(lia)).
        destruct (iter_from build (seq (S k) m) q1) as [q2 [os|e]]; cbn [bind].
        - destruct IH as (l' & C' & F' & S' & L'). exists l'. split; [auto|].
          assert (N' : nth_error l' k = Some (SObj o)).
          { rewrite <- N1. rewrite <- (firstn_skipn (S k) l'), <- (firstn_skipn (S k) l1), F'.
            rewrite !nth_error_app1; auto; rewrite firstn_length; lia. }
          split; [|split; [|lia]].
          + rewrite <- F1. assert (Fk : forall (a : list (slot V R)), firstn k a = firstn k (firstn (S k) a)) by (intros a; rewrite firstn_firstn; f_equal; lia).
            rewrite (Fk l'), (Fk l1), F'. reflexivity.
          + rewrite (skipn_nth _ _ _ N'), S'. reflexivity.
        - destruct IH as (n & i & H1 & H2 & H3 & H4).
          assert (T : forall j, (S k <= j)%nat -> nth_error (map item_of l1) j = nth_error (map item_of l) j).
          { intros j J. rewrite !nth_error_map. f_equal.
            replace j with (S k + (j - S k))%nat by lia. rewrite <- (firstn_skipn (S k) l1), <- (firstn_skipn (S k) l), S1.
            rewrite !nth_error_app2; rewrite ?firstn_length; try lia. f_equal. lia. }
          exists n, i. split; [lia|]. rewrite <- T by lia. split; [auto|]. split; [auto|].
          intros j y J Hy. destruct (Nat.eq_dec j k) as [->|Ne].
          + rewrite nth_error_map, Es in Hy. cbn in Hy. injection Hy as <-. auto.
          + apply (H4 j y); [lia|]. rewrite T by lia. auto. }
      unfold lazy_child in E. rewrite Es in E. destruct s as [r0|o].
      + destruct (build r0) as [v|e] eqn:B; injection E as <- <-.
        * apply Z with (l1 := put l k (SObj (Object (l_next q) v))); auto using put_length, firstn_put.
          -- apply put_same. lia.
          -- apply skipn_put.
          -- exists v. exact B.
        * exists k, (item_of (SRaw r0)). split; [lia|]. rewrite nth_error_map, Es. split; [auto|]. split; [exact B|]. intros; lia.
      + injection E as <- <-. apply Z with (l1 := l); auto. exists (o_val o). reflexivity.
  Qed.
  Lemma iter_spec q :
    match iter split build q with
    | (q', Ok os) => items q' = Ok (map (fun o => (Some (o_id o), Ok (o_val o))) os)
    | (_, Err e) => items q = Err e \/ exists l n i, items q = Ok l /\ nth_error l n = Some i /\ snd i = Err e /\
        forall j y, (j < n)%nat -> nth_error l j = Some y -> exists v, snd y = Ok v
    end.
  Proof.
    unfold iter. destruct (ensure split q) as [q1 [l|e]] eqn:E.
    - destruct (ensure_ok split build _ _ _ E) as (I & C & _ & _ & N).
      pose proof (iter_from_spec (length l) 0 q1 l C eq_refl) as H.
      destruct (iter_from build (seq 0 (length l)) q1) as [q2 [os|e]].
      + destruct H as (l' & C' & _ & S' & _). cbn in S'. unfold MemSpec.items. rewrite C', S', map_map. reflexivity.
      + destruct H as (n & i & _ & H2 & H3 & H4). right. exists (map item_of l), n, i. repeat split; auto. intros j y J. apply H4. lia.
    - apply (ensure_err split build) in E. destruct E as [E _]. auto.
  Qed.
  Lemma iter_made q l : items q = Ok l -> all_made l -> exists q' os, iter split build q = (q', Ok os).
  Proof.
    intros I A. pose proof (iter_spec q) as H. destruct (iter split build q) as [q' [os|e]]; [eauto|].
    destruct H as [H|(l2 & n & i & H1 & H2 & H3 & _)]; [congruence|]. rewrite I in H1. injection H1 as <-.
    unfold all_made in A. rewrite Forall_forall in A. apply nth_error_In in H2. apply A in H2. destruct H2 as [v Hv]. congruence.
  Qed.
  Lemma iter_ok_made q q' os : iter split build q = (q', Ok os) ->
    exists l, items q = Ok l /\ all_made l /\ map (fun o => Ok (o_val o)) os = map snd l /\
      forall n i, nth_error l n = Some i -> forall k, fst i = Some k -> option_map (@o_id V) (nth_error os n) = Some k.
  Proof.
    intros H. pose proof (iter_spec q) as S. rewrite H in S.
    assert (O : only_read q q').
    { change q' with (fst (q', @Ok (list (object V)) os)). rewrite <- H. apply (read_only split build value_eq DIter q). }
    destruct O as (_ & _ & _ & K). rewrite S in K. destruct (items q) as [l|e]; [|tauto]. exists l. split; [auto|].
    assert (M : map snd l = map (fun o => Ok (o_val o)) os).
    { remember (map (fun o => (Some (o_id o), Ok (o_val o))) os) as b. clear - K Heqb. revert os Heqb.
      induction K as [|x y a b X K IH]; intros [|o os] E; try discriminate; auto. injection E as -> ->. cbn. destruct X as [-> _]. cbn.
      f_equal. apply IH. reflexivity. }
    split.
    - unfold all_made. apply Forall_forall. intros x Hx. apply (in_map snd) in Hx. rewrite M in Hx. apply in_map_iff in Hx.
      destruct Hx as (o & E & _). eauto.
    - split; [auto|]. intros n i N k Hk. pose proof (keeps_nth _ _ n K) as Kn. rewrite N, nth_error_map in Kn.
      destruct (nth_error os n) as [o|]; cbn in Kn; [|tauto]. destruct Kn as [_ [Kn|Kn]]; cbn in *; congruence.
  Qed.

  (* two positions give one object exactly when they are one position *)
  Lemma get_identity q q1 q2 q3 ds i j o o' : tidy split build q -> get split build q i = (q1, Ok o) ->
    q2 = reads split build value_eq ds q1 -> get split build q2 j = (q3, Ok o') ->
    (o_id o = o_id o' <-> exists l, items q = Ok l /\ (i = j \/ i = j + len l \/ j = i + len l)).
  Proof.
    intros T G E2 G'. pose proof (get_value split build q i) as H. rewrite G in H. cbn [snd] in H.
    destruct (items q) as [l|e] eqn:I; [|discriminate]. destruct (nth_item l i) as [[k [v|e]]|] eqn:Ni; try discriminate.
    destruct H as (o1 & q' & l' & E & Ev & _ & I1 & N1). injection E as <- <-.
    assert (T1 : tidy split build q1). { pose proof (tidy_get split build q i T) as X. rewrite G in X. exact X. }
    assert (T2 : tidy split build q2) by (subst q2; apply tidy_reads; auto).
    assert (O : only_read q q2).
    { eapply only_trans; [pose proof (get_only split build q i) as X; rewrite G in X; exact X|]. subst q2. apply reads_only. }
    destruct O as (_ & _ & _ & K). rewrite I in K. destruct (items q2) as [l2|e] eqn:I2; [|tauto].
    pose proof (keeps_length _ _ K) as L2.
    assert (Ni2 : nth_item l2 i = Some (Some (o_id o), Ok v)).
    { destruct (reads_only split build value_eq ds q1) as (_ & _ & _ & K1). rewrite <- E2 in K1. rewrite I1, I2 in K1.
      pose proof (nth_item_keeps _ _ i K1) as X. rewrite N1 in X. destruct (nth_item l2 i) as [[a b]|]; cbn in X; [|tauto].
      destruct X as [<- [X|<-]]; [discriminate|auto]. }
    pose proof (get_value split build q2 j) as H2. rewrite G' in H2. cbn [snd] in H2. rewrite I2 in H2.
    destruct (nth_item l2 j) as [[k2 [v2|e]]|] eqn:Nj; try discriminate.
    destruct H2 as (o2 & q4 & l4 & E4 & Ev2 & Hk & I4 & N4). injection E4 as <- <-.
    assert (T3 : tidy split build q3). { pose proof (tidy_get split build q2 j T2) as X. rewrite G' in X. exact X. }
    assert (Ni4 : nth_item l4 i = Some (Some (o_id o), Ok v) /\ length l4 = length l2).
    { pose proof (get_only split build q2 j) as X. rewrite G' in X. destruct X as (_ & _ & _ & K2). cbn [fst] in K2. rewrite I2, I4 in K2.
      pose proof (nth_item_keeps _ _ i K2) as X. rewrite Ni2 in X. pose proof (keeps_length _ _ K2).
      destruct (nth_item l4 i) as [[a b]|]; cbn in X; [|tauto].
      destruct X as [<- [X|<-]]; [discriminate|auto]. }
    destruct Ni4 as [Ni4 L4].
    assert (P : forall a x, nth_item l4 a = Some x -> exists n, nth_error l4 n = Some x /\ (n < length l4)%nat /\ (a = Z.of_nat n \/ a + len l4 = Z.of_nat n)).
    { intros a x. unfold nth_item, len. destruct (Z.ltb_spec a 0).
      - destruct (Z.ltb_spec (a + Z.of_nat (length l4)) 0); [discriminate|]. intros X. eexists. split; [exact X|].
        split; [apply nth_error_Some; congruence|]. lia.
      - intros X. eexists. split; [exact X|]. split; [apply nth_error_Some; congruence|]. lia. }
    destruct (P _ _ Ni4) as (n & En & Ln & Pn). destruct (P _ _ N4) as (m & Em & Lm & Pm). unfold len in *. split.
    - intros Eq. rewrite Eq in En. destruct T3 as [_ D]. assert (n = m) by (eapply D; eauto). exists l. split; [auto|]. lia.
    - intros (l0 & E0 & Hij). injection E0 as <-. assert (n = m) by lia. subst m. congruence.
  Qed.

  (* changes *)
  Variable retag : V -> option (res V).
  Definition changes (q q' : lst) (f : list (item V) -> list (item V)) : Prop :=
    exists l, items q = Ok l /\ items q' = Ok (f l) /\ l_mutated q' = true /\ l_contents q' = l_contents q.
  Lemma make_value_children (q : lst) x q' y : make_value retag q x = (q', Ok y) ->
    l_children q' = l_children q /\ l_contents q' = l_contents q /\
    match retag (o_val x) with None => y = x /\ q' = q | Some r => r = Ok (o_val y) /\ o_id y = l_next q end.
  Proof.
    unfold make_value. destruct (retag (o_val x)) as [[v|e]|]; intros H; try discriminate; injection H as <- <-; auto.
  Qed.
  Lemma append_spec q x q' : append split retag q x = (q', Ok tt) ->
    exists y, changes q q' (fun l => l ++ [(Some (o_id y), Ok (o_val y))]) /\
      match retag (o_val x) with None => y = x | Some r => r = Ok (o_val y) /\ o_id y = l_next q end.
  Proof.
    unfold append. destruct (ensure split q) as [q1 [l|e]] eqn:E; [|discriminate].
    destruct (ensure_ok split build _ _ _ E) as (I & C & Co & _ & N).
    destruct (make_value retag q1 x) as [q2 [y|e]] eqn:M; [|discriminate]. intros H. injection H as <-.
    destruct (make_value_children _ _ _ _ M) as (Cc & Ct & Y). exists y. split.
    - exists (map item_of l). split; [auto|]. split; [unfold MemSpec.items; cbn; now rewrite map_app|]. cbn. split; [auto|congruence].
    - destruct (retag (o_val x)) as [r|]; [|tauto]. rewrite <- N. auto.
  Qed.
  Lemma append_ok q x : (exists l, items q = Ok l) -> match retag (o_val x) with Some (Err _) => False | _ => True end ->
    exists q', append split retag q x = (q', Ok tt).
  Proof.
    intros [l I] H. unfold append. destruct (ensure split q) as [q1 [k|e]] eqn:E.
    2: { apply (ensure_err split build) in E. destruct E. congruence. }
    unfold make_value. destruct (retag (o_val x)) as [[v|e]|]; [eauto|tauto|eauto].
  Qed.
  Lemma map_put l n y : map item_of (put l n (SObj y)) = put (map item_of l) n (Some (o_id y), Ok (o_val y)).
  Proof. revert n. induction l as [|s l IH]; intros [|n]; cbn; auto. now rewrite IH. Qed.
  Lemma map_drop l n : map item_of (drop_at l n) = drop_at (map item_of l) n.
  Proof. revert n. induction l as [|s l IH]; intros [|n]; cbn; auto. now rewrite IH. Qed.
  Lemma place_map {A B} (f : A -> B) l i : place (map f l) i = place l i.
  Proof. unfold place, len. now rewrite map_length. Qed.
  Lemma set_spec q i x q' : set_item split retag q i x = (q', Ok tt) ->
    exists y l, items q = Ok l /\
      changes q q' (fun l => match place l i with Some n => put l n (Some (o_id y), Ok (o_val y)) | None => l ++ [(Some (o_id y), Ok (o_val y))] end) /\
      (place l i = None -> i = len l) /\
      match retag (o_val x) with None => y = x | Some r => r = Ok (o_val y) /\ o_id y = l_next q end.
  Proof.
    unfold set_item. destruct (ensure split q) as [q1 [l|e]] eqn:E; [|discriminate].
    destruct (ensure_ok split build _ _ _ E) as (I & C & Co & _ & N).
    destruct (make_value retag q1 x) as [q2 [y|e]] eqn:M; [|discriminate].
    destruct (make_value_children _ _ _ _ M) as (Cc & Ct & Y).
    assert (Yd : match retag (o_val x) with None => y = x | Some r => r = Ok (o_val y) /\ o_id y = l_next q end).
    { destruct (retag (o_val x)) as [r|]; [|tauto]. rewrite <- N. auto. }
    destruct (Z.eqb_spec i (len l)) as [Ei|Ei].
    - intros H. injection H as <-. exists y, (map item_of l). split; [auto|].
      assert (P : place (map item_of l) i = None).
      { rewrite place_map. unfold place. destruct (Z.leb_spec 0 i), (Z.ltb_spec i (len l)), (Z.ltb_spec i 0), (Z.leb_spec 0 (i + len l)); cbn; auto; unfold len in *; lia. }
      split; [|split; [intros _; unfold len in *; rewrite map_length; auto|auto]].
      exists (map item_of l). split; [auto|]. rewrite P. split; [unfold MemSpec.items; cbn; now rewrite map_app|]. cbn. split; [auto|congruence].
    - destruct (place l i) as [n|] eqn:P; [|discriminate]. intros H. injection H as <-. exists y, (map item_of l). split; [auto|].
      rewrite place_map, P. split; [|split; [discriminate|auto]].
      exists (map item_of l). split; [auto|]. rewrite place_map, P. split; [unfold MemSpec.items; cbn; now rewrite map_put|]. cbn. split; [auto|congruence].
  Qed.
  Lemma del_spec q i q' : del_item split q i = (q', Ok tt) ->
    exists l n, items q = Ok l /\ place l i = Some n /\ changes q q' (fun l => drop_at l n).
  Proof.
    unfold del_item. destruct (ensure split q) as [q1 [l|e]] eqn:E; [|discriminate].
    destruct (ensure_ok split build _ _ _ E) as (I & C & Co & _ & N).
    destruct (place l i) as [n|] eqn:P; [|discriminate]. intros H. injection H as <-.
    exists (map item_of l), n. rewrite place_map. split; [auto|]. split; [auto|].
    exists (map item_of l). split; [auto|]. split; [unfold MemSpec.items; cbn; now rewrite map_drop|]. cbn. split; [auto|congruence].
  Qed.
End Proofs.
