Require Import Verif.Base Verif.BaseFacts Verif.MemModel Verif.MemSpec.

Section Proofs.
  Context {V R : Type}.
  Variable split : bytes -> res (list R).
  Variable build : R -> res V.
  Variable value_eq : option (V -> V -> res bool).
  Notation lst := (lst V R).
  Notation items := (items split build).
  Notation only_read := (only_read split build).
  Notation fresh := (fresh split build).
  Notation distinct := (distinct split build).
  Notation item_of := (item_of build).

  Lemma keeps_refl (l : list (item V)) : keeps l l.
  Proof. induction l; constructor; [auto|exact IHl]. Qed.
  Lemma keeps_trans (a b c : list (item V)) : keeps a b -> keeps b c -> keeps a c.
  Proof.
    intros H. revert c. induction H as [|x y l l' H H0 IH]; intros c K; inversion K as [|y' z l1 l2 K1 K2]; subst; constructor.
    - destruct H as [E1 O1], K1 as [E2 O2]. split; [congruence|]. destruct O1 as [O1|O1]; [auto|]. rewrite O1. destruct O2; auto.
    - apply IH. exact K2.
  Qed.
  Lemma only_refl q : only_read q q.
  Proof. repeat split; try lia. destruct (items q); auto using keeps_refl. Qed.
  Lemma only_trans a b c : only_read a b -> only_read b c -> only_read a c.
  Proof.
    intros (A1 & A2 & A3 & A4) (B1 & B2 & B3 & B4). repeat split; try congruence; try lia.
    destruct (items a), (items b), (items c); try tauto; try congruence. eapply keeps_trans; eauto.
  Qed.

  Lemma map_raw (rs : list R) : map item_of (map SRaw rs) = map (fun r => (None, build r)) rs.
  Proof. rewrite map_map. reflexivity. Qed.

  (* ensure *)
  Lemma ensure_ok q q' l : ensure split q = (q', Ok l) ->
    items q = Ok (map item_of l) /\ l_children q' = Some l /\ l_contents q' = l_contents q /\ l_mutated q' = l_mutated q /\ l_next q' = l_next q.
  Proof.
    unfold ensure, MemSpec.items. destruct (l_children q) as [k|] eqn:E; [intros H; injection H as <- <-; auto|].
    destruct (l_contents q) as [c|] eqn:Ec.
    - destruct (split c) as [rs|e]; [|discriminate]. intros H. injection H as <- <-. cbn. rewrite map_raw. auto.
    - intros H. injection H as <- <-. cbn. auto.
  Qed.
  Lemma ensure_err q q' e : ensure split q = (q', Err e) -> items q = Err e /\ q' = q.
  Proof.
    unfold ensure, MemSpec.items. destruct (l_children q) as [k|] eqn:E; [discriminate|].
    destruct (l_contents q) as [c|] eqn:Ec; [|discriminate].
    destruct (split c) as [rs|e']; [discriminate|]. intros H. injection H as <- <-. auto.
  Qed.
  Lemma items_some q l : l_children q = Some l -> items q = Ok (map item_of l).
  Proof. intros E. unfold MemSpec.items. now rewrite E. Qed.
  Lemma ensure_only q q' r : ensure split q = (q', r) -> only_read q q'.
  Proof.
    destruct r as [l|e]; intros H.
    - apply ensure_ok in H. destruct H as (E & C & H1 & H2 & H3). repeat split; try congruence; try lia.
      rewrite E, (items_some _ _ C). apply keeps_refl.
    - apply ensure_err in H. destruct H as [_ ->]. apply only_refl.
  Qed.

  (* put *)
  Lemma put_length {A} (l : list A) n x : length (put l n x) = length l.
  Proof. revert n. induction l; intros [|n]; cbn; auto. Qed.
  Lemma put_same {A} (l : list A) n x : (n < length l)%nat -> nth_error (put l n x) n = Some x.
  Proof. revert n. induction l; intros [|n] H; cbn in *; try lia; auto. apply IHl. lia. Qed.
  Lemma put_other {A} (l : list A) n m x : m <> n -> nth_error (put l n x) m = nth_error l m.
  Proof. revert n m. induction l; intros [|n] [|m] H; cbn; auto; try lia. Qed.
  Lemma put_keeps (l : list (slot V R)) n x r v : nth_error l n = Some (SRaw r) -> build r = Ok v ->
    keeps (map item_of l) (map item_of (put l n (SObj (Object x v)))).
  Proof.
    revert n. induction l as [|s l IH]; intros [|n] H E; try discriminate; cbn in *.
    - injection H as ->. constructor; [cbn; auto|apply keeps_refl].
    - constructor; [auto|]. apply IH; auto.
  Qed.

  (* lazy_child *)
  Lemma lazy_spec q l n q' r : l_children q = Some l -> lazy_child build q l n = (q', r) ->
    only_read q q' /\
    (exists l', l_children q' = Some l' /\ length l' = length l /\
      match r with
      | Ok o => nth_error l' n = Some (SObj o)
      | Err e => q' = q /\ ((nth_error l n = None /\ e = IndexError) \/ exists s, nth_error l n = Some s /\ snd (item_of s) = Err e)
      end) /\
    (q' = q \/ exists v, l_next q' = l_next q + 1 /\ l_children q' = Some (put l n (SObj (Object (l_next q) v)))).
  Proof.
    intros C H. unfold lazy_child in H. destruct (nth_error l n) as [[s|o]|] eqn:E.
    - destruct (build s) as [v|e] eqn:B; injection H as <- <-.
      + split; [|split].
        * repeat split; cbn; try lia. rewrite (items_some _ _ C). unfold MemSpec.items. cbn. eapply put_keeps; eauto.
        * eexists. split; [reflexivity|]. split; [apply put_length|]. apply put_same. apply nth_error_Some. congruence.
        * right. exists v. auto.
      + split; [apply only_refl|]. split; [|auto]. exists l. split; [auto|]. split; [auto|]. split; [auto|]. right. exists (SRaw s). auto.
    - injection H as <- <-. split; [apply only_refl|]. split; [|auto]. exists l. auto.
    - injection H as <- <-. split; [apply only_refl|]. split; [|left; reflexivity]. exists l. split; [exact C|]. split; [reflexivity|].
      split; [reflexivity|]. left. split; reflexivity.
  Qed.

  Lemma next_only q n q' r : next_child build q n = (q', r) -> only_read q q'.
  Proof.
    unfold next_child. destruct (l_children q) as [l|] eqn:C; [|intros H; injection H as <- <-; apply only_refl].
    intros H. eapply lazy_spec in H; eauto. tauto.
  Qed.
  Lemma get_only q i : only_read q (fst (get split build q i)).
  Proof.
    unfold get. destruct (ensure split q) as [q1 [l|e]] eqn:E; cbn [fst]; [|eapply ensure_only; eauto].
    destruct (place l i) as [n|]; cbn [fst]; [|eapply ensure_only; eauto].
    destruct (lazy_child build q1 l n) as [q2 r] eqn:L. cbn [fst]. eapply only_trans; [eapply ensure_only; eauto|].
    apply ensure_ok in E. destruct E as (_ & C & _). eapply lazy_spec in L; eauto. tauto.
  Qed.
  Lemma iter_from_only ns : forall q, only_read q (fst (iter_from build ns q)).
  Proof.
    induction ns as [|n ns IH]; intros q; cbn [iter_from fst]; [apply only_refl|].
    destruct (next_child build q n) as [q1 [o|e]] eqn:E; cbn [fst]; [|eapply next_only; eauto].
    specialize (IH q1). destruct (iter_from build ns q1) as [q2 r]. cbn [fst] in *. eapply only_trans; [eapply next_only; eauto|auto].
  Qed.
  Lemma seek_only x ns : forall q, only_read q (fst (seek build value_eq ns x q)).
  Proof.
    induction ns as [|n ns IH]; intros q; cbn [seek fst]; [apply only_refl|].
    destruct (next_child build q n) as [q1 [o|e]] eqn:E; cbn [fst]; [|eapply next_only; eauto].
    destruct (equal value_eq o x) as [[|]|e]; cbn [fst]; try (eapply next_only; eassumption).
    eapply only_trans; [eapply next_only; eauto|apply IH].
  Qed.
  Lemma read_only d q : only_read q (read_list split build value_eq d q).
  Proof.
    destruct d; cbn [read_list].
    - unfold length_. destruct (ensure split q) as [q1 r] eqn:E. eapply ensure_only; eauto.
    - apply get_only.
    - unfold get_slice. destruct (ensure split q) as [q1 r] eqn:E. eapply ensure_only; eauto.
    - unfold iter. destruct (ensure split q) as [q1 [l|e]] eqn:E; cbn [fst]; [|eapply ensure_only; eauto].
      eapply only_trans; [eapply ensure_only; eauto|apply iter_from_only].
    - unfold contains. destruct a as [|x|]; cbn [fst]; try apply only_refl.
      destruct (ensure split q) as [q1 [l|e]] eqn:E; cbn [fst]; [|eapply ensure_only; eauto].
      eapply only_trans; [eapply ensure_only; eauto|apply seek_only].
  Qed.
  Lemma reads_only ds : forall q, only_read q (reads split build value_eq ds q).
  Proof. induction ds as [|d ds IH]; intros q; cbn; [apply only_refl|]. eapply only_trans; [apply read_only|apply IH]. Qed.

  (* keeps and positions *)
  Lemma keeps_nth (a b : list (item V)) n : keeps a b ->
    match nth_error a n, nth_error b n with
    | Some x, Some y => snd x = snd y /\ (fst x = None \/ fst x = fst y)
    | None, None => True
    | _, _ => False
    end.
  Proof. intros H. revert n. induction H; intros [|n]; cbn; auto. apply IHForall2. Qed.
  Lemma keeps_length (a b : list (item V)) : keeps a b -> length a = length b.
  Proof. intros H. induction H; cbn; auto. Qed.
  Lemma place_nth {A} (l : list A) (a : list (item V)) i : length a = length l ->
    nth_item a i = match place l i with Some n => nth_error a n | None => None end.
  Proof.
    intros L. unfold nth_item, place, len. rewrite L.
    destruct (Z.ltb_spec i 0).
    - destruct (Z.leb_spec 0 i); [lia|]. cbn. destruct (Z.ltb_spec (i + Z.of_nat (length l)) 0), (Z.leb_spec 0 (i + Z.of_nat (length l))); try lia; auto.
    - destruct (Z.leb_spec 0 i); [|lia]. cbn. destruct (Z.ltb_spec i (Z.of_nat (length l))); auto. apply nth_error_None. lia.
  Qed.
  Lemma place_lt {A} (l : list A) i n : place l i = Some n -> (n < length l)%nat.
  Proof. unfold place, len. destruct (Z.leb_spec 0 i), (Z.ltb_spec i (Z.of_nat (length l))), (Z.ltb_spec i 0), (Z.leb_spec 0 (i + Z.of_nat (length l))); cbn; intros H3; try discriminate; injection H3 as <-; lia. Qed.

  (* what get returns *)
  Lemma get_value q i :
    match items q with
    | Err e => snd (get split build q i) = Err e
    | Ok l => match nth_item l i with
              | None => snd (get split build q i) = Err IndexError
              | Some (_, Err e) => snd (get split build q i) = Err e
              | Some (k, Ok v) => exists o q' l', get split build q i = (q', Ok o) /\ o_val o = v /\
                   (k = Some (o_id o) \/ k = None /\ o_id o = l_next q) /\ items q' = Ok l' /\ nth_item l' i = Some (Some (o_id o), Ok v)
              end
    end.
  Proof.
    unfold get. destruct (ensure split q) as [q1 [l|e]] eqn:E.
    2: { apply ensure_err in E. destruct E as [-> ->]. reflexivity. }
    destruct (ensure_ok _ _ _ E) as (I & C & _ & _ & N). rewrite I.
    rewrite (place_nth l) by apply map_length. destruct (place l i) as [n|] eqn:P; [|reflexivity].
    pose proof (place_lt _ _ _ P) as L. rewrite nth_error_map. unfold lazy_child.
    destruct (nth_error l n) as [[r|o]|] eqn:K; [| |apply nth_error_None in K; lia]; cbn [option_map MemSpec.item_of].
    - destruct (build r) as [v|e] eqn:B; [|reflexivity]. eexists _, _, _. split; [reflexivity|]. cbn [o_val o_id]. split; [reflexivity|].
      split; [rewrite N; auto|]. split; [unfold MemSpec.items; cbn; reflexivity|].
      rewrite (place_nth l) by (rewrite map_length; apply put_length). rewrite P, nth_error_map, put_same by auto. reflexivity.
    - exists o, q1, (map item_of l). split; [reflexivity|]. split; [reflexivity|]. split; [auto|].
      split; [apply items_some; auto|]. rewrite (place_nth l) by apply map_length. rewrite P, nth_error_map, K. reflexivity.
  Qed.

  Lemma nth_item_keeps (a b : list (item V)) i : keeps a b ->
    match nth_item a i, nth_item b i with
    | Some x, Some y => snd x = snd y /\ (fst x = None \/ fst x = fst y)
    | None, None => True
    | _, _ => False
    end.
  Proof.
    intros K. unfold nth_item, len. rewrite (keeps_length _ _ K). destruct (i <? 0); [destruct (_ <? 0); auto|]; apply keeps_nth; auto.
  Qed.

  Lemma get_again q q1 ds i o : get split build q i = (q1, Ok o) ->
    exists q3, get split build (reads split build value_eq ds q1) i = (q3, Ok o).
  Proof.
    intros G. pose proof (get_value q i) as H. rewrite G in H. cbn [snd] in H.
    destruct (items q) as [l|e]; [|discriminate]. destruct (nth_item l i) as [[k [v|e]]|]; try discriminate.
    destruct H as (o' & q' & l' & E & Ev & _ & I & N). injection E as <- <-.
    destruct (reads_only ds q1) as (_ & _ & _ & K). rewrite I in K.
    destruct (items (reads split build value_eq ds q1)) as [b|e] eqn:Ib; [|tauto].
    pose proof (nth_item_keeps _ _ i K) as Kn. rewrite N in Kn. destruct (nth_item b i) as [[k2 v2]|] eqn:Nb; [|tauto].
    cbn in Kn. destruct Kn as [<- [X|<-]]; [discriminate|].
    pose proof (get_value (reads split build value_eq ds q1) i) as H. rewrite Ib, Nb in H.
    destruct H as (o2 & q2 & l2 & E2 & Ev2 & [X|[X _]] & _); [|discriminate]. injection X as X. exists q2. rewrite E2. f_equal. f_equal.
    destruct o, o2. cbn in *. congruence.
  Qed.

  (* fresh and distinct are kept *)
  Lemma put_items l n x v (k : Z) y : In (Some k, y) (map item_of (put l n (SObj (Object x v)))) ->
    k = x \/ In (Some k, y) (map item_of l).
  Proof.
    revert n. induction l as [|s l IH]; intros [|n]; cbn; auto.
    - intros [H|H]; [injection H as <- _; auto|auto].
    - intros [H|H]; [auto|]. apply IH in H. tauto.
  Qed.
  Definition tidy q := fresh q /\ distinct q.
  Lemma tidy_ensure q q1 l : ensure split q = (q1, Ok l) -> tidy q -> tidy q1.
  Proof.
    intros E [F D]. destruct (ensure_ok _ _ _ E) as (I & C & _ & _ & N). apply items_some in C.
    split; unfold MemSpec.fresh, MemSpec.distinct in *; rewrite C, <- I, ?N; auto.
  Qed.
  Lemma tidy_lazy q l n q' r : l_children q = Some l -> lazy_child build q l n = (q', r) -> tidy q -> tidy q'.
  Proof.
    intros C L T. pose proof (items_some _ _ C) as I. destruct (lazy_spec _ _ _ _ _ C L) as (_ & _ & [->|(v & N & C')]); auto.
    destruct T as [F D]. apply items_some in C'. split.
    - intros l2 i x E H. rewrite C' in E. injection E as <-. rewrite N. apply put_items in H. destruct H as [->|H]; [lia|].
      specialize (F _ _ _ I H). lia.
    - intros l2 a b i x y E Ha Hb. rewrite C' in E. injection E as <-.
      rewrite nth_error_map in Ha, Hb.
      assert (X : forall m z, option_map item_of (nth_error (put l n (SObj (Object (l_next q) v))) m) = Some (Some i, z) ->
                  (m = n /\ i = l_next q) \/ (i < l_next q /\ nth_error (map item_of l) m = Some (Some i, z))).
      { intros m z H. destruct (Nat.eq_dec m n) as [->|Ne].
        - destruct (nth_error (put l n (SObj (Object (l_next q) v))) n) eqn:P; [|discriminate].
          assert (n < length l)%nat by (rewrite <- (put_length l n (SObj (Object (l_next q) v))); apply nth_error_Some; congruence).
          rewrite put_same in P by auto. injection P as <-. cbn in H. injection H as <- _. auto.
        - rewrite put_other in H by auto. rewrite <- nth_error_map in H. right. split; [|auto].
          eapply F; [exact I|]. eapply nth_error_In; eauto. }
      apply X in Ha. apply X in Hb. destruct Ha as [[-> ->]|[La Ha]], Hb as [[-> Eb]|[Lb Hb]]; auto; try lia.
      eapply D; eauto.
  Qed.
  Lemma tidy_next q n q' r : next_child build q n = (q', r) -> tidy q -> tidy q'.
  Proof.
    unfold next_child. destruct (l_children q) as [l|] eqn:C; [|intros H; injection H as <- <-; auto]. intros H. eapply tidy_lazy; eauto.
  Qed.
  Lemma tidy_ensure_any q q1 r : ensure split q = (q1, r) -> tidy q -> tidy q1.
  Proof. destruct r; intros E T; [eapply tidy_ensure; eauto|]. apply ensure_err in E. destruct E as [_ ->]. auto. Qed.
  Lemma tidy_iter ns : forall q, tidy q -> tidy (fst (iter_from build ns q)).
  Proof.
    induction ns as [|n ns IH]; intros q T; cbn [iter_from fst]; auto.
    destruct (next_child build q n) as [q1 [o|e]] eqn:E; cbn [fst]; [|eapply tidy_next; eauto].
    specialize (IH q1 (tidy_next _ _ _ _ E T)). destruct (iter_from build ns q1). auto.
  Qed.
  Lemma tidy_seek x ns : forall q, tidy q -> tidy (fst (seek build value_eq ns x q)).
  Proof.
    induction ns as [|n ns IH]; intros q T; cbn [seek fst]; auto.
    destruct (next_child build q n) as [q1 [o|e]] eqn:E; cbn [fst]; [|eapply tidy_next; eauto].
    destruct (equal value_eq o x) as [[|]|e]; cbn [fst]; try (eapply tidy_next; eassumption). apply IH. eapply tidy_next; eauto.
  Qed.
  Lemma tidy_get q i : tidy q -> tidy (fst (get split build q i)).
  Proof.
    intros T. unfold get. destruct (ensure split q) as [q1 [l|e]] eqn:E; cbn [fst]; [|eapply tidy_ensure_any; eauto].
    assert (T1 : tidy q1) by (eapply tidy_ensure; eauto).
    destruct (place l i) as [n|]; cbn [fst]; auto. destruct (lazy_child build q1 l n) as [q2 r] eqn:L.
    apply ensure_ok in E. destruct E as (_ & C & _). eapply tidy_lazy; eauto.
  Qed.
  Lemma tidy_read d q : tidy q -> tidy (read_list split build value_eq d q).
  Proof.
    intros T. destruct d; cbn [read_list].
    - unfold length_. destruct (ensure split q) as [q1 r] eqn:E. eapply tidy_ensure_any; eauto.
    - apply tidy_get; auto.
    - unfold get_slice. destruct (ensure split q) as [q1 r] eqn:E. eapply tidy_ensure_any; eauto.
    - unfold iter. destruct (ensure split q) as [q1 [l|e]] eqn:E; cbn [fst]; [|eapply tidy_ensure_any; eauto].
      apply tidy_iter. eapply tidy_ensure; eauto.
    - unfold contains. destruct a as [|x|]; cbn [fst]; auto.
      destruct (ensure split q) as [q1 [l|e]] eqn:E; cbn [fst]; [|eapply tidy_ensure_any; eauto].
      apply tidy_seek. eapply tidy_ensure; eauto.
  Qed.
  Lemma tidy_reads ds : forall q, tidy q -> tidy (reads split build value_eq ds q).
  Proof. induction ds as [|d ds IH]; intros q T; cbn; auto. apply IH, tidy_read, T. Qed.

  Lemma tidy_new c m n : tidy (Lst c None m n).
  Proof.
    split.
    - intros l i x. unfold MemSpec.items. cbn. destruct c as [c|]; cbn.
      + destruct (split c) as [rs|e]; cbn; [|discriminate]. intros E H. injection E as <-. apply in_map_iff in H. destruct H as (r & E & _). discriminate.
      + intros E H. injection E as <-. destruct H.
    - intros l a b i x y. unfold MemSpec.items. cbn. destruct c as [c|]; cbn.
      + destruct (split c) as [rs|e]; cbn; [|discriminate]. intros E H. injection E as <-. rewrite nth_error_map in H. destruct (nth_error rs a); discriminate.
      + intros E H. injection E as <-. destruct a; discriminate.
  Qed.
End Proofs.
