(* Proofs about the ordered dictionary. *)
Require Import Verif.Base Verif.BaseFacts Verif.OrdModel Verif.OrdSpec.
Require Import Coq.Sorting.Permutation.

Lemma split_tail {A} (a c : list A) b d : a ++ [b] = c ++ [d] -> a = c /\ b = d.
Proof. apply app_inj_tail. Qed.
Lemma split_head {A} (a b c d : list A) : length a = length c -> a ++ b = c ++ d -> a = c /\ b = d.
Proof. revert c. induction a as [|x a IH]; intros [|y c] L E; try discriminate; [now split|]. cbn in *. injection L as L. injection E as -> E. destruct (IH c L E). now subst. Qed.
Lemma last_of {A} (x : A) l : exists a p, x :: l = a ++ [p].
Proof. destruct (exists_last (l := x :: l)) as (a & p & E); [discriminate|]. now exists a, p. Qed.

Section OrdProofs.
  Variables K V : Type.
  Variable eqb : K -> K -> bool.
  Hypothesis eqb_ok : forall a b, eqb a b = true <-> a = b.
  Notation od := (od K V).
  Notation cell_at := (cell_at K).
  Notation look := (look K V eqb).
  Notation put := (put K V eqb).
  Notation drop := (drop K V eqb).
  Notation bget := (bget K eqb).

  Lemma eqb_same k : eqb k k = true. Proof. now apply eqb_ok. Qed.
  Lemma eqb_diff a b : a <> b -> eqb a b = false.
  Proof. intro N. destruct (eqb a b) eqn:E; [|reflexivity]. apply eqb_ok in E. contradiction. Qed.
  Lemma eqb_cases a b : (a = b /\ eqb a b = true) \/ (a <> b /\ eqb a b = false).
  Proof. destruct (eqb a b) eqn:E; [left; split; [now apply eqb_ok|auto]|right]. split; [|auto]. intros ->. rewrite eqb_same in E. discriminate. Qed.

  (* ---- the dict underneath ---- *)
  Section Base.
    Context {A : Type}.
    Implicit Types d : list (K * A).
    Lemma bget_in d k v : bget d k = Some v -> In (k, v) d.
    Proof. induction d as [|[a w] d IH]; cbn; [discriminate|]. destruct (eqb_cases a k) as [[-> ->]|[N ->]]; [intro E; injection E as ->; auto|auto]. Qed.
    Lemma in_bget d k v : NoDup (map fst d) -> In (k, v) d -> bget d k = Some v.
    Proof.
      induction d as [|[a w] d IH]; cbn; [tauto|]. intros N [E|I]; inversion N as [|? ? N1 N2]; subst.
      - injection E as -> ->. now rewrite eqb_same.
      - rewrite eqb_diff; auto. intros ->. apply N1. apply (in_map fst) in I. exact I.
    Qed.
    Lemma bget_none d k : bget d k = None <-> ~ In k (map fst d).
    Proof.
      induction d as [|[a w] d IH]; cbn; [tauto|]. destruct (eqb_cases a k) as [[-> ->]|[N ->]].
      - split; [discriminate|tauto].
      - rewrite IH. tauto.
    Qed.
    Lemma bget_perm d d' k : NoDup (map fst d) -> Permutation d d' -> bget d k = bget d' k.
    Proof.
      intros N P. assert (N' : NoDup (map fst d')) by (eapply Permutation_NoDup; [apply Permutation_map, P|exact N]).
      destruct (bget d k) as [v|] eqn:E.
      - symmetry. apply in_bget; auto. eapply Permutation_in; [exact P|]. now apply bget_in.
      - symmetry. apply bget_none. apply bget_none in E. intro I. apply E. eapply Permutation_in; [apply Permutation_map, Permutation_sym, P|exact I].
    Qed.
    Lemma breplace_other d k v k' : k <> k' -> bget (breplace K eqb d k v) k' = bget d k'.
    Proof.
      intro N. induction d as [|[a w] d IH]; cbn [breplace OrdModel.bget]; [reflexivity|]. destruct (eqb a k) eqn:E; cbn [OrdModel.bget].
      - apply eqb_ok in E. subst. now rewrite eqb_diff.
      - now rewrite IH.
    Qed.
    Lemma breplace_same d k v : In k (map fst d) -> bget (breplace K eqb d k v) k = Some v.
    Proof.
      induction d as [|[a w] d IH]; cbn [breplace OrdModel.bget map In fst]; [tauto|]. intro I. destruct (eqb_cases a k) as [[-> E]|[N E]]; rewrite E; cbn [OrdModel.bget]; rewrite E.
      - reflexivity.
      - apply IH. tauto.
    Qed.
    Lemma bput_get d k v k' : bget (bput K eqb d k v) k' = if eqb k k' then Some v else bget d k'.
    Proof.
      unfold bput. destruct (bget d k) as [w|] eqn:E.
      - destruct (eqb_cases k k') as [[-> ->]|[N ->]]; [|now apply breplace_other]. apply breplace_same.
        apply bget_in in E. now apply (in_map fst) in E.
      - reflexivity.
    Qed.
    Lemma bdrop_other d k k' : k <> k' -> bget (bdrop K eqb d k) k' = bget d k'.
    Proof.
      intro N. induction d as [|[a w] d IH]; cbn [bdrop OrdModel.bget]; [reflexivity|]. destruct (eqb a k) eqn:E; cbn [OrdModel.bget].
      - apply eqb_ok in E. subst. now rewrite eqb_diff.
      - now rewrite IH.
    Qed.
  End Base.

  (* ---- the lists of the specification ---- *)
  Implicit Types l : list (K * V).
  Lemma look_bget l k : look l k = bget l k.
  Proof. unfold OrdSpec.look. induction l as [|[a w] l IH]; cbn; [reflexivity|]. unfold is at 1. cbn. destruct (eqb a k); [reflexivity|exact IH]. Qed.
  Lemma there l k : existsb (is K V eqb k) l = match bget l k with Some _ => true | None => false end.
  Proof. induction l as [|[a w] l IH]; cbn; [reflexivity|]. unfold is at 1. cbn. destruct (eqb a k); [reflexivity|exact IH]. Qed.
  Lemma put_keys l k v : map fst (put l k v) = if existsb (is K V eqb k) l then map fst l else map fst l ++ [k].
  Proof.
    unfold OrdSpec.put. destruct (existsb (is K V eqb k) l).
    - rewrite map_map. apply map_ext. intros [a w]. destruct (is K V eqb k (a, w)); reflexivity.
    - now rewrite map_app.
  Qed.
  Lemma put_nodup l k v : NoDup (map fst l) -> NoDup (map fst (put l k v)).
  Proof.
    intro N. rewrite put_keys, there. destruct (bget l k) as [w|] eqn:E; [exact N|].
    apply bget_none in E. apply Permutation_NoDup with (k :: map fst l); [apply Permutation_cons_append|]. now constructor.
  Qed.
  Lemma breplace_map l k v : NoDup (map fst l) -> breplace K eqb l k v = map (fun x => if is K V eqb k x then (fst x, v) else x) l.
  Proof.
    induction l as [|[a w] l IH]; cbn [breplace map fst]; [reflexivity|]. intro N. inversion N as [|? ? N1 N2]; subst. unfold is at 1. cbn [fst].
    destruct (eqb_cases a k) as [[-> ->]|[D ->]].
    - f_equal. rewrite map_ext_in with (g := fun x => x); [now rewrite map_id|]. intros [b u] I. unfold is. cbn.
      rewrite eqb_diff; [reflexivity|]. intros ->. apply N1. now apply (in_map fst) in I.
    - now rewrite IH.
  Qed.
  Lemma put_perm b l k v : NoDup (map fst l) -> Permutation b l -> Permutation (bput K eqb b k v) (put l k v).
  Proof.
    intros N P. assert (Nb : NoDup (map fst b)) by (eapply Permutation_NoDup; [apply Permutation_map, Permutation_sym, P|exact N]).
    unfold bput, OrdSpec.put. rewrite there, (bget_perm b l k Nb P). destruct (bget l k) as [w|].
    - rewrite breplace_map by assumption. now apply Permutation_map.
    - etransitivity; [apply perm_skip, P|]. apply Permutation_cons_append.
  Qed.
  Lemma bdrop_filter l k : NoDup (map fst l) -> bdrop K eqb l k = drop l k.
  Proof.
    unfold OrdSpec.drop. induction l as [|[a w] l IH]; cbn [bdrop map fst filter]; [reflexivity|]. intro N. inversion N as [|? ? N1 N2]; subst. unfold is at 1. cbn [fst].
    destruct (eqb_cases a k) as [[-> ->]|[D ->]]; cbn [negb].
    - clear N IH. induction l as [|[b u] l IH']; [reflexivity|]. cbn [filter]. unfold is at 1. cbn [fst].
      cbn in N1, N2. inversion N2; subst. rewrite eqb_diff by (intros ->; apply N1; now left). cbn [negb]. f_equal. apply IH'; tauto.
    - now rewrite IH.
  Qed.
  Lemma filter_perm (f : K * V -> bool) a b : Permutation a b -> Permutation (filter f a) (filter f b).
  Proof.
    induction 1 as [|x a b P IH|x y a|a b c P IH Q IH']; cbn; auto.
    - destruct (f x); auto.
    - destruct (f x), (f y); auto. apply perm_swap.
    - etransitivity; eauto.
  Qed.
  Lemma drop_perm b l k : NoDup (map fst l) -> Permutation b l -> Permutation (bdrop K eqb b k) (drop l k).
  Proof.
    intros N P. assert (Nb : NoDup (map fst b)) by (eapply Permutation_NoDup; [apply Permutation_map, Permutation_sym, P|exact N]).
    rewrite bdrop_filter by assumption. now apply filter_perm.
  Qed.
  Lemma drop_split l1 k v l2 : NoDup (map fst (l1 ++ (k, v) :: l2)) -> drop (l1 ++ (k, v) :: l2) k = l1 ++ l2.
  Proof.
    intro N. rewrite <- bdrop_filter by assumption. revert N. induction l1 as [|[a w] l1 IH]; cbn [app map fst bdrop]; intro N; inversion N as [|? ? N1 N2]; subst.
    - now rewrite eqb_same.
    - rewrite eqb_diff; [now rewrite IH|]. intros ->. apply N1. rewrite map_app, in_app_iff. right. now left.
  Qed.

  (* ---- the memory ---- *)
  Implicit Types h : memory K.
  Lemma change_length h n f : length (change K h n f) = length h.
  Proof. revert n. induction h as [|c h IH]; intros [|n]; cbn; auto. Qed.
  Lemma change_at h n f x : (x < length h)%nat -> cell_at (change K h n f) x = if Nat.eqb x n then f (cell_at h x) else cell_at h x.
  Proof.
    unfold OrdModel.cell_at. revert n x. induction h as [|c h IH]; intros [|n] [|x] L; cbn [change nth length Nat.eqb] in *; try reflexivity; try lia.
    apply IH. lia.
  Qed.
  Lemma app_at h c x : cell_at (h ++ [c]) x = if Nat.eqb x (length h) then c else cell_at h x.
  Proof.
    unfold OrdModel.cell_at. destruct (Nat.eqb_spec x (length h)) as [->|N].
    - rewrite app_nth2 by lia. now rewrite Nat.sub_diag.
    - destruct (Nat.lt_ge_cases x (length h)); [now rewrite app_nth1|]. rewrite !nth_overflow; [reflexivity|lia|rewrite app_length; cbn; lia].
  Qed.

  (* the cells [cs] in a ring with [e] *)
  Definition nx h c := c_next K (cell_at h c).
  Definition pv h c := c_prev K (cell_at h c).
  Definition ring h (e : nat) (cs : list nat) : Prop :=
    NoDup (e :: cs) /\ Forall (fun c => (c < length h)%nat) (e :: cs) /\
    map (nx h) (e :: cs) = cs ++ [e] /\ map (pv h) (cs ++ [e]) = e :: cs.
  Definition agrees (d : od) l : Prop := exists cs,
    ring (o_mem K V d) (o_end K V d) cs /\
    Forall2 (fun c x => c_key K (cell_at (o_mem K V d) c) = Some (fst x) /\ bget (o_map K V d) (fst x) = Some c) cs l /\
    Permutation (o_items K V d) l /\ NoDup (map fst l).

  Lemma walk_ring link h e : forall cs ks fuel, ~ In e cs -> Forall2 (fun c k => c_key K (cell_at h c) = Some k) cs ks ->
    (length cs <= fuel)%nat -> forall c, c :: map (fun x => link (cell_at h x)) cs = cs ++ [e] -> walk K fuel link h e c = Ok ks.
  Proof.
    induction cs as [|x cs IH]; intros ks fuel N F L c E; inversion F as [|? k ? ks' Fk Fr]; subst; cbn [map app length In] in *.
    - injection E as ->. destruct fuel; cbn [walk]; now rewrite Nat.eqb_refl.
    - injection E as -> E. destruct fuel as [|fuel]; [lia|]. cbn [walk]. destruct (Nat.eqb_spec x e) as [->|D]; [tauto|].
      rewrite Fk. cbn [bind]. rewrite (IH ks' fuel) by (auto; lia). reflexivity.
  Qed.
  Lemma ring_small h e cs : ring h e cs -> (length cs <= length h)%nat.
  Proof.
    intros (N & F & _). assert (I : incl (e :: cs) (seq 0 (length h))).
    { intros x H. rewrite Forall_forall in F. apply in_seq. specialize (F x H). lia. }
    apply (NoDup_incl_length N) in I. rewrite seq_length in I. cbn in I. lia.
  Qed.
  Lemma keys_of d cs l : Forall2 (fun c x => c_key K (cell_at (o_mem K V d) c) = Some (fst x) /\ bget (o_map K V d) (fst x) = Some c) cs l ->
    Forall2 (fun c k => c_key K (cell_at (o_mem K V d) c) = Some k) cs (map fst l).
  Proof. induction 1 as [|c x cs l [A _] F IH]; cbn; constructor; auto. Qed.
  Lemma iter_agrees d l : agrees d l -> iter K V d = Ok (map fst l).
  Proof.
    intros (cs & R & F & _). pose proof (ring_small _ _ _ R) as S. destruct R as (N & B & X & P). unfold iter.
    inversion N; subst. eapply walk_ring; eauto using keys_of.
  Qed.
  Lemma reversed_agrees d l : agrees d l -> reversed_iter K V d = Ok (rev (map fst l)).
  Proof.
    intros (cs & R & F & _). pose proof (ring_small _ _ _ R) as S. destruct R as (N & B & X & P). unfold reversed_iter.
    inversion N as [|? ? N1 N2]; subst. apply walk_ring with (cs := rev cs).
    - now rewrite <- in_rev.
    - apply keys_of in F. clear -F. induction F; cbn; [constructor|]. apply Forall2_app; auto.
    - now rewrite rev_length.
    - apply (f_equal (@rev nat)) in P. rewrite map_app, rev_app_distr in P. cbn [map rev app] in P. rewrite <- map_rev in P. exact P.
  Qed.
  Lemma get_agrees d l k : agrees d l -> getitem K V eqb d k = match look l k with Some v => Ok v | None => Err KeyError end.
  Proof.
    intros (cs & _ & _ & P & N). unfold getitem. rewrite look_bget.
    rewrite (bget_perm (o_items K V d) l k); auto. eapply Permutation_NoDup; [apply Permutation_map, Permutation_sym, P|exact N].
  Qed.
  Lemma size_agrees d l : agrees d l -> size K V d = len l.
  Proof. intros (cs & _ & _ & P & N). unfold size, len. now rewrite (Permutation_length P). Qed.
  Lemma with_values_all d l : agrees d l -> forall m, incl m l -> with_values K V eqb d (map fst m) = Ok m.
  Proof.
    intros A. induction m as [|[k v] m IH]; intro I; cbn [map with_values fst]; [reflexivity|].
    rewrite (get_agrees d l k A), look_bget. pose proof A as (cs & _ & _ & _ & N). rewrite (in_bget l k v N) by (apply I; now left).
    cbn [bind]. rewrite IH by (intros x H; apply I; now right). reflexivity.
  Qed.
  Lemma items_agrees d l : agrees d l -> items K V eqb d = Ok l.
  Proof. intro A. unfold items. rewrite (iter_agrees d l A). cbn [bind]. apply (with_values_all d l A). now intro. Qed.

  Lemma clear_agrees d : agrees (clear K V d) [].
  Proof.
    exists []. unfold clear. cbn [o_mem o_end o_map o_items]. split; [|split; [constructor|split; constructor]].
    split; [constructor; [tauto|constructor]|]. split; [constructor; [rewrite app_length; cbn; lia|constructor]|].
    unfold nx, pv. cbn [map app]. rewrite app_at, Nat.eqb_refl. split; reflexivity.
  Qed.

  Lemma set_agrees d l k v : agrees d l -> agrees (setitem K V eqb d k v) (put l k v).
  Proof.
    intros (cs & R & F & P & N). unfold setitem, has.
    assert (G : bget (o_items K V d) k = bget l k).
    { apply bget_perm; auto. eapply Permutation_NoDup; [apply Permutation_map, Permutation_sym, P|exact N]. }
    rewrite G. destruct (bget l k) as [w|] eqn:E.
    - exists cs. cbn [o_mem o_end o_map o_items]. split; [exact R|]. split; [|split; [now apply put_perm|now apply put_nodup]].
      unfold OrdSpec.put. rewrite there, E. clear -F. induction F as [|c x cs l H F IH]; cbn; constructor; auto.
      destruct (is K V eqb k x); exact H.
    - destruct R as (ND & B & X & Y). destruct d as [m e mp it]. cbn [o_mem o_end o_map o_items] in *.
      set (n := length m). set (curr := c_prev K (cell_at m e)).
      assert (Bn : Forall (fun c => c <> n) (e :: cs)) by (eapply Forall_impl; [|exact B]; cbn; unfold n; lia).
      rewrite map_app in Y. cbn [map] in Y. destruct (last_of e cs) as (a & p & L). rewrite L in Y. apply split_tail in Y. destruct Y as [Y1 Y2].
      unfold pv in Y2. fold curr in Y2. subst p.
      rewrite L, map_app in X. cbn [map] in X. apply split_tail in X. destruct X as [X1 X2].
      set (m1 := m ++ [C K (Some k) curr e]). set (m2 := change K m1 curr (set_next K n)). set (m3 := change K m2 e (set_prev K n)).
      assert (Lm : length m1 = S n) by (unfold m1; rewrite app_length; cbn; unfold n; lia).
      assert (At : forall x, (x <= n)%nat -> cell_at m3 x =
        let c := if Nat.eqb x n then C K (Some k) curr e else cell_at m x in
        let c := if Nat.eqb x curr then set_next K n c else c in
        if Nat.eqb x e then set_prev K n c else c).
      { intros x Hx. unfold m3. rewrite change_at by (unfold m2; rewrite change_length; lia). unfold m2. rewrite change_at by lia.
        unfold m1. rewrite app_at. reflexivity. }
      assert (Ic : In curr (e :: cs)) by (rewrite L; apply in_app_iff; right; now left).
      assert (He : (e < n)%nat) by (inversion B; assumption).
      assert (Hc : (curr < n)%nat) by (rewrite Forall_forall in B; now apply B).
      assert (Key : forall x, (x < n)%nat -> c_key K (cell_at m3 x) = c_key K (cell_at m x)).
      { intros x Hx. rewrite At by lia. cbv zeta. destruct (Nat.eqb_spec x n); [lia|]. destruct (Nat.eqb x e), (Nat.eqb x curr); reflexivity. }
      assert (Nxt : forall x, (x < n)%nat -> x <> curr -> nx m3 x = nx m x).
      { intros x Hx D. unfold nx. rewrite At by lia. cbv zeta. destruct (Nat.eqb_spec x n); [lia|]. destruct (Nat.eqb_spec x curr); [contradiction|].
        destruct (Nat.eqb x e); reflexivity. }
      assert (Prv : forall x, (x < n)%nat -> x <> e -> pv m3 x = pv m x).
      { intros x Hx D. unfold pv. rewrite At by lia. cbv zeta. destruct (Nat.eqb_spec x n); [lia|]. destruct (Nat.eqb_spec x e); [contradiction|].
        destruct (Nat.eqb x curr); reflexivity. }
      exists (cs ++ [n]). cbn [o_mem o_end o_map o_items]. fold n curr m1 m2 m3.
      assert (NDa : NoDup (a ++ [curr])) by (now rewrite <- L). 
      assert (Da : forall x, In x a -> x <> curr).
      { intros x I ->. apply NoDup_remove_2 in NDa. rewrite app_nil_r in NDa. contradiction. }
      assert (Ba : forall x, In x a -> (x < n)%nat).
      { intros x I. rewrite Forall_forall in B. apply B. rewrite L. apply in_app_iff. now left. }
      assert (Bc : forall x, In x cs -> (x < n)%nat) by (intros x I; rewrite Forall_forall in B; apply B; now right).
      split; [split; [|split; [|split]]|split; [|split; [now apply put_perm|now apply put_nodup]]].
      + change (e :: cs ++ [n]) with ((e :: cs) ++ [n]). eapply Permutation_NoDup; [apply Permutation_cons_append|]. constructor; [|exact ND].
        intro I. rewrite Forall_forall in Bn. exact (Bn n I eq_refl).
      + unfold m3, m2. rewrite !change_length, Lm. change (e :: cs ++ [n]) with ((e :: cs) ++ [n]). apply Forall_app. split; [|constructor; auto].
        eapply Forall_impl; [|exact B]. cbn. unfold n. lia.
      + change (e :: cs ++ [n]) with ((e :: cs) ++ [n]). rewrite L, <- !app_assoc, !map_app. cbn [map app].
        rewrite (map_ext_in (nx m3) (nx m)) by (intros x I; apply Nxt; auto). rewrite X1.
        unfold nx. rewrite !At by lia. cbv zeta. rewrite !Nat.eqb_refl.
        destruct (Nat.eqb_spec curr n); [lia|]. destruct (Nat.eqb_spec n curr); [lia|]. destruct (Nat.eqb_spec n e); [lia|].
        destruct (Nat.eqb curr e); reflexivity.
      + rewrite <- app_assoc, map_app. cbn [map app]. change (e :: cs ++ [n]) with ((e :: cs) ++ [n]). rewrite L, <- app_assoc. cbn [app].
        rewrite (map_ext_in (pv m3) (pv m)) by (intros x I; apply Prv; auto; intros ->; now inversion ND). rewrite Y1.
        unfold pv. rewrite !At by lia. cbv zeta. rewrite !Nat.eqb_refl.
        destruct (Nat.eqb_spec e n); [lia|]. destruct (Nat.eqb_spec n curr); [lia|]. destruct (Nat.eqb_spec n e); [lia|].
        destruct (Nat.eqb e curr); reflexivity.
      + unfold OrdSpec.put. rewrite there, E. apply Forall2_app.
        * assert (Fk : forall x, In x l -> fst x <> k).
          { intros x I Q. apply bget_none in E. apply E. rewrite <- Q. now apply in_map. }
          clear -F Key Fk Bc eqb_ok. induction F as [|c x cs l [H1 H2] F IH]; constructor.
          -- split; [rewrite Key; [exact H1|apply Bc; now left]|]. rewrite bput_get, eqb_diff; [exact H2|]. intro Q. apply (Fk x); [now left|auto].
          -- apply IH; intros; [apply Bc|apply Fk]; now right.
        * constructor; [|constructor]. cbn [fst]. rewrite bput_get, eqb_same. split; [|reflexivity].
          rewrite At by lia. cbv zeta. rewrite Nat.eqb_refl. destruct (Nat.eqb_spec n curr); [lia|]. destruct (Nat.eqb_spec n e); [lia|]. reflexivity.
  Qed.

  Lemma del_agrees d l1 k v l2 : agrees d (l1 ++ (k, v) :: l2) -> exists d', delitem K V eqb d k = (d', Ok tt) /\ agrees d' (l1 ++ l2).
  Proof.
    intros (cs & R & F & P & N). set (l := l1 ++ (k, v) :: l2) in *.
    assert (G : bget (o_items K V d) k = Some v).
    { rewrite (bget_perm _ l k); [|eapply Permutation_NoDup; [apply Permutation_map, Permutation_sym, P|exact N]|exact P].
      apply in_bget; auto. apply in_app_iff. right. now left. }
    unfold delitem. rewrite G. apply Forall2_app_inv_r in F. destruct F as (bs & rs & F1 & F2 & ->). inversion F2 as [|n x ds l2' [Kn Mn] F3]; subst.
    cbn [fst] in Kn, Mn. rewrite Mn. eexists. split; [reflexivity|].
    destruct d as [m e mp it]. cbn [o_mem o_end o_map o_items] in *. destruct R as (ND & B & X & Y).
    change (e :: bs ++ n :: ds) with ((e :: bs) ++ n :: ds) in X, Y. rewrite map_app in X.
    replace ((bs ++ n :: ds) ++ [e]) with ((bs ++ [n]) ++ (ds ++ [e])) in X by (rewrite <- !app_assoc; reflexivity).
    apply split_head in X; [|rewrite app_length, map_length; cbn; lia]. destruct X as [X1 X2]. cbn [map] in X2.
    destruct (last_of e bs) as (a & p & L). rewrite L, map_app in X1. cbn [map] in X1. apply split_tail in X1. destruct X1 as [X1 X1'].
    rewrite <- app_assoc in Y. change ((n :: ds) ++ [e]) with (n :: ds ++ [e]) in Y.
    rewrite <- X2 in Y. rewrite map_app in Y. cbn [map] in Y. rewrite L, <- app_assoc in Y.
    assert (La : length bs = length a) by (apply (f_equal (@length nat)) in L; rewrite app_length in L; cbn in L; lia).
    apply split_head in Y; [|rewrite map_length; exact La]. destruct Y as [Y1 Y2]. cbn [app] in Y2. injection Y2 as Y2 Y3 Y4.
    unfold nx in X2 at 1. unfold pv in Y2. rewrite Y2.
    set (q := c_next K (cell_at m n)) in *. set (m1 := change K m p (set_next K q)). set (m2 := change K m1 q (set_prev K p)).
    assert (At : forall x, (x < length m)%nat -> cell_at m2 x =
      let c := if Nat.eqb x p then set_next K q (cell_at m x) else cell_at m x in if Nat.eqb x q then set_prev K p c else c).
    { intros x Hx. unfold m2. rewrite change_at by (unfold m1; rewrite change_length; exact Hx). unfold m1. rewrite change_at by exact Hx. reflexivity. }
    assert (Key : forall x, (x < length m)%nat -> c_key K (cell_at m2 x) = c_key K (cell_at m x)).
    { intros x Hx. rewrite At by lia. cbv zeta. destruct (Nat.eqb x p), (Nat.eqb x q); reflexivity. }
    assert (Nxt : forall x, (x < length m)%nat -> x <> p -> nx m2 x = nx m x).
    { intros x Hx D. unfold nx. rewrite At by lia. cbv zeta. destruct (Nat.eqb_spec x p); [contradiction|]. destruct (Nat.eqb x q); reflexivity. }
    assert (Prv : forall x, (x < length m)%nat -> x <> q -> pv m2 x = pv m x).
    { intros x Hx D. unfold pv. rewrite At by lia. cbv zeta. destruct (Nat.eqb_spec x q); [contradiction|]. destruct (Nat.eqb x p); reflexivity. }
    rewrite Forall_forall in B. assert (Bb : forall x, In x (e :: bs ++ ds) -> (x < length m)%nat).
    { intros x I. apply B. cbn in I |- *. rewrite in_app_iff in *. cbn. tauto. }
    assert (Ip : In p (e :: bs)) by (rewrite L; apply in_app_iff; right; now left).
    assert (Iq : In q (ds ++ [e])) by (rewrite <- X2; now left).
    assert (ND1 : NoDup (e :: bs ++ ds)).
    { change (e :: bs ++ n :: ds) with ((e :: bs) ++ n :: ds) in ND. apply NoDup_remove_1 in ND. exact ND. }
    assert (Hp : (p < length m)%nat) by (apply Bb; cbn in *; rewrite in_app_iff; tauto).
    assert (Hq : (q < length m)%nat) by (apply Bb; cbn in *; rewrite in_app_iff in *; cbn in Iq; tauto).
    assert (NDe : ~ In e (bs ++ ds) /\ NoDup (bs ++ ds)) by (inversion ND1; split; assumption). destruct NDe as [NDe NDr].
    exists (bs ++ ds). cbn [o_mem o_end o_map o_items]. fold q m1 m2.
    split; [split; [exact ND1|split; [|split]]|split; [|split]].
    - unfold m2, m1. rewrite !change_length, Forall_forall. exact Bb.
    - change (e :: bs ++ ds) with ((e :: bs) ++ ds). rewrite L, !map_app, <- app_assoc. cbn [map].
      assert (Da : forall x, In x a -> x <> p).
      { intros x I ->. change (e :: bs ++ ds) with ((e :: bs) ++ ds) in ND1. rewrite L, <- app_assoc in ND1. apply NoDup_remove_2 in ND1.
        apply ND1. apply in_app_iff. now left. }
      rewrite (map_ext_in (nx m2) (nx m) a).
      2:{ intros x I. apply Nxt; [|now apply Da]. apply Bb. change (e :: bs ++ ds) with ((e :: bs) ++ ds). rewrite L, <- app_assoc. apply in_app_iff. now left. }
      rewrite (map_ext_in (nx m2) (nx m) ds).
      2:{ intros x I. apply Nxt; [apply Bb; right; apply in_app_iff; now right|]. intros ->.
          change (e :: bs ++ ds) with ((e :: bs) ++ ds) in ND1. rewrite L in ND1. rewrite <- app_assoc in ND1. cbn [app] in ND1. apply NoDup_remove_2 in ND1. apply ND1. apply in_app_iff. now right. }
      rewrite X1, <- app_assoc. f_equal. cbn [app]. rewrite <- X2. f_equal.
      unfold nx. rewrite At by exact Hp. cbv zeta. rewrite Nat.eqb_refl. destruct (Nat.eqb p q); reflexivity.
    - rewrite <- app_assoc, <- X2, map_app. cbn [map].
      assert (Dq : NoDup (bs ++ (q :: map (nx m) ds))).
      { rewrite X2, app_assoc. eapply Permutation_NoDup; [apply Permutation_cons_append|]. exact ND1. }
      rewrite (map_ext_in (pv m2) (pv m) bs).
      2:{ intros x I. apply Prv; [apply Bb; right; apply in_app_iff; now left|]. intros ->. apply NoDup_remove_2 in Dq. apply Dq. apply in_app_iff. now left. }
      rewrite (map_ext_in (pv m2) (pv m) (map (nx m) ds)).
      2:{ intros x I. apply Prv.
          - apply Bb. assert (J : In x (ds ++ [e])) by (rewrite <- X2; now right). apply in_app_iff in J. cbn in J |- *. rewrite in_app_iff. tauto.
          - intros ->. apply NoDup_remove_2 in Dq. apply Dq. apply in_app_iff. now right. }
      rewrite Y1, Y4. change (e :: bs ++ ds) with ((e :: bs) ++ ds). rewrite L, <- app_assoc. cbn [app]. f_equal. f_equal.
      unfold pv. rewrite At by exact Hq. cbv zeta. rewrite Nat.eqb_refl. reflexivity.
    - assert (Nk : forall x, In x (l1 ++ l2) -> fst x <> k).
      { intros x I Q. unfold l in N. rewrite map_app in N. cbn [map fst] in N. apply NoDup_remove_2 in N. apply N. rewrite <- map_app, <- Q. now apply in_map. }
      assert (FF : Forall2 (fun c x => c_key K (cell_at m c) = Some (fst x) /\ bget mp (fst x) = Some c) (bs ++ ds) (l1 ++ l2)) by now apply Forall2_app.
      assert (Bb' : forall x, In x (bs ++ ds) -> (x < length m)%nat) by (intros x I; apply Bb; now right).
      clear -FF Nk Bb' Key eqb_ok. induction FF as [|c x cs l [H1 H2] F IH]; constructor.
      + split; [rewrite Key; [exact H1|apply Bb'; now left]|]. rewrite bdrop_other; [exact H2|]. intro Q. apply (Nk x); [now left|auto].
      + apply IH; intros; [apply Nk|apply Bb']; now right.
    - rewrite <- (drop_split l1 k v l2) by exact N. now apply drop_perm.
    - unfold l in N. rewrite map_app in N |- *. cbn [map fst] in N. now apply NoDup_remove_1 in N.
  Qed.
  Lemma del_absent d l k : agrees d l -> look l k = None -> delitem K V eqb d k = (d, Err KeyError).
  Proof.
    intros A E. pose proof (get_agrees d l k A) as G. rewrite E in G. unfold getitem in G. unfold delitem. destruct (bget (o_items K V d) k); [discriminate|reflexivity].
  Qed.
  Lemma look_split l k v : look l k = Some v -> exists l1 l2, l = l1 ++ (k, v) :: l2.
  Proof. rewrite look_bget. intro E. apply bget_in in E. now apply in_split. Qed.
  Lemma del_present d l k v : agrees d l -> look l k = Some v -> exists d', delitem K V eqb d k = (d', Ok tt) /\ agrees d' (drop l k).
  Proof.
    intros A E. destruct (look_split l k v E) as (l1 & l2 & ->). destruct (del_agrees d l1 k v l2 A) as (d' & D & A').
    exists d'. split; [exact D|]. rewrite drop_split; [exact A'|]. now destruct A as (? & _ & _ & _ & N).
  Qed.
  Lemma update_agrees m : forall d l, agrees d l -> agrees (update K V eqb d m) (puts K V eqb l m).
  Proof. induction m as [|[k v] m IH]; intros d l A; [exact A|]. cbn. apply IH. now apply set_agrees. Qed.
  Lemma new_agrees : agrees (new_od K V) [].
  Proof. apply clear_agrees. Qed.
  Lemma pop_some d l k v : agrees d l -> look l k = Some v -> exists d', pop K V eqb d k = (d', Ok v) /\ agrees d' (drop l k).
  Proof.
    intros A E. destruct (del_present d l k v A E) as (d' & D & A'). exists d'. split; [|exact A'].
    unfold pop. rewrite (get_agrees d l k A), E, D. reflexivity.
  Qed.

  Lemma step_agrees d l o : agrees d l ->
    exists d', step K V eqb d o = (d', snd (wanted K V eqb l o)) /\ agrees d' (fst (wanted K V eqb l o)).
  Proof.
    intro A. destruct o as [k v|k| |m|m|k|k v|k v|last]; cbn [step wanted].
    - eexists. split; [reflexivity|]. now apply set_agrees.
    - destruct (look l k) as [v|] eqn:E.
      + destruct (del_present d l k v A E) as (d' & -> & A'). now exists d'.
      + rewrite (del_absent d l k A E). now exists d.
    - eexists. split; [reflexivity|]. apply clear_agrees.
    - eexists. split; [reflexivity|]. now apply update_agrees.
    - eexists. split; [reflexivity|]. now apply update_agrees.
    - destruct (look l k) as [v|] eqn:E.
      + destruct (pop_some d l k v A E) as (d' & -> & A'). now exists d'.
      + unfold pop. rewrite (get_agrees d l k A), E. now exists d.
    - destruct (look l k) as [w|] eqn:E.
      + destruct (del_present d l k w A E) as (d' & D & A'). exists d'. unfold pop_default. rewrite (get_agrees d l k A), E, D. now split.
      + unfold pop_default. rewrite (get_agrees d l k A), E. now exists d.
    - unfold setdefault. rewrite (get_agrees d l k A). destruct (look l k) as [w|] eqn:E; [now exists d|].
      eexists. split; [reflexivity|]. now apply set_agrees.
    - unfold popitem. rewrite (size_agrees d l A). pose proof A as (cs & (ND & B & X & Y) & F & P & N).
      destruct last.
      + destruct (rev l) as [|[k v] r] eqn:E.
        * assert (l = []) by (apply (f_equal (@rev _)) in E; now rewrite rev_involutive in E). subst. cbn. now exists d.
        * assert (L : l = rev r ++ [(k, v)]) by (apply (f_equal (@rev _)) in E; now rewrite rev_involutive in E).
          subst l. replace (len (rev r ++ [(k, v)]) =? 0) with false by (symmetry; apply Z.eqb_neq; unfold len; rewrite app_length; cbn [length]; lia).
          apply Forall2_app_inv_r in F. destruct F as (bs & rs & F1 & F2 & ->). inversion F2 as [|n x ds l2' [Kn Mn] F3]; subst. inversion F3; subst.
          assert (Pe : c_prev K (cell_at (o_mem K V d) (o_end K V d)) = n).
          { rewrite map_app in Y. cbn [map] in Y. change (o_end K V d :: bs ++ [n]) with ((o_end K V d :: bs) ++ [n]) in Y. now apply split_tail in Y. }
          rewrite Pe. unfold first_key. destruct (Nat.eqb_spec n (o_end K V d)) as [->|D].
          { exfalso. inversion ND as [|? ? Q _]. apply Q. apply in_app_iff. right. now left. }
          rewrite Kn. cbn [fst]. assert (Lk : look (rev r ++ [(k, v)]) k = Some v).
          { rewrite look_bget. apply in_bget; auto. apply in_app_iff. right. now left. }
          destruct (pop_some d _ k v A Lk) as (d' & -> & A'). exists d'. cbn [fst snd]. split; [reflexivity|].
          rewrite drop_split in A' by exact N. now rewrite app_nil_r in A'.
      + destruct l as [|[k v] r]; [cbn; now exists d|].
        replace (len ((k, v) :: r) =? 0) with false by (symmetry; apply Z.eqb_neq; unfold len; cbn [length]; lia).
        inversion F as [|n x ds l2' [Kn Mn] F3]; subst. cbn [map app] in X. injection X as X1 X2. unfold nx in X1. rewrite X1.
        unfold first_key. destruct (Nat.eqb_spec n (o_end K V d)) as [->|D].
        { exfalso. inversion ND as [|? ? Q _]. apply Q. now left. }
        rewrite Kn. cbn [fst]. assert (Lk : look ((k, v) :: r) k = Some v).
        { rewrite look_bget. apply in_bget; auto. now left. }
        destruct (pop_some d _ k v A Lk) as (d' & -> & A'). exists d'. cbn [fst snd]. split; [reflexivity|].
        pose proof (drop_split [] k v r N) as Q. cbn [app] in Q. rewrite Q in A'. exact A'.
  Qed.
  Lemma run_agrees os : forall d l, agrees d l ->
    snd (run K V eqb d os) = snd (wanted_run K V eqb l os) /\ agrees (fst (run K V eqb d os)) (fst (wanted_run K V eqb l os)).
  Proof.
    induction os as [|o os IH]; intros d l A; [now split|]. cbn [run wanted_run].
    destruct (step_agrees d l o A) as (d' & -> & A'). destruct (wanted K V eqb l o) as [l1 r]. cbn [fst snd] in *.
    destruct (IH d' l1 A') as [I1 I2]. destruct (run K V eqb d' os), (wanted_run K V eqb l1 os). cbn [fst snd] in *. split; [now f_equal|exact I2].
  Qed.
  Lemma puts_nodup m : forall l, NoDup (map fst l) -> NoDup (map fst (puts K V eqb l m)).
  Proof. induction m as [|[k v] m IH]; intros l N; [exact N|]. cbn. apply IH. now apply put_nodup. Qed.
  (* rebuilding from the items gives the items *)
  Lemma puts_all m : forall l, NoDup (map fst (l ++ m)) -> puts K V eqb l m = l ++ m.
  Proof.
    induction m as [|[k v] m IH]; intros l N; [now rewrite app_nil_r|]. cbn [puts fold_left fst snd].
    change (puts K V eqb (put l k v) m = l ++ (k, v) :: m).
    assert (E : put l k v = l ++ [(k, v)]).
    { unfold OrdSpec.put. rewrite there. replace (bget l k) with (@None V); [reflexivity|]. symmetry. apply bget_none.
      rewrite map_app in N. cbn [map fst] in N. apply NoDup_remove_2 in N. intro I. apply N. apply in_app_iff. now left. }
    rewrite E, IH; rewrite <- app_assoc; [reflexivity|exact N].
  Qed.
  Lemma copy_agrees d l : agrees d l -> exists c, copy K V eqb d = Ok c /\ agrees c l.
  Proof.
    intro A. unfold copy. rewrite (items_agrees d l A). cbn [bind]. eexists. split; [reflexivity|]. unfold of_items.
    pose proof (update_agrees l _ _ new_agrees) as U. rewrite puts_all in U; [exact U|]. now destruct A as (? & _ & _ & _ & N).
  Qed.

  (* ---- comparison ---- *)
  Variable veqb : V -> V -> bool.
  Hypothesis veqb_ok : forall a b, veqb a b = true <-> a = b.
  Lemma pairs_equal_ok a : forall b, length a = length b -> pairs_equal K V eqb veqb a b = true <-> a = b.
  Proof.
    induction a as [|[k v] a IH]; intros [|[k' v'] b] L; try discriminate; cbn [pairs_equal fst snd]; [tauto|].
    injection L as L. destruct (eqb k k' && veqb v v') eqn:E.
    - apply andb_true_iff in E. rewrite eqb_ok, veqb_ok in E. destruct E as [-> ->]. rewrite (IH b L). split; [now intros ->|congruence].
    - split; [discriminate|]. intro Q. injection Q as -> -> ->. rewrite eqb_same in E. cbn in E. assert (veqb v' v' = true) by now apply veqb_ok. congruence.
  Qed.
  Lemma equal_agrees d l d' l' : agrees d l -> agrees d' l' ->
    exists b, equal K V eqb veqb d d' = Ok b /\ unequal K V eqb veqb d d' = Ok (negb b) /\ (b = true <-> l = l').
  Proof.
    intros A A'. unfold unequal, equal. rewrite (size_agrees d l A), (size_agrees d' l' A'), (items_agrees d l A), (items_agrees d' l' A').
    cbn [bind]. destruct (len l =? len l') eqn:E; cbn [negb].
    - eexists. split; [reflexivity|]. split; [reflexivity|]. apply pairs_equal_ok. apply Z.eqb_eq in E. unfold len in E. lia.
    - exists false. split; [reflexivity|]. split; [reflexivity|]. split; [discriminate|]. intros ->. now rewrite Z.eqb_refl in E.
  Qed.
  Lemma equal_dict_agrees d l o : agrees d l -> NoDup (map fst o) ->
    equal_dict K V eqb veqb d o = true <-> Permutation l o.
  Proof.
    intros A No. unfold equal_dict. rewrite (size_agrees d l A). pose proof A as (cs & _ & _ & P & N).
    rewrite andb_true_iff, Z.eqb_eq, forallb_forall. split.
    - intros [L F]. apply NoDup_Permutation_bis.
      + now apply NoDup_map_inv in N.
      + unfold len in L. lia.
      + intros [k v] I. specialize (F (k, v)). cbn [fst snd] in F. assert (J : In (k, v) (o_items K V d)) by (eapply Permutation_in; [apply Permutation_sym, P|exact I]).
        specialize (F J). destruct (bget o k) as [w|] eqn:E; [|discriminate]. apply veqb_ok in F. subst. now apply bget_in.
    - intro Q. split; [unfold len; now rewrite (Permutation_length Q)|]. intros [k v] I. cbn [fst snd].
      rewrite (in_bget o k v No); [now apply veqb_ok|]. eapply Permutation_in; [exact Q|]. eapply Permutation_in; [exact P|exact I].
  Qed.
End OrdProofs.
