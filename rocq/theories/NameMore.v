(* Name.build, Name.native and Name.human_friendly. *)
Require Import Permutation Sorted.
Require Import Verif.Base Verif.BaseFacts Verif.Text Verif.NameModel Verif.NameSpec Verif.NameSort Verif.NameProofs.

(* ---- build ---- *)
Definition item_leb {A} (x y : text * A) : bool := ord_leb (ordinal (fst x)) (ordinal (fst y)).
Lemma insert_item_ins {A} (x : text * A) l : insert_item x l = ins item_leb x l.
Proof. induction l as [|y r IH]; cbn [insert_item ins]; [reflexivity|]. rewrite IH. reflexivity. Qed.
Lemma sort_items_sort {A} (l : list (text * A)) : sort_items l = sort item_leb l.
Proof.
  unfold sort_items, sort. generalize (@nil (text * A)).
  induction l as [|x l IH]; intros s; cbn [fold_left]; [reflexivity|]. rewrite insert_item_ins. apply IH.
Qed.
Lemma ord_iff a b : ord_leb (ordinal a) (ordinal b) = true <-> comes_before (map_type a) (map_type b).
Proof.
  unfold ord_leb, ordinal, comes_before. cbn [fst snd].
  rewrite orb_true_iff, andb_true_iff, Z.ltb_lt, Z.eqb_eq. reflexivity.
Qed.
Lemma before_total a b : comes_before a b \/ comes_before b a.
Proof.
  unfold comes_before. destruct (text_leb_total a b);
    destruct (Z.lt_trichotomy (index_of a preferred_order) (index_of b preferred_order)) as [?|[?|?]]; auto.
Qed.
Lemma before_trans a b c : comes_before a b -> comes_before b c -> comes_before a c.
Proof.
  unfold comes_before. intros [H|[H H']] [K|[K K']]; try (left; lia).
  right. split; [lia|]. eapply text_leb_trans; eassumption.
Qed.
Lemma before_anti a b : comes_before a b -> comes_before b a -> a = b.
Proof.
  unfold comes_before. intros [H|[H H']] [K|[K K']]; try lia. apply text_leb_anti; assumption.
Qed.
Lemma item_total {A} (x y : text * A) : le item_leb x y \/ le item_leb y x.
Proof. unfold le, item_leb. rewrite !ord_iff. apply before_total. Qed.
Lemma item_trans {A} (x y z : text * A) : le item_leb x y -> le item_leb y z -> le item_leb x z.
Proof. unfold le, item_leb. rewrite !ord_iff. apply before_trans. Qed.

Definition key_types {A} (d : list (text * A)) : list text := map (fun kv => map_type (fst kv)) d.
Lemma nodup_same {A B} (f : A -> B) l x y : NoDup (map f l) -> In x l -> In y l -> f x = f y -> x = y.
Proof.
  induction l as [|z l IH]; cbn [map In]; [intros _ []|]. intros N Hx Hy E. inversion N as [|? ? Nz N']; subst.
  destruct Hx as [->|Hx], Hy as [->|Hy]; auto.
  - exfalso. apply Nz. rewrite E. apply in_map, Hy.
  - exfalso. apply Nz. rewrite <- E. apply in_map, Hx.
Qed.
Lemma build_order make d d' : Permutation d d' -> NoDup (key_types d) -> build make d = build make d'.
Proof.
  intros P N. unfold build. rewrite !sort_items_sort. f_equal.
  apply sort_unique; [apply item_total|apply item_trans|exact P|].
  intros x y Hx Hy L1 L2. unfold le, item_leb in L1, L2. rewrite ord_iff in L1, L2.
  apply (nodup_same (fun kv => map_type (fst kv)) d); auto. apply before_anti; assumption.
Qed.

Definition made (make : text -> raw -> res raw) (kv : text * raw) (r : rdn) : Prop :=
  exists x, make (map_type (fst kv)) (snd kv) = Ok x /\ r = [mk_attr (map_type (fst kv)) x] /\
  In (map_type (fst kv)) (map snd name_map).
Lemma has_spec_in w : has_spec w = true <-> In w (map snd name_map).
Proof. apply (mem_in w (map snd name_map)). Qed.
Lemma build_rdns_spec make l : forall n, build_rdns make l = Ok n <-> Forall2 (made make) l n.
Proof.
  induction l as [|[k v] l IH]; intros n; cbn [build_rdns].
  - split; [intros [= <-]; constructor|]. intros H. inversion H. reflexivity.
  - destruct (has_spec (map_type k)) eqn:E; cbn [negb].
    2:{ split; [discriminate|]. intros H. inversion H as [|? ? ? ? (x & _ & _ & M) _]; subst. cbn [fst] in M.
        apply has_spec_in in M. congruence. }
    apply has_spec_in in E. split.
    + destruct (make (map_type k) v) as [x|] eqn:M; cbn [bind]; [|discriminate].
      destruct (build_rdns make l) as [m|]; cbn [bind]; [|discriminate]. intros [= <-].
      constructor; [exists x; auto|]. apply IH. reflexivity.
    + intros H. inversion H as [|? r ? m (x & M & -> & _) F]; subst. cbn [fst snd] in *. rewrite M. cbn [bind].
      apply IH in F. rewrite F. reflexivity.
Qed.
Lemma sorted_in_order {A} (l : list (text * A)) : StronglySorted (le item_leb) l -> in_order (key_types l).
Proof.
  induction 1 as [|x l S IH F]; cbn [key_types map in_order]; [exact I|]. split; [|exact IH].
  apply Forall_map. eapply Forall_impl; [|exact F]. intros y H. apply ord_iff. exact H.
Qed.
Lemma build_result make d n : build make d = Ok n ->
  exists l, Permutation d l /\ in_order (key_types l) /\ Forall2 (made make) l n.
Proof.
  unfold build. rewrite sort_items_sort. intros H. apply build_rdns_spec in H.
  exists (sort item_leb d). split; [apply sort_perm|]. split; [|exact H].
  apply sorted_in_order, sort_sorted; [apply item_total|apply item_trans].
Qed.
Lemma build_accepts make d : (forall k v, In (k, v) d -> In (map_type k) (map snd name_map) /\ exists x, make (map_type k) v = Ok x) ->
  exists n, build make d = Ok n.
Proof.
  intros H. unfold build. rewrite sort_items_sort.
  assert (K : forall k v, In (k, v) (sort item_leb d) -> In (map_type k) (map snd name_map) /\ exists x, make (map_type k) v = Ok x).
  { intros k v I. apply H. eapply Permutation_in; [symmetry; apply sort_perm|exact I]. }
  revert K. generalize (sort item_leb d). clear. intros l.
  induction l as [|[k v] l IH]; intros K; [exists []; reflexivity|].
  destruct (K k v (or_introl eq_refl)) as [M (x & X)].
  destruct IH as [n N]; [intros; apply K; right; assumption|].
  exists ([mk_attr (map_type k) x] :: n). apply build_rdns_spec. apply build_rdns_spec in N.
  constructor; [exists x; auto|exact N].
Qed.
Lemma build_unknown make d k v : In (k, v) d -> ~ In (map_type k) (map snd name_map) -> forall n, build make d <> Ok n.
Proof.
  intros I N n H. apply build_result in H. destruct H as (l & P & _ & F).
  apply (Permutation_in _ P) in I. clear P. induction F as [|x r l n (y & _ & _ & M) _ IH]; [destruct I|].
  destruct I as [->|I]; [cbn [fst] in M; contradiction|apply IH, I].
Qed.

(* ---- native ---- *)
Definition as_entry (l : list raw) : option native_entry :=
  match l with [] => None | [v] => Some (One v) | _ => Some (Many l) end.
Lemma native_fold l : forall t, dget t (fold_left add_native l []) =
  as_entry (map a_value (filter (fun x => eqb_text (a_type x) t) l)).
Proof.
  induction l as [|x l IH] using rev_ind; intros t; [reflexivity|].
  rewrite fold_left_app, filter_app, map_app. cbn [fold_left filter].
  set (D := fold_left add_native l []) in *. unfold add_native. rewrite IH.
  set (vs := map a_value (filter (fun y => eqb_text (a_type y) (a_type x)) l)) in *.
  assert (E : dget t (match as_entry vs with
      | Some (One v) => dset (a_type x) (Many [v; a_value x]) D
      | Some (Many l0) => dset (a_type x) (Many (l0 ++ [a_value x])) D
      | None => dset (a_type x) (One (a_value x)) D end) =
    if eqb_text t (a_type x) then as_entry (vs ++ [a_value x]) else dget t D).
  { destruct vs as [|v [|w vs]]; cbn [as_entry]; rewrite dget_dset; reflexivity. }
  rewrite E, (eqb_text_sym (a_type x) t). destruct (eqb_text t (a_type x)) eqn:T.
  - apply eqb_text_spec in T. subst t. reflexivity.
  - rewrite IH. cbn [map]. rewrite app_nil_r. reflexivity.
Qed.
Lemma native_spec t n : dget t (native_name n) = as_entry (values_of t n).
Proof. apply native_fold. Qed.

(* ---- human_friendly ---- *)
Lemma dget_nodup {A} k (v : A) d : NoDup (map fst d) -> In (k, v) d -> dget k d = Some v.
Proof.
  induction d as [|[k' v'] d IH]; cbn [map fst In dget]; [intros _ []|]. intros N [E|I]; inversion N as [|? ? N1 N2]; subst.
  - injection E as -> ->. rewrite eqb_text_refl. reflexivity.
  - destruct (eqb_text k k') eqn:E; [|auto]. apply eqb_text_spec in E. subst. exfalso. apply N1.
    apply in_map_iff. exists (k', v). auto.
Qed.
Lemma keys_dset {A} k (v : A) d : map fst (dset k v d) = map fst d ++ (if existsb (eqb_text k) (map fst d) then [] else [k]).
Proof.
  induction d as [|[k' v'] d IH]; cbn [dset map fst existsb app]; [reflexivity|].
  destruct (eqb_text k k') eqn:E; cbn [map fst orb]; [rewrite app_nil_r; reflexivity|]. rewrite IH. reflexivity.
Qed.
Lemma existsb_in t l : existsb (eqb_text t) l = true <-> In t l.
Proof. apply mem_in. Qed.
Lemma firsts_in seen l t : In t (firsts seen l) <-> In t l /\ ~ In t seen.
Proof.
  revert seen. induction l as [|x l IH]; intros seen; cbn [firsts In]; [tauto|].
  destruct (existsb (eqb_text x) seen) eqn:E.
  - apply existsb_in in E. rewrite IH. split; [tauto|]. intros [[->|H] K]; [contradiction|tauto].
  - assert (N : ~ In x seen) by (intros H; apply existsb_in in H; congruence).
    cbn [In]. rewrite IH. cbn [In]. split.
    + intros [->|(H1 & H2)]; [tauto|]. split; [right; exact H1|tauto].
    + intros [[->|H] K]; [left; reflexivity|]. destruct (eqb_text x t) eqn:X.
      * apply eqb_text_spec in X. left. exact X.
      * apply eqb_text_false in X. right. split; [exact H|]. intros [?|?]; contradiction.
Qed.
Lemma firsts_snoc l x : forall seen, firsts seen (l ++ [x]) =
  firsts seen l ++ (if existsb (eqb_text x) (l ++ seen) then [] else [x]).
Proof.
  induction l as [|y l IH]; intros seen; cbn [app firsts].
  - destruct (existsb (eqb_text x) seen); reflexivity.
  - destruct (existsb (eqb_text y) seen) eqn:E; rewrite IH; cbn [existsb].
    + destruct (eqb_text x y) eqn:X; [|reflexivity]. apply eqb_text_spec in X. subst y. cbn [orb].
      replace (existsb (eqb_text x) (l ++ seen)) with true; [reflexivity|]. symmetry.
      rewrite existsb_app, E. apply orb_true_r.
    + cbn [app]. do 2 f_equal. rewrite !existsb_app. cbn [existsb].
      destruct (eqb_text x y), (existsb (eqb_text x) l), (existsb (eqb_text x) seen); reflexivity.
Qed.
Definition fields (l : list (text * text)) : list text := map (fun x => friendly (fst x)) l.
Lemma shown_snoc f l x : shown f (l ++ [x]) = if eqb_text (friendly (fst x)) f then snd x :: shown f l else shown f l.
Proof.
  unfold shown. rewrite filter_app. cbn [filter]. destruct (eqb_text (friendly (fst x)) f).
  - rewrite map_app, rev_app_distr. reflexivity.
  - rewrite app_nil_r. reflexivity.
Qed.
Lemma friendly_fold l : let data := fold_left add_friendly l [] in
  map fst data = firsts [] (fields l) /\ NoDup (map fst data) /\
  forall f, match dget f data with
            | Some v => shown f l <> [] /\ humanize v = join_text (tx ", ") (shown f l)
            | None => shown f l = []
            end.
Proof.
  induction l as [|x l IH] using rev_ind; cbn [fold_left].
  - repeat split; constructor.
  - cbn zeta in *. destruct IH as (K & N & G). rewrite fold_left_app. cbn [fold_left].
    set (data := fold_left add_friendly l []) in *. unfold add_friendly. cbn zeta.
    set (f0 := friendly (fst x)).
    assert (E : match dget f0 data with Some v => dset f0 (Pair v (snd x)) data | None => dset f0 (Leaf (snd x)) data end
                = dset f0 (match dget f0 data with Some v => Pair v (snd x) | None => Leaf (snd x) end) data)
      by (destruct (dget f0 data); reflexivity).
    rewrite E. clear E. set (w := match dget f0 data with Some v => Pair v (snd x) | None => Leaf (snd x) end).
    split; [|split].
    + rewrite keys_dset, K. unfold fields. rewrite map_app. cbn [map]. rewrite firsts_snoc, app_nil_r. fold f0. f_equal.
      fold (fields l).
      replace (existsb (eqb_text f0) (firsts [] (fields l))) with (existsb (eqb_text f0) (fields l)); [reflexivity|].
      apply eq_iff_eq_true. rewrite !existsb_in, firsts_in. cbn [In]. tauto.
    + apply keys_dset_nodup, N.
    + intros f. rewrite dget_dset, shown_snoc. fold f0. rewrite (eqb_text_sym f0 f).
      destruct (eqb_text f f0) eqn:Ef; [|apply G]. apply eqb_text_spec in Ef. subst f.
      split; [discriminate|]. subst w. specialize (G f0). destruct (dget f0 data) as [v|].
      * destruct G as [Nn Hv]. cbn [humanize rev app]. cbn [join_text]. rewrite Hv.
        destruct (shown f0 l); [congruence|reflexivity].
      * rewrite G. reflexivity.
Qed.
Lemma human_spec l :
  let order := firsts [] (fields l) in
  let order := match rev l with
               | x :: _ => if eqb_text (friendly (fst x)) (tx "Country") then order else rev order
               | [] => rev order
               end in
  let parts := map (fun f => f ++ tx ": " ++ join_text (tx ", ") (shown f l)) order in
  human l = join_text (if existsb (fun e => existsb (Z.eqb 44) e) parts then tx "; " else tx ", ") parts.
Proof.
  cbn zeta. unfold human. destruct (friendly_fold l) as (K & N & G). cbn zeta in *.
  set (data := fold_left add_friendly l []) in *.
  set (part := fun f => f ++ tx ": " ++ join_text (tx ", ") (shown f l)).
  assert (M : forall items, incl items data ->
    map (fun kv => fst kv ++ tx ": " ++ humanize (snd kv)) items = map part (map fst items)).
  { intros items I. rewrite map_map. apply map_ext_in. intros [f v] Hi. cbn [fst snd]. unfold part.
    specialize (G f). rewrite (dget_nodup f v data N (I _ Hi)) in G. destruct G as [_ ->]. reflexivity. }
  assert (X : forall (l : list text), existsb (fun e => existsb (Z.eqb 44) e) (rev l) = existsb (fun e => existsb (Z.eqb 44) e) l).
  { intros m. apply eq_iff_eq_true. rewrite !existsb_exists. split; intros (e & I & H); exists e; split; auto; apply in_rev; [|rewrite rev_involutive]; exact I. }
  destruct (rev l) as [|x r].
  - rewrite (M data (incl_refl _)), K. fold part. rewrite map_rev, X. reflexivity.
  - destruct (eqb_text (friendly (fst x)) (tx "Country")).
    + rewrite (M (rev data)) by (intros y Hy; apply in_rev, Hy). rewrite map_rev, map_rev, K, rev_involutive, X. reflexivity.
    + rewrite (M data (incl_refl _)), K. rewrite map_rev, X. reflexivity.
Qed.

(* ---- refused texts ---- *)
Lemma prohibited_spec L c : prohibited L c = true <-> rfc_prohibited L c.
Proof. unfold prohibited, rfc_prohibited. rewrite !orb_true_iff, Z.eqb_eq. tauto. Qed.
Lemma last_snoc {A} (m : list A) c d : last (m ++ [c]) d = c.
Proof. induction m as [|x m IH]; [reflexivity|]. cbn [app last]. destruct m; [reflexivity|exact IH]. Qed.
Lemma bidi_spec L t : (forall c, in_d1 L c = true -> in_d2 L c = false) -> bad_bidi L t = false <-> rfc_bidi L t.
Proof.
  intros D. unfold bad_bidi, rfc_bidi. destruct (existsb (in_d1 L) t) eqn:R; cbn [andb].
  2:{ split; [|reflexivity]. intros _ (c & I & E). assert (X : existsb (in_d1 L) t = true) by (apply existsb_exists; eauto). congruence. }
  apply existsb_exists in R. destruct R as (r & Ir & Er).
  rewrite !orb_false_iff, !negb_false_iff. split.
  - intros [[N1 N2] N3] _. split; [|split].
    + intros c I. destruct (in_d1 L c) eqn:E1; [apply D, E1|]. destruct (in_d2 L c) eqn:E2; [|reflexivity].
      assert (X : existsb (fun c => negb (in_d1 L c) && in_d2 L c) t = true) by (apply existsb_exists; exists c; rewrite E1, E2; auto). congruence.
    + intros c m ->. exact N2.
    + intros c m ->. rewrite last_snoc in N3. exact N3.
  - intros H. destruct H as (H1 & H2 & H3); [eauto|]. split; [split|].
    + destruct (existsb _ t) eqn:X; [|reflexivity]. apply existsb_exists in X. destruct X as (c & I & X).
      apply andb_true_iff in X. rewrite (H1 c I) in X. destruct X; discriminate.
    + destruct t as [|c m]; [destruct Ir|]. apply (H2 c m eq_refl).
    + destruct (exists_last (l := t)) as (m0 & c0 & ->); [intros ->; destruct Ir|]. rewrite last_snoc. apply (H3 c0 m0 eq_refl).
Qed.
Lemma prep_refused L s : (forall c, in_d1 L c = true -> in_d2 L c = false) ->
  let t := nfkc L (flat_map (map_b2 L) (map_step s)) in
  ((exists r, ldap_prep L s = Ok r) <-> (forall c, In c t -> ~ rfc_prohibited L c) /\ rfc_bidi L t) /\
  (forall e, ldap_prep L s = Err e -> e = ValueError).
Proof.
  intros D t. unfold ldap_prep. fold t. destruct (existsb (prohibited L) t) eqn:P.
  - split; [|intros e [= <-]; reflexivity]. split; [intros (r & E); discriminate|]. intros [N _]. exfalso.
    apply existsb_exists in P. destruct P as (c & I & E). apply (N c I), prohibited_spec, E.
  - assert (N : forall c, In c t -> ~ rfc_prohibited L c).
    { intros c I E. apply prohibited_spec in E. assert (X : existsb (prohibited L) t = true) by (apply existsb_exists; eauto). congruence. }
    destruct (bad_bidi L t) eqn:B.
    + split; [|intros e [= <-]; reflexivity]. split; [intros (r & E); discriminate|]. intros [_ H]. apply (bidi_spec L t D) in H. congruence.
    + split; [|discriminate]. split; [|eauto]. intros _. split; [exact N|apply (bidi_spec L t D), B].
Qed.

(* ---- tables ---- *)
Lemma eqb_text_true a b : eqb_text a b = true <-> a = b.
Proof. unfold eqb_text. apply eqb_bytes_spec. Qed.
Definition memb (w : text) (l : list text) : bool := existsb (eqb_text w) l.
Lemma memb_iff w l : memb w l = true <-> In w l.
Proof.
  unfold memb. rewrite existsb_exists. split; [intros (x & I & E); apply eqb_text_true in E; congruence|].
  intros I. exists w. split; [exact I|apply eqb_text_true; reflexivity].
Qed.
Fixpoint nodupb (l : list text) : bool := match l with [] => true | x :: r => negb (memb x r) && nodupb r end.
Lemma nodupb_spec l : nodupb l = true -> NoDup l.
Proof.
  induction l as [|x l IH]; intros H; [constructor|]. cbn [nodupb] in H. apply andb_true_iff in H. destruct H as [H1 H2].
  constructor; [|auto]. rewrite <- memb_iff. destruct (memb x l); [discriminate|congruence].
Qed.
Lemma order_table : NoDup preferred_order /\
  forall w, In w preferred_order <-> In w (map snd name_map) /\ w <> tx "unique_identifier".
Proof.
  split; [apply nodupb_spec; vm_compute; reflexivity|]. intros w. split.
  - intros I. assert (F : forallb (fun w => memb w (map snd name_map) && negb (eqb_text w (tx "unique_identifier"))) preferred_order = true) by (vm_compute; reflexivity).
    rewrite forallb_forall in F. specialize (F w I). apply andb_true_iff in F. destruct F as [F1 F2]. apply memb_iff in F1. split; [exact F1|].
    intros ->. discriminate.
  - intros [I N]. assert (F : forallb (fun w => memb w preferred_order || eqb_text w (tx "unique_identifier")) (map snd name_map) = true) by (vm_compute; reflexivity).
    rewrite forallb_forall in F. specialize (F w I). apply orb_true_iff in F. rewrite memb_iff, eqb_text_true in F. tauto.
Qed.
Lemma labels_table v w : In v (map snd name_map) -> In w (map snd name_map) -> friendly v = friendly w -> v = w.
Proof.
  intros Iv Iw E.
  assert (F : forallb (fun v => forallb (fun w => implb (eqb_text (friendly v) (friendly w)) (eqb_text v w)) (map snd name_map)) (map snd name_map) = true) by (vm_compute; reflexivity).
  rewrite forallb_forall in F. specialize (F v Iv). rewrite forallb_forall in F. specialize (F w Iw). apply eqb_text_true in E. rewrite E in F.
  apply eqb_text_true. exact F.
Qed.
Lemma every_label w : In w (map snd name_map) -> exists f, In (w, f) friendly_map /\ friendly w = f.
Proof.
  intros I. assert (F : forallb (fun w => existsb (fun wf => eqb_text w (fst wf) && eqb_text (friendly w) (snd wf)) friendly_map) (map snd name_map) = true) by (vm_compute; reflexivity).
  rewrite forallb_forall in F. specialize (F w I). apply existsb_exists in F. destruct F as ([a b] & J & E). cbn [fst snd] in E.
  apply andb_true_iff in E. rewrite !eqb_text_true in E. destruct E as [-> <-]. eauto.
Qed.
