(* C99: lists of the library as Python containers. *)
Require Import Verif.Base Verif.BaseFacts Verif.ParserModel Verif.ParserSpec Verif.ParserProofs Verif.LibModel Verif.MemModel Verif.MemSpec Verif.MemProofs Verif.MemProofs2.
Require Verif.PrimModel Verif.PrimSpec Verif.PrimSide Verif.NameModel Verif.CertModel Verif.Shapes Verif.ShapeModel.
Require Coq.Strings.String.
Import Coq.Strings.String.StringSyntax.
Local Open Scope string_scope.
Local Open Scope list_scope.
Local Open Scope Z_scope.
Ltac calc := vm_compute; reflexivity.

Section Any.
  Context {V R : Type}.
  Variable split : bytes -> res (list R).
  Variable build : R -> res V.
  Variable value_eq : option (V -> V -> res bool).

(* whatever is asked: the values stay, every object made stays where it is, the octets and
   the mark that the list was changed stay *)
Theorem C99_reading (ds : list (read V)) (q : lst V R) : only_read split build q (reads split build value_eq ds q).
Proof. exact (reads_only split build value_eq ds q). Qed.

Theorem C99_length (q : lst V R) : snd (length_ split q) = do l <- items split build q; Ok (len l).
Proof.
  unfold length_. destruct (ensure split q) as [q1 [l|e]] eqn:E; cbn [snd bind].
  - destruct (ensure_ok split build _ _ _ E) as (-> & _). cbn. unfold len. now rewrite map_length.
  - destruct (ensure_err split build _ _ _ E) as (-> & _). reflexivity.
Qed.

Theorem C99_item (q : lst V R) (i : Z) (l : list (item V)) : items split build q = Ok l ->
  (nth_item l i = None -> snd (get split build q i) = Err IndexError) /\
  (forall k e, nth_item l i = Some (k, Err e) -> snd (get split build q i) = Err e) /\
  (forall k v, nth_item l i = Some (k, Ok v) -> exists o, snd (get split build q i) = Ok o /\ o_val o = v /\
     forall n, k = Some n -> o_id o = n).
Proof.
  intros I. pose proof (get_value split build q i) as H. rewrite I in H. split; [|split]; intros *.
  - intros N. rewrite N in H. exact H.
  - intros N. rewrite N in H. exact H.
  - intros N. rewrite N in H. destruct H as (o & q' & l' & G & Ev & Hk & _). exists o. rewrite G. split; [auto|]. split; [auto|].
    intros n ->. destruct Hk as [Hk|[Hk _]]; congruence.
Qed.

Lemma nth_firstn {A} (l : list A) : forall n k, (k < n)%nat -> nth_error (firstn n l) k = nth_error l k.
Proof. induction l as [|x l IH]; intros [|n] [|k] H; cbn; try reflexivity; try lia. apply IH. lia. Qed.
Lemma nth_skipn {A} (l : list A) : forall n k, nth_error (skipn n l) k = nth_error l (n + k).
Proof. induction l as [|x l IH]; intros [|n] k; cbn; auto. destruct k; reflexivity. Qed.
(* l[a:b] holds what stands from position a up to before b, as it is *)
Theorem C99_slice (q : lst V R) (a b : Z) (l : list (item V)) : 0 <= a -> items split build q = Ok l ->
  exists xs, snd (get_slice split q a b) = Ok xs /\
    forall k, nth_error (map (item_of build) xs) k = if a + Z.of_nat k <? b then nth_error l (Z.to_nat a + k) else None.
Proof.
  intros A I. unfold get_slice. destruct (ensure split q) as [q1 [m|e]] eqn:E.
  2:{ destruct (ensure_err split build _ _ _ E) as (F & _). congruence. }
  destruct (ensure_ok split build _ _ _ E) as (F & _). assert (l = map (item_of build) m) as -> by congruence. cbn [snd bind].
  exists (slice m a b). split; [reflexivity|]. intros k. unfold slice. rewrite <- firstn_map, <- skipn_map.
  generalize (map (item_of build) m). clear. intros l. destruct (Z.ltb_spec (a + Z.of_nat k) b) as [H|H].
  - rewrite nth_firstn by lia. apply nth_skipn.
  - apply nth_error_None. rewrite firstn_length. lia.
Qed.

(* asking again, whatever was asked between, gives the object given before *)
Theorem C99_again (q q1 : lst V R) (ds : list (read V)) (i : Z) (o : object V) :
  get split build q i = (q1, Ok o) -> snd (get split build (reads split build value_eq ds q1) i) = Ok o.
Proof. intros H. destruct (get_again split build value_eq q q1 ds i o H) as [q3 E]. now rewrite E. Qed.

(* the objects of a list that was loaded are distinct *)
Theorem C99_distinct (c : option bytes) (m : bool) (n : Z) (ds1 ds2 : list (read V)) (i j : Z) (o o' : object V) (q1 : lst V R) (l : list (item V)) :
  let q := reads split build value_eq ds1 (Lst c None m n) in
  items split build q = Ok l -> get split build q i = (q1, Ok o) ->
  snd (get split build (reads split build value_eq ds2 q1) j) = Ok o' ->
  (o_id o = o_id o' <-> i = j \/ i = j + len l \/ j = i + len l).
Proof.
  intros q I G G'. destruct (get split build (reads split build value_eq ds2 q1) j) as [q3 r] eqn:E. cbn in G'. subst r.
  assert (T : tidy split build q) by (apply tidy_reads, tidy_new).
  rewrite (get_identity split build value_eq q q1 _ q3 ds2 i j o o' T G eq_refl E). split.
  - intros (l' & I' & H). rewrite I in I'. injection I' as <-. exact H.
  - intros H. exists l. auto.
Qed.

(* list(l) gives all objects in order, and fails with the first one that cannot be made *)
Theorem C99_iteration (q : lst V R) (l : list (item V)) : items split build q = Ok l ->
  (forall os, snd (iter split build q) = Ok os -> map (fun o => Ok (o_val o)) os = map snd l /\
     forall i o, nth_error os i = Some o -> snd (get split build (fst (iter split build q)) (Z.of_nat i)) = Ok o) /\
  ((exists os, snd (iter split build q) = Ok os) <-> all_made l) /\
  (forall e, snd (iter split build q) = Err e -> exists n k, nth_error l n = Some (k, Err e) /\
     forall m x, (m < n)%nat -> nth_error l m = Some x -> exists v, snd x = Ok v).
Proof.
  intros I. pose proof (iter_spec split build q) as S. destruct (iter split build q) as [q' r] eqn:E. cbn [snd fst]. split; [|split].
  - intros os ->. destruct (iter_ok_made split build value_eq q q' os E) as (l0 & I0 & _ & M & _). rewrite I in I0. injection I0 as <-.
    split; [auto|]. intros i o N. pose proof (get_value split build q' (Z.of_nat i)) as H. rewrite S in H.
    unfold nth_item in H. destruct (Z.ltb_spec (Z.of_nat i) 0); [lia|]. rewrite Nat2Z.id, nth_error_map, N in H. cbn in H.
    destruct H as (o' & q2 & l2 & -> & Ev & [Hk|[Hk _]] & _); [|discriminate]. cbn. f_equal. destruct o, o'. cbn in *. congruence.
  - split.
    + intros [os ->]. destruct (iter_ok_made split build value_eq q q' os E) as (l0 & I0 & A & _). congruence.
    + intros A. destruct (iter_made split build q l I A) as (q2 & os & H). rewrite H in E. injection E as _ <-. eauto.
  - intros e ->. destruct S as [S|(l2 & n & [k x] & H1 & H2 & H3 & H4)]; [congruence|]. rewrite I in H1. injection H1 as <-.
    cbn in H3. subst x. exists n, k. split; auto.
Qed.

(* x in l looks at the positions in order up to the first that is equal or raises *)
Theorem C99_membership (q : lst V R) (l : list (item V)) (x : object V) : items split build q = Ok l -> o_id x < l_next q ->
  let answer := snd (contains split build value_eq q (AItem x)) in
  (answer = Ok true <-> exists n i, nth_error l n = Some i /\ judge value_eq x i = Ok true /\
     forall m j, (m < n)%nat -> nth_error l m = Some j -> judge value_eq x j = Ok false) /\
  (answer = Ok false <-> Forall (fun i => judge value_eq x i = Ok false) l) /\
  (forall e, answer = Err e <-> exists n i, nth_error l n = Some i /\ judge value_eq x i = Err e /\
     forall m j, (m < n)%nat -> nth_error l m = Some j -> judge value_eq x j = Ok false).
Proof.
  intros I X. cbv zeta. rewrite (contains_scan split build value_eq q x X), I. cbn [bind].
  split; [apply scan_true|]. split; [apply scan_false|]. intros e. apply scan_err.
Qed.

Theorem C99_membership_other (q : lst V R) :
  snd (contains split build value_eq q ANothing) = Ok false /\ snd (contains split build value_eq q AOther) = Err TypeError.
Proof. split; reflexivity. Qed.

(* an object of the list is in the list *)
Theorem C99_own (q q1 : lst V R) (i : Z) (o : object V) (l : list (item V)) :
  get split build q i = (q1, Ok o) -> items split build q1 = Ok l -> o_id o < l_next q1 ->
  (forall f, value_eq = Some f -> f (o_val o) (o_val o) = Ok true) ->
  (forall j, In j l -> exists b, judge value_eq o j = Ok b) ->
  snd (contains split build value_eq q1 (AItem o)) = Ok true.
Proof.
  intros G I X F J. rewrite (contains_scan split build value_eq q1 o X), I. cbn [bind].
  assert (H : exists n, nth_error l n = Some (Some (o_id o), Ok (o_val o))).
  { pose proof (get_value split build q i) as H. rewrite G in H. cbn [snd] in H. destruct (items split build q) as [l0|e]; [|discriminate].
    destruct (nth_item l0 i) as [[k [v|e]]|]; try discriminate. destruct H as (o' & q' & l' & E & Ev & _ & I' & N).
    injection E as <- <-. rewrite I in I'. injection I' as <-. subst v. unfold nth_item in N. destruct (i <? 0); [destruct (_ <? 0); [discriminate|]|]; eauto. }
  destruct H as [n N]. apply nth_error_In in N.
  destruct (scan (judge value_eq o) l) as [[|]|e] eqn:S; [reflexivity| |]; exfalso.
  - apply scan_false in S. rewrite Forall_forall in S. apply S in N. unfold judge in N. cbn in N.
    destruct value_eq as [f|]; [rewrite F in N by reflexivity; discriminate|]. rewrite Z.eqb_refl in N. discriminate.
  - apply scan_err in S. destruct S as (m & x & H1 & H2 & _). apply nth_error_In in H1. apply J in H1. destruct H1. congruence.
Qed.

(* where == is that of object, only the very objects of the list are in it *)
Theorem C99_by_identity (q : lst V R) (l : list (item V)) (x : object V) : value_eq = None ->
  items split build q = Ok l -> o_id x < l_next q -> all_made l ->
  snd (contains split build value_eq q (AItem x)) = Ok true <-> exists i, In i l /\ fst i = Some (o_id x).
Proof.
  intros -> I X A. rewrite (contains_scan split build None q x X), I. cbn [bind]. split.
  - intros S. apply scan_true in S. destruct S as (n & i & N & J & _). exists i. split; [eapply nth_error_In; eauto|].
    unfold judge in J. destruct (snd i); [|discriminate]. cbn in J. destruct (fst i) as [k|]; [|discriminate]. injection J as J. apply Z.eqb_eq in J. congruence.
  - intros (i & Hi & E). unfold all_made in A. rewrite Forall_forall in A.
    destruct (scan (judge None x) l) as [[|]|e] eqn:S; [reflexivity| |]; exfalso.
    + apply scan_false in S. rewrite Forall_forall in S. specialize (S _ Hi). destruct (A _ Hi) as [v Hv]. unfold judge in S.
      rewrite Hv, E in S. cbn in S. rewrite Z.eqb_refl in S. discriminate.
    + apply scan_err in S. destruct S as (m & y & H1 & H2 & _). apply nth_error_In in H1. destruct (A _ H1) as [v Hv].
      unfold judge in H2. rewrite Hv in H2. discriminate.
Qed.

  Variable retag : V -> option (res V).
(* append, l[i] = x and del l[i] change the positions they name and no others; the object
   itself is put there unless its tags have to be changed *)
Theorem C99_append (q q' : lst V R) (x : object V) : append split retag q x = (q', Ok tt) ->
  exists y l, items split build q = Ok l /\ items split build q' = Ok (l ++ [(Some (o_id y), Ok (o_val y))]) /\ l_mutated q' = true /\
    match retag (o_val x) with None => y = x | Some r => r = Ok (o_val y) /\ o_id y = l_next q end.
Proof.
  intros H. destruct (append_spec split build retag q x q' H) as (y & (l & I & I' & M & _) & Y). exists y, l. auto.
Qed.
Theorem C99_set (q q' : lst V R) (i : Z) (x : object V) : set_item split retag q i x = (q', Ok tt) ->
  exists y l l', items split build q = Ok l /\ items split build q' = Ok l' /\ l_mutated q' = true /\
    match retag (o_val x) with None => y = x | Some r => r = Ok (o_val y) /\ o_id y = l_next q end /\
    nth_item l' i = Some (Some (o_id y), Ok (o_val y)) /\
    (forall j, 0 <= j < len l -> j <> i -> j <> i + len l -> nth_item l' j = nth_item l j) /\
    (len l' = len l \/ i = len l /\ len l' = len l + 1).
Proof.
  intros H. destruct (set_spec split build retag q i x q' H) as (y & l & I & (l0 & I0 & I' & M & _) & P & Y).
  rewrite I in I0. injection I0 as <-. eexists y, l, _. split; [auto|]. split; [exact I'|]. split; [auto|]. split; [auto|].
  destruct (place l i) as [n|] eqn:Pl.
  - pose proof (place_lt _ _ _ Pl) as L.
    assert (Pi : i = Z.of_nat n \/ i + len l = Z.of_nat n /\ i < 0).
    { clear - Pl. unfold place, len in *. destruct (Z.leb_spec 0 i), (Z.ltb_spec i (Z.of_nat (length l))), (Z.ltb_spec i 0), (Z.leb_spec 0 (i + Z.of_nat (length l))); cbn in Pl; try discriminate; injection Pl as <-; lia. }
    split; [|split].
    + rewrite (place_nth l) by apply put_length. rewrite Pl. apply put_same. auto.
    + intros j Hj N1 N2. unfold nth_item, len in *. destruct (Z.ltb_spec j 0); [lia|]. apply put_other. lia.
    + left. unfold len. now rewrite put_length.
  - specialize (P eq_refl). split; [|split].
    + unfold nth_item, len in *. destruct (Z.ltb_spec i 0); [lia|]. rewrite P, Nat2Z.id. rewrite nth_error_app2 by lia. now rewrite Nat.sub_diag.
    + intros j Hj N1 N2. unfold nth_item, len in *. destruct (Z.ltb_spec j 0); [lia|]. apply nth_error_app1. lia.
    + right. unfold len in *. rewrite app_length. cbn. lia.
Qed.
Theorem C99_delete (q q' : lst V R) (i : Z) : del_item split q i = (q', Ok tt) ->
  exists l a x b, items split build q = Ok l /\ l = a ++ x :: b /\ items split build q' = Ok (a ++ b) /\ l_mutated q' = true /\
    (i = len a \/ i + len l = len a).
Proof.
  intros H. destruct (del_spec split build q i q' H) as (l & n & I & P & (l0 & I0 & I' & M & _)).
  rewrite I in I0. injection I0 as <-. pose proof (place_lt _ _ _ P) as L.
  destruct (nth_error l n) as [x|] eqn:N; [|apply nth_error_None in N; lia].
  apply nth_error_split in N. destruct N as (a & b & E & La). exists l, a, x, b. split; [auto|]. split; [auto|]. split.
  - rewrite I', E. f_equal. rewrite <- La. clear. induction a; cbn; congruence.
  - split; [auto|]. clear - P La. unfold place, len in *. destruct (Z.leb_spec 0 i), (Z.ltb_spec i (Z.of_nat (length l))), (Z.ltb_spec i 0), (Z.leb_spec 0 (i + Z.of_nat (length l))); cbn in P; try discriminate; injection P as <-; lia.
Qed.
(* what was appended is found, unless comparing raises *)
Theorem C99_appended (q q' : lst V R) (x : object V) (l : list (item V)) : append split retag q x = (q', Ok tt) ->
  retag (o_val x) = None -> items split build q' = Ok l -> o_id x < l_next q' ->
  (forall f, value_eq = Some f -> f (o_val x) (o_val x) = Ok true) ->
  (forall j, In j l -> exists b, judge value_eq x j = Ok b) ->
  snd (contains split build value_eq q' (AItem x)) = Ok true.
Proof.
  intros H Rt I X F J. destruct (C99_append q q' x H) as (y & l0 & _ & I' & _ & Y). rewrite Rt in Y. subst y.
  rewrite I in I'. injection I' as ->. rewrite (contains_scan split build value_eq q' x X), I. cbn [bind].
  destruct (scan (judge value_eq x) _) as [[|]|e] eqn:S; [reflexivity| |]; exfalso.
  - apply scan_false in S. rewrite Forall_forall in S.
    assert (N : In (Some (o_id x), @Ok V (o_val x)) (l0 ++ [(Some (o_id x), Ok (o_val x))])) by (apply in_app_iff; right; left; auto).
    apply S in N. unfold judge in N. cbn in N.
    destruct value_eq as [f|]; [rewrite F in N by reflexivity; discriminate|]. rewrite Z.eqb_refl in N. discriminate.
  - apply scan_err in S. destruct S as (m & z & H1 & H2 & _). apply nth_error_In in H1. apply J in H1. destruct H1. congruence.
Qed.
End Any.
Print Assumptions C99_reading.
Print Assumptions C99_length.
Print Assumptions C99_item.
Print Assumptions C99_slice.
Print Assumptions C99_again.
Print Assumptions C99_distinct.
Print Assumptions C99_iteration.
Print Assumptions C99_membership.
Print Assumptions C99_membership_other.
Print Assumptions C99_own.
Print Assumptions C99_by_identity.
Print Assumptions C99_append.
Print Assumptions C99_set.
Print Assumptions C99_delete.
Print Assumptions C99_appended.

(* lists of primitive objects: x in l exactly when an object with the same contents is there *)
Theorem C99_primitive {R : Type} (split : bytes -> res (list R)) (build : R -> res PrimModel.obj) (c : PrimModel.pcls)
    (q : lst PrimModel.obj R) (l : list (item PrimModel.obj)) (x : object PrimModel.obj) :
  items split build q = Ok l -> o_id x < l_next q -> all_made l ->
  snd (contains split build (Some (fun a b => Ok (PrimModel.prim_eq c a c b))) q (AItem x)) = Ok true <->
  exists i o, In i l /\ snd i = Ok o /\ PrimModel.contents o = PrimModel.contents (o_val x).
Proof.
  intros I X A. rewrite contains_scan by auto. rewrite I. cbn [bind]. unfold all_made in A. rewrite Forall_forall in A. split.
  - intros S. apply scan_true in S. destruct S as (n & i & N & J & _). apply nth_error_In in N. destruct (A _ N) as [v Hv].
    exists i, v. split; [auto|]. split; [auto|]. unfold judge in J. rewrite Hv in J. cbn in J. injection J as J. apply PrimSide.prim_eq_iff in J. tauto.
  - intros (i & o & Hi & Ho & E).
    destruct (scan _ l) as [[|]|e] eqn:S; [reflexivity| |]; exfalso.
    + apply scan_false in S. rewrite Forall_forall in S. specialize (S _ Hi). unfold judge in S. rewrite Ho in S. cbn in S. injection S as S.
      assert (PrimModel.prim_eq c o c (o_val x) = true) by (apply PrimSide.prim_eq_iff; auto). congruence.
    + apply scan_err in S. destruct S as (m & y & H1 & H2 & _). apply nth_error_In in H1. destruct (A _ H1) as [v Hv].
      unfold judge in H2. rewrite Hv in H2. discriminate.
Qed.
Print Assumptions C99_primitive.

(* which == the children of the lists of the library have *)
Theorem C99_library : forall n i, In (n, i) list_classes ->
  (owner "__eq__" i = Some "core.Primitive" <-> In n compared_by_value) /\
  (owner "__eq__" i = Some i /\ i <> "core.Primitive" <-> In n compared_by_rule) /\
  (owner "__eq__" i = None <-> ~ In n compared_by_value /\ ~ In n compared_by_rule).
Proof.
  intros n i H.
  assert (E : forallb (fun p => match owner "__eq__" (snd p) with
     | Some k => if String.eqb k "core.Primitive" then mem (fst p) compared_by_value && negb (mem (fst p) compared_by_rule) && negb (String.eqb (snd p) k)
                 else String.eqb k (snd p) && mem (fst p) compared_by_rule && negb (mem (fst p) compared_by_value)
     | None => negb (mem (fst p) compared_by_value) && negb (mem (fst p) compared_by_rule) end) list_classes = true) by calc.
  rewrite forallb_forall in E. specialize (E _ H). cbn [fst snd] in E.
  assert (M : forall l, mem n l = true <-> In n l).
  { intros l. unfold mem. rewrite existsb_exists. split.
    - intros (x & Hx & Ex). apply String.eqb_eq in Ex. now subst.
    - intros Hn. exists n. split; [auto|]. apply String.eqb_refl. }
  pose proof (M compared_by_value) as MV. pose proof (M compared_by_rule) as MR.
  set (vs := compared_by_value) in *. set (rs := compared_by_rule) in *. clearbody vs rs. clear H M.
  destruct (owner "__eq__" i) as [k|].
  - destruct (String.eqb k "core.Primitive") eqn:K.
    + apply String.eqb_eq in K. subst k. apply andb_true_iff in E. destruct E as [E E3]. apply andb_true_iff in E. destruct E as [E1 E2].
      apply MV in E1. apply negb_true_iff in E2. assert (N : ~ In n rs) by (intros X; apply MR in X; congruence).
      apply negb_true_iff, String.eqb_neq in E3. split; [tauto|]. split; split.
      * intros [X _]. congruence.
      * tauto.
      * discriminate.
      * tauto.
    + apply String.eqb_neq in K. apply andb_true_iff in E. destruct E as [E E3]. apply andb_true_iff in E. destruct E as [E1 E2].
      apply MR in E2. apply negb_true_iff in E3. assert (N : ~ In n vs) by (intros X; apply MV in X; congruence).
      apply String.eqb_eq in E1. subst k. split; [|split]; split.
      * intros X. congruence.
      * tauto.
      * auto.
      * intros _. split; [reflexivity|exact K].
      * discriminate.
      * tauto.
  - apply andb_true_iff in E. destruct E as [E1 E2]. apply negb_true_iff in E1, E2.
    assert (N1 : ~ In n vs) by (intros X; apply MV in X; congruence).
    assert (N2 : ~ In n rs) by (intros X; apply MR in X; congruence).
    split; [|split]; split; try tauto; try discriminate. intros [X _]. discriminate.
Qed.
Print Assumptions C99_library.

(* in Python 3, objects have a hash exactly when == is that of object, so that equal objects
   never have different hashes *)
Theorem C99_hash : forall c, In c lib ->
  (owner "__eq__" (ShapeModel.c_name c) = None -> hash_of (ShapeModel.c_name c) = Some "object") /\
  (owner "__eq__" (ShapeModel.c_name c) <> None -> hash_of (ShapeModel.c_name c) = None).
Proof.
  intros c H.
  assert (E : forallb (fun c => match owner "__eq__" (ShapeModel.c_name c), hash_of (ShapeModel.c_name c) with
     | None, Some k => String.eqb k "object" | Some _, None => true | _, _ => false end) lib = true) by calc.
  rewrite forallb_forall in E. specialize (E _ H).
  destruct (owner "__eq__" (ShapeModel.c_name c)), (hash_of (ShapeModel.c_name c)); try discriminate; split; try congruence.
  apply String.eqb_eq in E. congruence.
Qed.
Print Assumptions C99_hash.

Lemma listed (n i : string) : existsb (fun p => String.eqb n (fst p) && String.eqb i (snd p)) list_classes = true -> In (n, i) list_classes.
Proof.
  rewrite existsb_exists. intros ([a b] & H & E). cbn in E. apply andb_true_iff in E. destruct E as [E1 E2].
  apply String.eqb_eq in E1, E2. now subst.
Qed.

(* ---- a list of two integers ---- *)
(* the children of a list are the encodings in its contents, one after the other *)
Lemma elements_at : forall l pre n, (length (concat (map encoding_of l)) < n)%nat -> Forall (ber_info max_budget) l ->
  elements_from n (pre ++ concat (map encoding_of l)) (len pre) = Ok l.
Proof.
  induction l as [|i l IH]; intros pre [|n] L F; cbn [map concat] in *; try lia; cbn [elements_from].
  - rewrite app_nil_r, Z.ltb_irrefl. reflexivity.
  - inversion F as [|? ? B F']; subst. destruct (ber_hdr _ _ _ _ _ _ _ B) as (_ & L2 & _).
    assert (Le : 2 <= len (encoding_of i)). { unfold encoding_of. rewrite !len_app. pose proof (len_nonneg (i_contents i)). pose proof (len_nonneg (i_trailer i)). lia. }
    destruct (Z.ltb_spec (len pre) (len (pre ++ encoding_of i ++ concat (map encoding_of l)))) as [H|H].
    2:{ rewrite !len_app in H. pose proof (len_nonneg (concat (map encoding_of l))). lia. }
    rewrite (parse_complete i pre _ B). cbn [bind]. rewrite <- len_app, app_assoc. rewrite IH; [reflexivity| |exact F'].
    rewrite app_length in L. unfold len in Le. lia.
Qed.
Theorem C99_elements (l : list info) : Forall (ber_info max_budget) l -> elements (concat (map encoding_of l)) = Ok l.
Proof. intros F. unfold elements. apply (elements_at l []); [lia|exact F]. Qed.
Print Assumptions C99_elements.

Definition two : bytes := [2; 1; 5; 2; 1; 7].
Definition int_of (i : info) : res Z := if i_tag i =? 2 then Ok (at_ (i_contents i) 0) else Err ValueError.
Definition same_int : option (Z -> Z -> res bool) := Some (fun a b => Ok (a =? b)).
Definition loaded (c : bytes) (n : Z) : lst Z info := Lst (Some c) None false n.

Example C99_ex :
  items elements int_of (loaded two 10) = Ok [(None, Ok 5); (None, Ok 7)] /\
  snd (length_ elements (loaded two 10)) = Ok 2 /\
  snd (get elements int_of (loaded two 10) (-1)) = Ok (Object 10 7) /\
  snd (iter elements int_of (loaded two 10)) = Ok [Object 10 5; Object 11 7] /\
  snd (contains elements int_of same_int (loaded two 10) (AItem (Object 3 7))) = Ok true /\
  snd (contains elements int_of same_int (loaded two 10) (AItem (Object 3 8))) = Ok false.
Proof. repeat split; calc. Qed.
Example C99_again_ex : exists q1 o, get elements int_of (loaded two 10) 1 = (q1, Ok o) /\
  let q2 := reads elements int_of same_int [DIter; DLen; DGet 0; DIn (AItem (Object 3 8))] q1 in
  snd (get elements int_of q2 (-1)) = Ok o /\ items elements int_of q2 = Ok [(Some 11, Ok 5); (Some 10, Ok 7)] /\ l_mutated q2 = false.
Proof. eexists _, _. split; [calc|]. repeat split; calc. Qed.
(* an element that cannot be made is no harm to what comes before it *)
Definition broken : bytes := [2; 1; 5; 4; 1; 7].
Example C99_broken_ex :
  snd (contains elements int_of same_int (loaded broken 10) (AItem (Object 3 5))) = Ok true /\
  snd (contains elements int_of same_int (loaded broken 10) (AItem (Object 3 7))) = Err ValueError /\
  snd (iter elements int_of (loaded broken 10)) = Err ValueError /\ snd (length_ elements (loaded broken 10)) = Ok 2.
Proof. repeat split; calc. Qed.
Example C99_own_ex : exists q1 o l, get elements int_of (loaded two 10) 1 = (q1, Ok o) /\ items elements int_of q1 = Ok l /\
  (forall j, In j l -> exists b, judge None o j = Ok b) /\ o_id o < l_next q1 /\
  snd (contains elements int_of None q1 (AItem o)) = Ok true.
Proof.
  eexists _, _, _. split; [calc|]. split; [calc|]. split; [|split; [cbn; lia|calc]].
  intros j [<-|[<-|[]]]; eexists; reflexivity.
Qed.
Definition plain_tags (v : Z) : option (res Z) := if v <? 100 then None else Some (Ok (v - 100)).
Example C99_append_ex :
  exists q', append elements plain_tags (loaded two 10) (Object 3 9) = (q', Ok tt) /\
    items elements int_of q' = Ok [(None, Ok 5); (None, Ok 7); (Some 3, Ok 9)] /\
    snd (contains elements int_of None q' (AItem (Object 3 9))) = Ok true.
Proof. eexists. split; [calc|]. split; calc. Qed.
(* an object whose tags have to be changed is copied, and not found when == is that of object *)
Example C99_retagged_ex :
  exists q', append elements plain_tags (loaded two 10) (Object 3 109) = (q', Ok tt) /\
    items elements int_of q' = Ok [(None, Ok 5); (None, Ok 7); (Some 10, Ok 9)] /\
    snd (contains elements int_of None q' (AItem (Object 3 109))) = Ok false.
Proof. eexists. split; [calc|]. split; calc. Qed.
Example C99_set_ex :
  snd (set_item elements plain_tags (loaded two 10) (-2) (Object 3 9)) = Ok tt /\
  items elements int_of (fst (set_item elements plain_tags (loaded two 10) (-2) (Object 3 9))) = Ok [(Some 3, Ok 9); (None, Ok 7)] /\
  snd (set_item elements plain_tags (loaded two 10) (-3) (Object 3 9)) = Err IndexError.
Proof. repeat split; calc. Qed.
Example C99_delete_ex :
  snd (del_item elements (loaded two 10) (-2)) = Ok tt /\
  items elements int_of (fst (del_item elements (loaded two 10) (-2))) = Ok [(None, Ok 7)] /\
  snd (del_item elements (loaded two 10) 2) = Err IndexError.
Proof. repeat split; calc. Qed.
Definition octets_of (i : info) : res PrimModel.obj :=
  Ok (PrimModel.Obj (PrimModel.Tagging 0 2 false []) (PrimModel.Enc 0 (Some (i_header i)) (Some (i_contents i)) [] false)
        (PrimModel.Cache None None None [] None) None).
Example C99_primitive_ex : exists l x, items elements octets_of (Lst (Some two) None false 10) = Ok l /\ all_made l /\
  octets_of (mkInfo 0 0 2 [2; 1] [7] []) = Ok x /\
  snd (contains elements octets_of (Some (fun a b => Ok (PrimModel.prim_eq (PrimModel.Cls 0 2 [] []) a (PrimModel.Cls 0 2 [] []) b)))
    (Lst (Some two) None false 10) (AItem (Object 3 x))) = Ok true.
Proof.
  eexists _, _. split; [calc|]. split; [repeat constructor; eexists; reflexivity|]. split; [reflexivity|]. calc.
Qed.
Example C99_library_ex : In ("x509.ExtKeyUsageSyntax", "x509.KeyPurposeId") list_classes /\ In ("x509.Extensions", "x509.Extension") list_classes.
Proof. split; apply listed; calc. Qed.

(* 80 list classes of the library compare their children by identity: a certificate is not in
   the list of certificates it was taken from once that list is loaded again *)
Theorem C99_equal_values_refuted :
  (exists q1 o, get elements int_of (loaded two 10) 0 = (q1, Ok o) /\
     items elements int_of (loaded two (l_next q1)) = items elements int_of (loaded two 10) /\
     snd (contains elements int_of None q1 (AItem o)) = Ok true /\
     snd (contains elements int_of None (loaded two (l_next q1)) (AItem o)) = Ok false) /\
  In ("cms.CertificateSet", "cms.CertificateChoices") list_classes /\ owner "__eq__" "cms.CertificateChoices" = None /\
  In ("ocsp.Certificates", "x509.Certificate") list_classes /\ owner "__eq__" "x509.Certificate" = None /\
  In ("crl.RevokedCertificates", "crl.RevokedCertificate") list_classes /\ owner "__eq__" "crl.RevokedCertificate" = None /\
  len (filter (fun p => match owner "__eq__" (snd p) with None => true | Some _ => false end) list_classes) = 80.
Proof.
  split; [eexists _, _; repeat split; calc|]. repeat split; try (apply listed); calc.
Qed.
Print Assumptions C99_equal_values_refuted.

(* x in general_names raises when a name that has no == comes before x *)
Theorem C99_general_names_refuted : exists L to from low ipv6 nfkc (x : CertModel.general),
  let eq a b := snd (CertModel.general_eq L to from low ipv6 nfkc a b) in
  let q : lst CertModel.general info := Lst None (Some [SObj (Object 1 CertModel.GOther); SObj (Object 2 x)]) true 3 in
  eq x x = Ok true /\ snd (get elements (fun _ => Err ValueError) q 1) = Ok (Object 2 x) /\
  snd (contains elements (fun _ => Err ValueError) (Some eq) q (AItem (Object 2 x))) = Err ValueError.
Proof.
  exists (NameModel.Build_prep_lib (fun x => [x]) (fun x => x) (fun _ => false) (fun _ => false) (fun _ => false) (fun _ => false) (fun _ => false) (fun _ => false) (fun _ => false)), (fun _ => Err ValueError), (fun _ => Err ValueError), (fun x => x), (fun _ => true), (fun _ => true), (CertModel.GIp [1; 2; 3; 4]).
  repeat split; calc.
Qed.
Print Assumptions C99_general_names_refuted.

(* l[0:2] gives the tuples of the parser for children not asked for before *)
Theorem C99_slice_refuted : exists q1 i, get_slice elements (loaded two 10) 0 2 = (q1, Ok [SRaw i; SRaw (mkInfo 0 0 2 [2; 1] [7] [])]) /\
  snd (get elements int_of (loaded two 10) 1) = Ok (Object 10 7).
Proof. eexists _, _. split; calc. Qed.
Print Assumptions C99_slice_refuted.
