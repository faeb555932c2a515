(* C85: the OrderedDict for old versions of Python remembers the order of its keys. *)
Require Import Verif.Base Verif.BaseFacts Verif.OrdModel Verif.OrdSpec Verif.OrdProofs.
Require Import Coq.Sorting.Permutation.

(* every history of operations on a new dictionary answers as a list of items does, and
   afterwards every way of reading it gives that list *)
Theorem C85_history : forall K V (eqb : K -> K -> bool), (forall a b, eqb a b = true <-> a = b) -> forall os,
  let d := fst (run K V eqb (new_od K V) os) in
  let l := fst (wanted_run K V eqb [] os) in
  snd (run K V eqb (new_od K V) os) = snd (wanted_run K V eqb [] os) /\
  NoDup (map fst l) /\
  keys K V d = Ok (map fst l) /\ reversed_iter K V d = Ok (rev (map fst l)) /\
  items K V eqb d = Ok l /\ values K V eqb d = Ok (map snd l) /\ size K V d = len l /\
  (forall k v, In (k, v) l <-> getitem K V eqb d k = Ok v) /\
  (forall k, ~ In k (map fst l) <-> getitem K V eqb d k = Err KeyError) /\
  (forall k, In k (map fst l) <-> has K V eqb d k = true).
Proof.
  intros K V eqb ok os d l. destruct (run_agrees K V eqb ok os _ _ (new_agrees K V eqb)) as [R A]. fold d l in A.
  pose proof A as (cs & _ & _ & P & N). pose proof (items_agrees K V eqb ok d l A) as I.
  assert (G : forall k, getitem K V eqb d k = match bget K eqb l k with Some v => Ok v | None => Err KeyError end)
    by (intro k; rewrite <- (look_bget K V eqb); now apply get_agrees).
  split; [exact R|]. split; [exact N|]. split; [now apply (iter_agrees K V eqb)|]. split; [now apply (reversed_agrees K V eqb)|].
  split; [exact I|]. split; [unfold values; now rewrite I|]. split; [now apply (size_agrees K V eqb)|].
  split; [|split].
  - intros k v. rewrite G. split; intro H.
    + now rewrite (in_bget K eqb ok l k v N H).
    + destruct (bget K eqb l k) as [w|] eqn:E; [|discriminate]. injection H as ->. now apply (bget_in K eqb ok).
  - intro k. rewrite G, <- (bget_none K eqb ok). destruct (bget K eqb l k); split; congruence.
  - intro k. specialize (G k). unfold getitem in G. unfold has. pose proof (bget_none K eqb ok l k) as Q.
    destruct (bget K eqb l k) as [w|], (bget K eqb (o_items K V d) k); try discriminate.
    + split; [reflexivity|]. intros _. destruct (in_dec (fun a b => match Bool.bool_dec (eqb a b) true with
        | left H => left (proj1 (ok a b) H) | right H => right (fun E => H (proj2 (ok a b) E)) end) k (map fst l)) as [H|H]; [exact H|].
      apply Q in H. discriminate.
    + split; [|discriminate]. intro H. exfalso. now apply Q.
Qed.
Print Assumptions C85_history.
Definition ops_ex : list (op Z Z) := [Set_ 3 1; Set_ 1 2; Update [(2, 5); (3, 7)]; Del 1; Set_ 1 9; PopItem false; SetDefault 4 4; Pop 8].
Example C85_history_ex :
  items Z Z Z.eqb (fst (run Z Z Z.eqb (new_od Z Z) ops_ex)) = Ok [(2, 5); (1, 9); (4, 4)] /\
  snd (run Z Z Z.eqb (new_od Z Z) ops_ex) = [Ok Done; Ok Done; Ok Done; Ok Done; Ok Done; Ok (Item 3 7); Ok (Value 4); Err KeyError].
Proof. split; vm_compute; reflexivity. Qed.

(* a copy, and what is made from the items (__reduce__), has the same items and is apart *)
Theorem C85_copy : forall K V (eqb : K -> K -> bool), (forall a b, eqb a b = true <-> a = b) -> forall os os',
  let d := fst (run K V eqb (new_od K V) os) in
  let l := fst (wanted_run K V eqb [] os) in
  exists c, copy K V eqb d = Ok c /\ items K V eqb c = Ok l /\
    snd (run K V eqb c os') = snd (wanted_run K V eqb l os') /\
    items K V eqb (fst (run K V eqb c os')) = Ok (fst (wanted_run K V eqb l os')) /\
    of_items K V eqb l = c.
Proof.
  intros K V eqb ok os os' d l. destruct (run_agrees K V eqb ok os _ _ (new_agrees K V eqb)) as [_ A]. fold d l in A.
  destruct (copy_agrees K V eqb ok d l A) as (c & C & A'). exists c. split; [exact C|]. split; [now apply items_agrees|].
  destruct (run_agrees K V eqb ok os' c l A') as [R B]. split; [exact R|]. split; [now apply items_agrees|].
  unfold copy in C. rewrite (items_agrees K V eqb ok d l A) in C. cbn [bind] in C. now injection C.
Qed.
Print Assumptions C85_copy.
Theorem C85_fromkeys : forall K V (eqb : K -> K -> bool), (forall a b, eqb a b = true <-> a = b) -> forall ks v,
  exists l, items K V eqb (fromkeys K V eqb ks v) = Ok l /\ NoDup (map fst l) /\ (forall k, In k ks <-> In k (map fst l)) /\
    Forall (fun x => snd x = v) l /\ (NoDup ks -> map fst l = ks).
Proof.
  intros K V eqb ok ks v.
  assert (E : forall d, fold_left (fun d k => setitem K V eqb d k v) ks d = update K V eqb d (map (fun k => (k, v)) ks)).
  { unfold update. induction ks as [|k ks IH]; intro d; cbn; [reflexivity|]. apply IH. }
  unfold fromkeys. rewrite E. set (m := map (fun k => (k, v)) ks).
  pose proof (update_agrees K V eqb ok m _ _ (new_agrees K V eqb)) as A. exists (puts K V eqb [] m).
  split; [now apply items_agrees|]. split; [now destruct A as (? & _ & _ & _ & N)|].
  assert (G : forall l, (forall k, In k ks \/ In k (map fst l) <-> In k (map fst (puts K V eqb l m))) /\
    (Forall (fun x => snd x = v) l -> Forall (fun x => snd x = v) (puts K V eqb l m))).
  { unfold m. clear E A. clear m. induction ks as [|k ks IH]; intro l; cbn [map puts fold_left fst snd In].
    - split; [tauto|auto].
    - destruct (IH (put K V eqb l k v)) as [I1 I2]. split.
      + intro j. change (fold_left (fun l x => put K V eqb l (fst x) (snd x)) (map (fun k => (k, v)) ks) (put K V eqb l k v))
          with (puts K V eqb (put K V eqb l k v) (map (fun k => (k, v)) ks)). rewrite <- I1, put_keys, there.
        destruct (bget K eqb l k) as [w|] eqn:E.
        * assert (In k (map fst l)) by (apply (bget_in K eqb ok) in E; now apply (in_map fst) in E). intuition congruence.
        * rewrite in_app_iff. cbn. tauto.
      + intro F. apply I2. unfold put. destruct (existsb _ l); [|apply Forall_app; auto].
        apply Forall_map. eapply Forall_impl; [|exact F]. intros x H. destruct (is K V eqb k x); auto. }
  destruct (G []) as [G1 G2]. split; [intro k; rewrite <- G1; cbn; tauto|]. split; [apply G2; constructor|].
  intro N. rewrite puts_all; auto; unfold m; cbn [app]; rewrite map_map; cbn; now rewrite map_id.
Qed.
Print Assumptions C85_fromkeys.
Example C85_fromkeys_ex : items Z Z Z.eqb (fromkeys Z Z Z.eqb [5; 2; 5; 9] 0) = Ok [(5, 0); (2, 0); (9, 0)].
Proof. vm_compute. reflexivity. Qed.

(* two of them are equal if they have the same items in the same order; with a dict the
   order does not count *)
Theorem C85_equal : forall K V (eqb : K -> K -> bool) (veqb : V -> V -> bool),
  (forall a b, eqb a b = true <-> a = b) -> (forall a b, veqb a b = true <-> a = b) -> forall os os' o,
  let d := fst (run K V eqb (new_od K V) os) in let l := fst (wanted_run K V eqb [] os) in
  let d' := fst (run K V eqb (new_od K V) os') in let l' := fst (wanted_run K V eqb [] os') in
  (exists b, equal K V eqb veqb d d' = Ok b /\ unequal K V eqb veqb d d' = Ok (negb b) /\ (b = true <-> l = l')) /\
  (NoDup (map fst o) -> equal_dict K V eqb veqb d o = true <-> Permutation l o).
Proof.
  intros K V eqb veqb ok vok os os' o d l d' l'. destruct (run_agrees K V eqb ok os _ _ (new_agrees K V eqb)) as [_ A].
  destruct (run_agrees K V eqb ok os' _ _ (new_agrees K V eqb)) as [_ A']. split.
  - now apply equal_agrees.
  - now apply equal_dict_agrees.
Qed.
Print Assumptions C85_equal.
(* so it is not transitive, as with the OrderedDict of Python *)
Example C85_equal_ex : exists a b o,
  let da := of_items Z Z Z.eqb a in let db := of_items Z Z Z.eqb b in
  NoDup (map fst o) /\ equal_dict Z Z Z.eqb Z.eqb da o = true /\ equal_dict Z Z Z.eqb Z.eqb db o = true /\ equal Z Z Z.eqb Z.eqb da db = Ok false.
Proof.
  exists [(1, 1); (2, 2)], [(2, 2); (1, 1)], [(1, 1); (2, 2)]. cbv zeta. split; [|vm_compute; auto].
  repeat constructor; cbn; intuition discriminate.
Qed.
