(* The environment of the library passes the checks of ReadProofs; the native of names. *)
Require Import Verif.Base Verif.BaseFacts Verif.Text Verif.PrimModel Verif.PrimSpec Verif.ContModel Verif.ContSpec Verif.ReadModel Verif.ReadSpec Verif.ReadProofs
  Verif.NameSort Verif.LibProofs Verif.LibModel Verif.LibRead.
Require Coq.Strings.String.
Require Import Coq.Bool.Bool.

Section Texts.
Variable texts : string -> bytes -> res (option text).

Definition entry_okb (pad : bool) (e : LibRead.entry) : bool :=
  closed pad (snd (fst (snd e))) &&
  class_okb (lib_env texts pad) (RClass (fst (fst (snd e))) (snd (fst (snd e))) (apply_out texts (snd (snd e)))).
Lemma table_ok pad : forallb (forallb (entry_okb pad)) (table pad) = true.
Proof. destruct pad; vm_compute; reflexivity. Qed.

(* ---- natives of their own ---- *)
Definition same_dict (l m : list (text * aval)) : Prop := all2 (fun x y => fst x = fst y /\ alike (snd x) (snd y)) l m.
Lemma put_alike n x y : alike x y -> forall l m, same_dict l m -> same_dict (dict_put l n x) (dict_put m n y).
Proof.
  intros A. unfold same_dict. induction l as [|[k a] l IH]; intros [|[k' a'] m]; cbn [all2 dict_put fst snd]; try tauto.
  intros [[E B] H]. cbn in E, B. subst k'. destruct (eqb_text k n); cbn [all2 fst snd]; auto.
Qed.
Lemma get_none n : forall l m, same_dict l m -> dict_get l n = None -> dict_get m n = None.
Proof.
  unfold same_dict. induction l as [|[k a] l IH]; intros [|[k' a'] m]; cbn [all2 dict_get]; try tauto. intros [[E _] H]. cbn in E. subst k'.
  destruct (eqb_text k n); [discriminate|]. eauto.
Qed.
Lemma all2_app {A B} (P : A -> B -> Prop) a c : forall b, all2 P a b -> forall d, all2 P c d -> all2 P (a ++ c) (b ++ d).
Proof. induction a as [|x a IH]; intros [|y b]; cbn; try tauto. intros [H K] d L. split; auto. Qed.
Lemma add_alike d d' a b e : same_dict d d' -> alike a b -> name_add d a = Ok e -> exists e', name_add d' b = Ok e' /\ same_dict e e'.
Proof.
  intros D A H. destruct a as [| |l| | |]; try discriminate. destruct b as [| |m| | |]; try contradiction. cbn [alike] in A. fold (same_dict l m) in A.
  unfold name_add in *. destruct (dict_get l (tx "type")) as [t|] eqn:T; [|destruct (dict_get l (tx "value")); discriminate].
  destruct (dict_get l (tx "value")) as [v|] eqn:V; [|destruct t as [|v0| | | |]; try discriminate; destruct v0; discriminate].
  destruct (dict_alike _ _ _ _ A T) as (t' & -> & At). destruct (dict_alike _ _ _ _ A V) as (v' & -> & Av).
  destruct t as [|w| | | |]; try discriminate H. destruct w as [| | |w| | | |]; try discriminate H. apply alike_text in At. subst t'. injection H as <-.
  eexists. split; [reflexivity|]. apply put_alike; auto. destruct (dict_get d w) as [o|] eqn:O.
  - destruct (dict_alike _ _ _ _ D O) as (o' & -> & Ao). destruct o, o'; try contradiction; cbn [alike all2]; auto.
    cbn [alike] in Ao. apply all2_app; cbn; auto.
  - now rewrite (get_none _ _ _ D O).
Qed.
Lemma rdn_alike : forall l m d d' e, same_dict d d' -> all2 alike l m -> name_rdn d l = Ok e -> exists e', name_rdn d' m = Ok e' /\ same_dict e e'.
Proof.
  induction l as [|a l IH]; intros [|b m] d d' e D; cbn [all2 name_rdn]; try tauto.
  - intros _ H. injection H as <-. eauto.
  - intros [A L] H. destruct (name_add d a) as [d1|] eqn:E; [|discriminate]. cbn [bind] in H.
    destruct (add_alike _ _ _ _ _ D A E) as (d1' & -> & D1). cbn [bind]. eauto.
Qed.
Lemma name_alike : forall l m d d' e, same_dict d d' -> all2 alike l m -> name_all d l = Ok e -> exists e', name_all d' m = Ok e' /\ same_dict e e'.
Proof.
  induction l as [|a l IH]; intros [|b m] d d' e D; cbn [all2]; try tauto.
  - intros _ H. cbn in *. injection H as <-. eauto.
  - intros [A L] H. destruct a as [| | |rdn| |]; try discriminate. destruct b as [| | |rdn'| |]; try contradiction. cbn [name_all alike] in *.
    destruct (name_rdn d rdn) as [d1|] eqn:E; [|discriminate]. cbn [bind] in H.
    destruct (rdn_alike _ _ _ _ _ D A E) as (d1' & -> & D1). cbn [bind]. eauto.
Qed.

Lemma text_alike t : alike (APrim (NText t)) (APrim (NText t)).
Proof. exists KBool. reflexivity. Qed.
Lemma out_respects o : respects (apply_out texts o).
Proof.
  intros a b x A H. destruct o as [|n|s|]; cbn [apply_out] in *.
  - injection H as <-. eauto.
  - destruct a as [|v| | | |]; try discriminate. destruct v as [| | | |c| | |]; try discriminate. apply alike_bytes in A. subst b.
    cbn [apply_out]. rewrite H. eexists. split; [reflexivity|].
    destruct (String.eqb n "x509.NotReallyTeletexString").
    + destruct (teletex_name_native c); [|discriminate]. injection H as <-. apply text_alike.
    + destruct (texts n c) as [[t|]|]; [| |discriminate]; injection H as <-; [apply text_alike|exact Logic.I].
  - injection H as <-. eexists. split; [reflexivity|]. apply text_alike.
  - destruct a as [| | |l| |]; try discriminate. destruct b as [| | |m| |]; try contradiction. cbn [alike] in A.
    destruct (name_all [] l) as [d|] eqn:E; [|discriminate]. injection H as <-.
    destruct (name_alike l m [] [] d Logic.I A E) as (d' & E' & D). cbn [apply_out]. rewrite E'. eexists. split; [reflexivity|]. exact D.
Qed.

Lemma lib_env_ok pad : env_ok (lib_env texts pad).
Proof.
  intros r k H. unfold lib_env, lookup in H. destruct (find _ _) as [e|] eqn:F; [|discriminate]. cbn [option_map] in H. injection H as <-.
  split; [|apply out_respects]. pose proof (table_ok pad) as T. rewrite forallb_forall in T.
  assert (I : In (nth (String.length (ref_name r)) (table pad) []) (table pad) \/ nth (String.length (ref_name r)) (table pad) [] = []).
  { destruct (nth_in_or_default (String.length (ref_name r)) (table pad) []) as [I|I]; auto. }
  destruct I as [I|I]; [|rewrite I in F; discriminate]. specialize (T _ I). rewrite forallb_forall in T.
  apply find_some in F as [F _]. specialize (T _ F). unfold entry_okb in T. apply andb_true_iff in T as [_ T]. exact T.
Qed.
Lemma lib_closed pad r k : lookup pad r = Some k -> closed pad (snd (fst k)) = true.
Proof.
  intros H. unfold lookup in H. destruct (find _ _) as [e|] eqn:F; [|discriminate]. cbn [option_map] in H. injection H as <-.
  pose proof (table_ok pad) as T. rewrite forallb_forall in T.
  destruct (nth_in_or_default (String.length (ref_name r)) (table pad) []) as [I|I]; [|rewrite I in F; discriminate].
  specialize (T _ I). rewrite forallb_forall in T.
  apply find_some in F as [F _]. specialize (T _ F). unfold entry_okb in T. now apply andb_true_iff in T as [T _].
Qed.
End Texts.

(* ---- names ---- *)
Definition type_value (p : text * aval) : aval := ADict [(tx "type", APrim (NText (fst p))); (tx "value", snd p)].
Definition name_value (l : list (list (text * aval))) : aval := AList (map (fun rdn => AList (map type_value rdn)) l).
Definition values_of (t : text) (l : list (text * aval)) : list aval := map snd (filter (fun p => eqb_text (fst p) t) l).
Definition shown (vs : list aval) : option aval := match vs with [] => None | [v] => Some v | _ => Some (AList vs) end.
Fixpoint first_seen (seen : list text) (l : list text) : list text :=
  match l with
  | [] => []
  | t :: r => if existsb (eqb_text t) seen then first_seen seen r else t :: first_seen (t :: seen) r
  end.
Definition no_list (a : aval) : Prop := match a with AList _ => False | _ => True end.

Lemma name_add_pair d p : name_add d (type_value p) = Ok (dict_put d (fst p) (match dict_get d (fst p) with
  | Some (AList old) => AList (old ++ [snd p]) | Some old => AList [old; snd p] | None => snd p end)).
Proof.
  unfold name_add, type_value. change (dict_get [(tx "type", APrim (NText (fst p))); (tx "value", snd p)] (tx "type")) with (Some (APrim (NText (fst p)))).
  change (dict_get [(tx "type", APrim (NText (fst p))); (tx "value", snd p)] (tx "value")) with (Some (snd p)). reflexivity.
Qed.
Lemma get_put n x m : forall d, dict_get (dict_put d n x) m = if eqb_text n m then Some x else dict_get d m.
Proof.
  induction d as [|[k y] d IH]; cbn [dict_put].
  - cbn [dict_get]. destruct (eqb_text n m); reflexivity.
  - destruct (eqb_text k n) eqn:E.
    + apply eqb_text_iff in E. subst k. cbn [dict_get]. destruct (eqb_text n m); reflexivity.
    + cbn [dict_get]. destruct (eqb_text k m) eqn:F; [|exact IH]. apply eqb_text_iff in F. subst k.
      destruct (eqb_text n m) eqn:G; [|reflexivity]. apply eqb_text_iff in G. subst n. rewrite eqb_text_refl in E. discriminate.
Qed.
Lemma keys_put n x : forall d, map fst (dict_put d n x) = if existsb (eqb_text n) (map fst d) then map fst d else map fst d ++ [n].
Proof.
  induction d as [|[k y] d IH]; cbn [dict_put map fst existsb app]; [reflexivity|].
  destruct (eqb_text k n) eqn:E.
  - apply eqb_text_iff in E. subst k. rewrite eqb_text_refl. reflexivity.
  - assert (F : eqb_text n k = false).
    { destruct (eqb_text n k) eqn:F; [|reflexivity]. apply eqb_text_iff in F. subst k. rewrite eqb_text_refl in E. discriminate. }
    rewrite F. cbn [orb map fst]. rewrite IH. destruct (existsb (eqb_text n) (map fst d)); reflexivity.
Qed.
Definition add_pair (d : list (text * aval)) (p : text * aval) : list (text * aval) :=
  dict_put d (fst p) (match dict_get d (fst p) with
    | Some (AList old) => AList (old ++ [snd p]) | Some old => AList [old; snd p] | None => snd p end).
Lemma rdn_fold : forall l d, name_rdn d (map type_value l) = Ok (fold_left add_pair l d).
Proof. induction l as [|p l IH]; intros d; [reflexivity|]. cbn [map name_rdn fold_left]. rewrite name_add_pair. cbn [bind]. apply IH. Qed.
Lemma all_fold : forall l d, name_all d (map (fun rdn => AList (map type_value rdn)) l) = Ok (fold_left add_pair (concat l) d).
Proof.
  induction l as [|x l IH]; intros d; [reflexivity|]. cbn [map name_all concat]. rewrite rdn_fold. cbn [bind]. rewrite IH, fold_left_app. reflexivity.
Qed.

Lemma seen_app n : forall l seen, first_seen seen (l ++ [n]) =
  if existsb (eqb_text n) l || existsb (eqb_text n) seen then first_seen seen l else first_seen seen l ++ [n].
Proof.
  induction l as [|t l IH]; intros seen; cbn [app first_seen existsb orb].
  - destruct (existsb (eqb_text n) seen); reflexivity.
  - destruct (existsb (eqb_text t) seen) eqn:E.
    + rewrite IH. destruct (eqb_text n t) eqn:F; [|reflexivity]. apply eqb_text_iff in F. subst t. rewrite E, orb_true_r. reflexivity.
    + rewrite IH. cbn [existsb]. destruct (eqb_text n t), (existsb (eqb_text n) l), (existsb (eqb_text n) seen); reflexivity.
Qed.
Lemma seen_in n : forall l seen, existsb (eqb_text n) seen = false -> existsb (eqb_text n) (first_seen seen l) = existsb (eqb_text n) l.
Proof.
  induction l as [|t l IH]; intros seen H; cbn [first_seen existsb]; [reflexivity|]. destruct (existsb (eqb_text t) seen) eqn:E.
  - rewrite IH by assumption. destruct (eqb_text n t) eqn:F; [|reflexivity]. apply eqb_text_iff in F. subst t. congruence.
  - cbn [existsb]. destruct (eqb_text n t) eqn:F; [reflexivity|]. cbn [orb]. apply IH. cbn [existsb]. now rewrite F.
Qed.
Lemma add_shown P d p : Forall no_list (map snd P) ->
  (forall t, dict_get d t = shown (values_of t P)) /\ map fst d = first_seen [] (map fst P) ->
  (forall t, dict_get (add_pair d p) t = shown (values_of t (P ++ [p]))) /\ map fst (add_pair d p) = first_seen [] (map fst (P ++ [p])).
Proof.
  intros N [H K]. split.
  - intros t. unfold add_pair. rewrite get_put. unfold values_of. rewrite filter_app, map_app. cbn [filter].
    destruct (eqb_text (fst p) t) eqn:E; [|cbn [map]; rewrite app_nil_r; apply H].
    apply eqb_text_iff in E. subst t. rewrite H. cbn [map]. fold (values_of (fst p) P).
    assert (M : Forall no_list (values_of (fst p) P)).
    { rewrite Forall_forall in *. intros v I. apply N. unfold values_of in I. apply in_map_iff in I as (q & <- & I). apply filter_In in I as [I _]. now apply in_map. }
    destruct (values_of (fst p) P) as [|v [|w r]]; cbn [shown app]; [reflexivity| |reflexivity]. inversion M as [|? ? V _]. destruct v; try reflexivity. contradiction.
  - unfold add_pair. rewrite keys_put, K, map_app. cbn [map]. rewrite seen_app. cbn [existsb]. rewrite orb_false_r, seen_in by reflexivity. reflexivity.
Qed.
Lemma fold_shown : forall l P d, Forall no_list (map snd (P ++ l)) ->
  (forall t, dict_get d t = shown (values_of t P)) /\ map fst d = first_seen [] (map fst P) ->
  (forall t, dict_get (fold_left add_pair l d) t = shown (values_of t (P ++ l))) /\ map fst (fold_left add_pair l d) = first_seen [] (map fst (P ++ l)).
Proof.
  induction l as [|p l IH]; intros P d N H; cbn [fold_left]; [now rewrite app_nil_r|].
  assert (E : P ++ p :: l = (P ++ [p]) ++ l) by (now rewrite <- app_assoc). rewrite E in *. apply IH; [exact N|]. apply add_shown; [|exact H].
  rewrite !map_app, !Forall_app in N. tauto.
Qed.
