(* The library's own tables (Tables.v): what is checked of each, and the general
   results of MapProofs applied to them. *)
Require Import Verif.Base Verif.BaseFacts Verif.Text Verif.OidModel Verif.OidSpec Verif.OidProofs
  Verif.MapModel Verif.MapSpec Verif.MapProofs Verif.Tables.
Require Coq.Strings.String Coq.Strings.Ascii.

Notation str := String.string.

(* ---- texts of strings ---- *)
Lemma tx_inj (a : str) : forall b, tx a = tx b -> a = b.
Proof.
  induction a as [|x a IH]; intros [|y b]; cbn [tx]; try discriminate; [reflexivity|].
  intro H. injection H as E F. f_equal; [|now apply IH].
  apply Nat2Z.inj in E. rewrite <- (Ascii.ascii_nat_embedding x), <- (Ascii.ascii_nat_embedding y).
  now rewrite E.
Qed.

Definition txm (m : list (str * str)) : list (text * text) := map (fun kv => (tx (fst kv), tx (snd kv))) m.
Definition txz (m : list (Z * str)) : list (Z * text) := map (fun kv => (fst kv, tx (snd kv))) m.

Lemma in_txm m k n : In (k, n) (txm m) <-> exists a b, k = tx a /\ n = tx b /\ In (a, b) m.
Proof.
  unfold txm. rewrite in_map_iff. split.
  - intros [[a b] [E I]]. cbn in E. injection E as <- <-. eauto.
  - intros (a & b & -> & -> & I). now exists (a, b).
Qed.
Lemma in_txz m k n : In (k, n) (txz m) <-> exists b, n = tx b /\ In (k, b) m.
Proof.
  unfold txz. rewrite in_map_iff. split.
  - intros [[a b] [E I]]. cbn in E. injection E as <- <-. eauto.
  - intros (b & -> & I). now exists (k, b).
Qed.
Lemma in_txm_tx m a b : In (tx a, tx b) (txm m) <-> In (a, b) m.
Proof.
  rewrite in_txm. split.
  - intros (a' & b' & E & F & I). apply tx_inj in E, F. now subst.
  - intro I. now exists a, b.
Qed.

(* ---- checks ---- *)
Fixpoint sin (s : str) (l : list str) : bool :=
  match l with [] => false | x :: r => String.eqb x s || sin s r end.
Fixpoint snodup (l : list str) : bool :=
  match l with [] => true | x :: r => negb (sin x r) && snodup r end.
Fixpoint zin (s : Z) (l : list Z) : bool :=
  match l with [] => false | x :: r => Z.eqb x s || zin s r end.
Fixpoint znodup (l : list Z) : bool :=
  match l with [] => true | x :: r => negb (zin x r) && znodup r end.

Lemma sin_iff s l : sin s l = true <-> In s l.
Proof.
  induction l as [|x r IH]; cbn; [split; [discriminate|tauto]|].
  rewrite orb_true_iff, IH, String.eqb_eq. tauto.
Qed.
Lemma snodup_ok l : snodup l = true -> NoDup l.
Proof.
  induction l as [|x r IH]; cbn; [constructor|]. rewrite andb_true_iff, negb_true_iff. intros [A B].
  constructor; [|auto]. intro I. apply sin_iff in I. congruence.
Qed.
Lemma zin_iff s l : zin s l = true <-> In s l.
Proof.
  induction l as [|x r IH]; cbn; [split; [discriminate|tauto]|].
  rewrite orb_true_iff, IH, Z.eqb_eq. tauto.
Qed.
Lemma znodup_ok l : znodup l = true -> NoDup l.
Proof.
  induction l as [|x r IH]; cbn; [constructor|]. rewrite andb_true_iff, negb_true_iff. intros [A B].
  constructor; [|auto]. intro I. apply zin_iff in I. congruence.
Qed.

Lemma NoDup_map_inj {A B} (f : A -> B) (l : list A) : (forall x y, f x = f y -> x = y) -> NoDup l -> NoDup (map f l).
Proof.
  intros J N. induction N as [|x l NI N IH]; cbn; constructor; auto.
  intro I. apply in_map_iff in I. destruct I as (y & E & I). apply J in E. now subst.
Qed.
Lemma NoDup_map_uniq {A B} (f : A -> B) (l : list A) x y : NoDup (map f l) -> In x l -> In y l -> f x = f y -> x = y.
Proof.
  induction l as [|a l IH]; cbn; [tauto|]. intros N [->|I] [->|I'] E; auto.
  - inversion N; subst. exfalso. apply H1. rewrite E. now apply in_map.
  - inversion N; subst. exfalso. apply H1. rewrite <- E. now apply in_map.
  - inversion N; subst. auto.
Qed.

Lemma txm_dict m : snodup (map fst m) = true -> is_dict (txm m).
Proof.
  intro H. apply snodup_ok in H. unfold is_dict, txm. rewrite map_map. cbn.
  rewrite <- (map_map fst tx). apply NoDup_map_inj; [exact tx_inj|exact H].
Qed.
Lemma txz_dict m : znodup (map fst m) = true -> is_dict (txz m).
Proof. intro H. apply znodup_ok in H. unfold is_dict, txz. rewrite map_map. exact H. Qed.
Lemma txm_one m : snodup (map snd m) = true -> one_key_per_name (txm m).
Proof.
  intros H k k' n A B. apply snodup_ok in H. apply in_txm in A, B.
  destruct A as (a & b & -> & -> & A), B as (a' & b' & -> & E & B). apply tx_inj in E. subst b'.
  pose proof (NoDup_map_uniq snd m (a, b) (a', b) H A B eq_refl) as Q. now injection Q as ->.
Qed.
Lemma txz_one m : snodup (map snd m) = true -> one_key_per_name (txz m).
Proof.
  intros H k k' n A B. apply snodup_ok in H. apply in_txz in A, B.
  destruct A as (b & -> & A), B as (b' & E & B). apply tx_inj in E. subst b'.
  pose proof (NoDup_map_uniq snd m (k, b) (k', b) H A B eq_refl) as Q. now injection Q as ->.
Qed.

(* an object identifier in dotted form, and a text that cannot be one *)
Definition arcs_text (s : text) : list Z := map dec_value (split_on 46 s).
Definition legalb (arcs : list Z) : bool :=
  match arcs with
  | a0 :: a1 :: rest => (0 <=? a0) && (a0 <=? 2) && (0 <=? a1) && ((2 <=? a0) || (a1 <? 40)) && forallb (fun a => 0 <=? a) rest
  | _ => false
  end.
Definition oidb (s : text) : bool := legalb (arcs_text s) && eqb_text (dotted_text (arcs_text s)) s.
Lemma oidb_ok s : oidb s = true -> is_oid s.
Proof.
  unfold oidb. rewrite andb_true_iff. intros [L E]. apply text_ok in E. exists (arcs_text s). split; [|now symmetry].
  unfold legalb in L. unfold legal_oid. destruct (arcs_text s) as [|a0 [|a1 rest]]; try discriminate.
  rewrite !andb_true_iff, orb_true_iff, !Z.leb_le, Z.ltb_lt, forallb_forall in L.
  destruct L as ((((A & B) & C) & D) & F). repeat split; try lia.
  apply Forall_forall. intros x I. apply Z.leb_le. auto.
Qed.
Lemma oid_chars s : is_oid s -> Forall (fun c => 48 <= c <= 57 \/ c = 46) s.
Proof.
  intros (arcs & L & ->). apply legal_nonneg in L. unfold dotted_text.
  induction arcs as [|a l IH]; cbn [map join_with]; [constructor|].
  inversion L; subst. assert (G : Forall (fun c => 48 <= c <= 57 \/ c = 46) (dec a)).
  { eapply Forall_impl; [|exact (dec_digits a H1)]. intros. now left. }
  destruct l as [|a' l]; [exact G|]. cbn [map]. apply Forall_app. split; [exact G|].
  constructor; [now right|]. exact (IH H2).
Qed.
Definition letterb (s : text) : bool := existsb (fun c => negb ((48 <=? c) && (c <=? 57) || (c =? 46))) s.
Lemma letterb_ok s : letterb s = true -> ~ is_oid s.
Proof.
  intros H O. apply oid_chars in O. rewrite Forall_forall in O.
  unfold letterb in H. apply existsb_exists in H. destruct H as (c & I & N).
  apply negb_true_iff, orb_false_iff in N. destruct N as [A B]. apply Z.eqb_neq in B.
  apply O in I. destruct I as [I|I]; [|lia].
  apply andb_false_iff in A. rewrite !Z.leb_gt in A. lia.
Qed.
Definition keysb (m : list (str * str)) : bool := forallb (fun kv => oidb (tx (fst kv)) && letterb (tx (snd kv))) m.
Lemma keysb_ok m : keysb m = true -> oid_keys (txm m).
Proof.
  intros H k n I. apply in_txm in I. destruct I as (a & b & -> & -> & I).
  unfold keysb in H. rewrite forallb_forall in H. apply H in I. cbn in I.
  apply andb_true_iff in I. destruct I. split; [now apply oidb_ok|now apply letterb_ok].
Qed.

(* ---- the classes ---- *)
Fixpoint sget {V} (d : list (str * V)) (k : str) : option V :=
  match d with [] => None | (a, v) :: r => if String.eqb a k then Some v else sget r k end.
Definition explicit_rev (nm : str) : option (list (str * str)) := sget reverse_maps nm.
(* the class of a table, as the module declares it *)
Definition lib_cls (nm : str) (m : list (str * str)) : ocls :=
  declare (txm m) (option_map txm (explicit_rev nm)).
(* the entries pdf and tsp add to it *)
Definition additions (l : list (str * (str * str))) (nm : str) : list (str * str) :=
  map snd (filter (fun x => String.eqb (fst x) nm) l).
Fixpoint sput {V} (d : list (str * V)) (k : str) (v : V) : list (str * V) :=
  match d with
  | [] => [(k, v)]
  | (a, w) :: r => if String.eqb a k then (a, v) :: r else (a, w) :: sput r k v
  end.
Definition joined (m l : list (str * str)) : list (str * str) := fold_left (fun m kv => sput m (fst kv) (snd kv)) l m.
Definition import_into (c : ocls) (l : list (str * str)) : ocls :=
  fold_left (fun c kv => add_entry eqb_text c (tx (fst kv)) (tx (snd kv))) l c.
Definition any_algorithm_id : ocls :=
  Cls [Own (Some (txm map_algos_AnyAlgorithmId)) None; no_map] false
      (Some [txm map_algos_EncryptionAlgorithmId; txm map_algos_SignedDigestAlgorithmId;
             txm map_algos_DigestAlgorithmId]).

Lemma sget_in {V} (d : list (str * V)) k v : sget d k = Some v -> In (k, v) d.
Proof.
  induction d as [|[a w] r IH]; cbn; [discriminate|]. destruct (String.eqb a k) eqn:E.
  - apply String.eqb_eq in E. intro H. injection H as ->. subst. now left.
  - right. auto.
Qed.
Lemma sget_dget (m : list (str * str)) k : dget eqb_text (txm m) (tx k) = option_map tx (sget m k).
Proof.
  induction m as [|[a v] m IH]; cbn [txm map dget sget fst snd]; [reflexivity|].
  destruct (String.eqb a k) eqn:E.
  - apply String.eqb_eq in E. subst. rewrite (proj2 (text_ok (tx k) (tx k)) eq_refl). reflexivity.
  - destruct (eqb_text (tx a) (tx k)) eqn:F; [|exact IH].
    apply text_ok, tx_inj in F. subst. now rewrite String.eqb_refl in E.
Qed.

(* every table: keys unique, all object identifiers; names never object identifiers *)
Definition table_ok (m : list (str * str)) : bool := snodup (map fst m) && keysb m.
(* names unique, for the tables without a reverse map of their own *)
Definition plain_ok (m : list (str * str)) : bool := table_ok m && snodup (map snd m).
(* a reverse map of its own: each name of the table goes to a key with that name, and
   that is the only key, or the other keys are aliases; its other names are no OIDs *)
Definition aliasb (nm k : str) : bool := existsb (fun x => String.eqb (fst x) nm && String.eqb (snd x) k) aliases.
Definition given_ok (nm : str) (m r : list (str * str)) : bool :=
  table_ok m &&
  forallb (fun kv => match sget r (snd kv) with
                     | Some k' => match sget m k' with Some n' => String.eqb n' (snd kv) | None => false end
                                  && (String.eqb k' (fst kv) || aliasb nm (fst kv))
                     | None => false
                     end) m &&
  forallb (fun nk => letterb (tx (fst nk))) r.
Definition lib_ok (x : str * list (str * str)) : bool :=
  match explicit_rev (fst x) with
  | None => plain_ok (joined (joined (snd x) (additions added_pdf (fst x))) (additions added_tsp (fst x)))
            && plain_ok (joined (snd x) (additions added_pdf (fst x)))
            && plain_ok (joined (snd x) (additions added_tsp (fst x)))
            && plain_ok (snd x)
  | Some r => given_ok (fst x) (snd x) r
  end.

Lemma library_checked : forallb lib_ok oid_maps = true.
Proof. vm_compute. reflexivity. Qed.

Lemma aliasb_in nm k : aliasb nm k = true -> In (nm, k) aliases.
Proof.
  unfold aliasb. rewrite existsb_exists. intros ([a b] & I & E). apply andb_true_iff in E.
  cbn in E. rewrite !String.eqb_eq in E. destruct E as [-> ->]. exact I.
Qed.

Section Lib.
Variable nd : Z -> bool.

Lemma plain_facts m : plain_ok m = true ->
  is_dict (txm m) /\ one_key_per_name (txm m) /\ oid_keys (txm m).
Proof.
  unfold plain_ok, table_ok. rewrite !andb_true_iff. intros ((A & B) & C).
  split; [now apply txm_dict|]. split; [now apply txm_one|now apply keysb_ok].
Qed.

(* the whole statement for one class *)
Definition consistent (nm : str) (m : list (str * str)) (c : ocls) : Prop :=
  (forall k n, In (k, n) m -> exists k',
     In (k', n) m /\ (k' = k \/ In (nm, k) aliases) /\
     oid_map c (tx k) = Ok (tx n) /\
     snd (oid_unmap nd c (tx n)) = Ok (tx k') /\ oid_map c (tx k') = Ok (tx n) /\
     exists b, snd (oid_make c (tx n)) = Ok b /\ encodes (tx k') b /\
       snd (oid_read c b) = tx n /\ oid_native c (Some (tx n)) b = tx n) /\
  (forall s b, encodes s b -> (forall a, s = tx a -> ~ In (nm, a) aliases) ->
     snd (oid_make c (snd (oid_read c b))) = Ok b).

Lemma plain_consistent nm m c : plain_ok m = true -> in_use (txm m) c -> consistent nm m c.
Proof.
  intros P U. destruct (plain_facts m P) as (D & J & O).
  destruct (user_reencode (txm m) c U D J O) as [R1 R2]. split.
  - intros k n I. exists k. pose proof (proj2 (in_txm_tx m k n) I) as I'.
    destruct (both_ways nd (txm m) c _ _ U D J I') as [A B].
    specialize (R1 _ _ I'). repeat split; auto.
  - intros s b B _. exact (R2 s b B).
Qed.

Lemma given_consistent nm m r c : given_ok nm m r = true ->
  fresh (txm m) (Some (txm r)) c \/ ready (txm m) (txm r) c -> consistent nm m c.
Proof.
  unfold given_ok. rewrite !andb_true_iff, !forallb_forall. intros ((T & G) & L) U.
  unfold table_ok in T. apply andb_true_iff in T. destruct T as [T1 T2].
  pose proof (txm_dict m T1) as D. pose proof (keysb_ok m T2) as O.
  assert (NO : forall n k, dget eqb_text (txm r) n = Some k -> ~ is_oid n).
  { intros n k H. apply (dget_in eqb_text text_ok) in H. apply in_txm in H.
    destruct H as (a & b & -> & -> & H). apply letterb_ok. exact (L _ H). }
  assert (Q : forall k n, In (k, n) m -> exists k', sget r n = Some k' /\ In (k', n) m /\
            (k' = k \/ In (nm, k) aliases)).
  { intros k n I. specialize (G _ I). cbn in G. destruct (sget r n) as [k'|]; [|discriminate].
    exists k'. apply andb_true_iff in G. destruct G as [G1 G2].
    destruct (sget m k') as [n'|] eqn:E; [|discriminate]. apply String.eqb_eq in G1. subst n'.
    split; [reflexivity|]. split; [now apply sget_in|].
    apply orb_true_iff in G2. destruct G2 as [G2|G2].
    - apply String.eqb_eq in G2. now left.
    - right. now apply aliasb_in. }
  split.
  - intros k n I. destruct (Q k n I) as (k' & S & I' & A). exists k'.
    pose proof (proj2 (in_txm_tx m k' n) I') as J'. pose proof (proj2 (in_txm_tx m k n) I) as J.
    assert (S' : dget eqb_text (txm r) (tx n) = Some (tx k')) by now rewrite sget_dget, S.
    split; [exact I'|]. split; [exact A|]. split; [|split; [|split]].
    + rewrite (map_state (txm m) (Some (txm r)) c _ U). now rewrite (in_dget eqb_text text_ok _ _ _ D J).
    + rewrite (unmap_state nd (txm m) (Some (txm r)) c _ U). cbn [rev_of]. now rewrite S'.
    + rewrite (map_state (txm m) (Some (txm r)) c _ U). now rewrite (in_dget eqb_text text_ok _ _ _ D J').
    + exact (make_name (txm m) (Some (txm r)) c (tx n) (tx k') U D O S' J').
  - intros s b B NA. apply (read_make (txm m) (Some (txm r)) c s b U D O); [exact NO| |exact B].
    cbn [rev_of]. intros n I. apply in_txm in I. destruct I as (a & b' & -> & -> & I).
    destruct (Q _ _ I) as (k' & S & I' & [->|A]); [now rewrite sget_dget, S|].
    elim (NA a eq_refl A).
Qed.

Lemma library_consistent nm m l : In (nm, m) oid_maps -> consistent nm m (after nd l (lib_cls nm m)).
Proof.
  intro I. pose proof library_checked as H. rewrite forallb_forall in H. apply H in I.
  unfold lib_ok in I. cbn [fst snd] in I. unfold lib_cls.
  destruct (explicit_rev nm) as [r|]; cbn [option_map].
  - apply (given_consistent nm m r); [exact I|].
    apply (after_state nd (txm m) (Some (txm r)) l). left. apply fresh_declare.
  - rewrite !andb_true_iff in I. apply plain_consistent; [exact (proj2 I)|]. apply in_use_after.
Qed.

Lemma txm_sput m k v : txm (sput m k v) = dput eqb_text (txm m) (tx k) (tx v).
Proof.
  induction m as [|[a w] m IH]; cbn [sput txm map dput fst snd]; [reflexivity|].
  destruct (String.eqb a k) eqn:E.
  - apply String.eqb_eq in E. subst. rewrite (proj2 (text_ok (tx k) (tx k)) eq_refl). reflexivity.
  - destruct (eqb_text (tx a) (tx k)) eqn:F.
    + apply text_ok, tx_inj in F. subst. now rewrite String.eqb_refl in E.
    + cbn [map fst snd]. f_equal. exact IH.
Qed.

Lemma import_fresh l : forall m c, fresh (txm m) None c -> fresh (txm (joined m l)) None (import_into c l).
Proof.
  induction l as [|[k n] l IH]; intros m c F; [exact F|].
  unfold joined, import_into. cbn [fold_left fst snd]. apply IH.
  destruct F as (D & A & M & R & N). unfold fresh, add_entry, on_mro, c_map, c_rev in *. cbn.
  repeat split; auto.
  - rewrite (find_put_map _ _ _ _ _ M). now rewrite txm_sput.
  - now rewrite find_rev_put_map.
  - now apply put_map_nonnil.
Qed.

(* with the modules pdf and tsp, or one of them, imported before the class is first used *)
Lemma imported_consistent nm m l pdf tsp : In (nm, m) oid_maps -> explicit_rev nm = None ->
  pdf = additions added_pdf nm \/ pdf = [] -> tsp = additions added_tsp nm \/ tsp = [] ->
  consistent nm (joined (joined m pdf) tsp) (after nd l (import_into (import_into (lib_cls nm m) pdf) tsp)).
Proof.
  intros I X P T. pose proof library_checked as H. rewrite forallb_forall in H. apply H in I.
  unfold lib_ok in I. cbn [fst snd] in I. rewrite X in I. rewrite !andb_true_iff in I.
  destruct I as (((Q1 & Q2) & Q3) & Q4).
  apply plain_consistent.
  - destruct P as [->| ->], T as [->| ->]; assumption.
  - apply (after_state nd (txm _) None l). left. apply import_fresh, import_fresh.
    unfold lib_cls. rewrite X. apply fresh_declare.
Qed.
End Lib.

(* ---- numbers ---- *)
Definition numbers_ok (m : list (Z * str)) : bool := znodup (map fst m) && snodup (map snd m).
Lemma numbers_checked : forallb (fun x => numbers_ok (snd x)) (int_maps ++ enum_maps ++ bit_maps) = true.
Proof. vm_compute. reflexivity. Qed.
Lemma numbers_facts nm m : In (nm, m) (int_maps ++ enum_maps ++ bit_maps) ->
  is_dict (txz m) /\ one_key_per_name (txz m).
Proof.
  intro I. pose proof numbers_checked as H. rewrite forallb_forall in H. apply H in I. cbn in I.
  unfold numbers_ok in I. apply andb_true_iff in I. destruct I.
  split; [now apply txz_dict|now apply txz_one].
Qed.

(* ---- the types bound to names ---- *)
Definition names_of (nm : str) : list str :=
  match sget oid_maps nm with
  | Some m => map snd (joined (joined m (additions added_pdf nm)) (additions added_tsp nm))
  | None => match sget int_maps nm with Some m => map snd m | None => [] end
  end.
(* all but one entry *)
Definition unreachable (x k : str) : bool := String.eqb x "pkcs12.Attribute" && String.eqb k "microsoft_csp_name".
Lemma specs_checked : forallb (fun x => snodup (map fst (snd (snd x))) &&
  forallb (fun kv => sin (fst kv) (names_of (fst (snd x))) || unreachable (fst x) (fst kv)) (snd (snd x))) spec_tables = true.
Proof. vm_compute. reflexivity. Qed.

(* the identifiers a class can name once pdf and tsp are imported *)
Definition full_map (nm : str) : list (str * str) :=
  match sget oid_maps nm with
  | Some m => joined (joined m (additions added_pdf nm)) (additions added_tsp nm)
  | None => []
  end.
Lemma specs_named x idc specs k t : In (x, (idc, specs)) spec_tables -> In (k, t) specs ->
  (x <> "pkcs12.Attribute" \/ k <> "microsoft_csp_name")%string ->
  (exists o, In (o, k) (full_map idc)) \/ (exists m z, In (idc, m) int_maps /\ In (z, k) m).
Proof.
  intros I J U. pose proof specs_checked as H. rewrite forallb_forall in H. apply H in I. cbn in I.
  apply andb_true_iff in I. destruct I as [_ I]. rewrite forallb_forall in I. apply I in J. cbn in J.
  apply orb_true_iff in J. destruct J as [J|J].
  - apply sin_iff in J. unfold names_of in J. unfold full_map.
    destruct (sget oid_maps idc) as [m|].
    + left. apply in_map_iff in J. destruct J as ([o k'] & E & J). cbn in E. subst. now exists o.
    + right. destruct (sget int_maps idc) as [m|] eqn:E; [|destruct J].
      apply sget_in in E. apply in_map_iff in J. destruct J as ([z k'] & F & J). cbn in F. subst. now exists m, z.
  - unfold unreachable in J. rewrite andb_true_iff, !String.eqb_eq in J. tauto.
Qed.

(* the class of an identifier field with pdf and tsp imported, after some use *)
Definition full_cls (nm : str) (m : list (str * str)) : ocls :=
  import_into (import_into (lib_cls nm m) (additions added_pdf nm)) (additions added_tsp nm).

Lemma no_additions nm r : explicit_rev nm = Some r -> additions added_pdf nm = [] /\ additions added_tsp nm = [].
Proof.
  intro X. apply sget_in in X. destruct X as [E|[E|[]]]; injection E as <- <-; vm_compute; auto.
Qed.

Lemma specs_reachable nd x idc specs k t l :
  In (x, (idc, specs)) spec_tables -> In (k, t) specs ->
  (x <> "pkcs12.Attribute" \/ k <> "microsoft_csp_name")%string ->
  (exists m o b, In (idc, m) oid_maps /\ encodes (tx o) b /\
     snd (oid_read (after nd l (full_cls idc m)) b) = tx k) \/
  (exists m z, In (idc, m) int_maps /\ In (z, k) m).
Proof.
  intros I J U. destruct (specs_named x idc specs k t I J U) as [[o K]|K]; [left|now right].
  unfold full_map in K. destruct (sget oid_maps idc) as [m|] eqn:E; [|destruct K].
  apply sget_in in E.
  assert (C : exists m', In (o, k) m' /\ consistent nd idc m' (after nd l (full_cls idc m))).
  { unfold full_cls. destruct (explicit_rev idc) as [r|] eqn:X.
    - destruct (no_additions _ _ X) as [A B]. rewrite A, B in *. exists m. split; [exact K|].
      exact (library_consistent nd idc m l E).
    - exists (joined (joined m (additions added_pdf idc)) (additions added_tsp idc)). split; [exact K|].
      apply imported_consistent; auto. }
  destruct C as (m' & K' & C & _). destruct (C o k K') as (o' & _ & _ & _ & _ & _ & b & _ & B & R & _).
  exists m, o', b. auto.
Qed.
Lemma specs_functional x idc specs : In (x, (idc, specs)) spec_tables -> NoDup (map fst specs).
Proof.
  intro I. pose proof specs_checked as H. rewrite forallb_forall in H. apply H in I. cbn in I.
  apply andb_true_iff in I. apply snodup_ok. tauto.
Qed.

(* ---- AnyAlgorithmId ---- *)
Lemma any_use_done : k_done (use any_algorithm_id) = true. Proof. reflexivity. Qed.
Lemma any_after nd l : after nd l any_algorithm_id = any_algorithm_id \/
  after nd l any_algorithm_id = use any_algorithm_id.
Proof.
  assert (A : forall a, act_on nd any_algorithm_id a = use any_algorithm_id) by (destruct a; reflexivity).
  assert (B : forall a, act_on nd (use any_algorithm_id) a = use any_algorithm_id).
  { destruct a; cbn [act_on]; unfold oid_unmap, oid_make, oid_read; cbn [fst]; unfold use at 1;
      apply ensure_done; exact any_use_done. }
  assert (G : forall l, fold_left (act_on nd) l (use any_algorithm_id) = use any_algorithm_id).
  { induction l0 as [|a l0 IH]; [reflexivity|]. cbn [fold_left]. now rewrite B. }
  destruct l as [|a l]; [now left|right]. unfold after. cbn [fold_left]. rewrite A. apply G.
Qed.
Lemma any_used nd l : use (after nd l any_algorithm_id) = use any_algorithm_id.
Proof.
  destruct (any_after nd l) as [E|E]; rewrite E; [reflexivity|].
  unfold use at 1. apply ensure_done. exact any_use_done.
Qed.
Definition any_names : list (text * text) :=
  match c_map (use any_algorithm_id) with Some m => m | None => [] end.
Lemma any_map : c_map (use any_algorithm_id) = Some any_names.
Proof. vm_compute. reflexivity. Qed.
Lemma any_rev : c_rev (use any_algorithm_id) = None.
Proof. vm_compute. reflexivity. Qed.

Lemma any_unusable nd l s : snd (oid_unmap nd (after nd l any_algorithm_id) s) = Err TypeError /\
  snd (oid_make (after nd l any_algorithm_id) s) = Err TypeError.
Proof.
  unfold oid_unmap, oid_make. cbn [snd]. now rewrite any_used, any_map, any_rev.
Qed.

(* what it reads: the later of the three tables wins *)
Definition any_reads : list (str * str) :=
  map_algos_DigestAlgorithmId ++ map_algos_SignedDigestAlgorithmId ++
  filter (fun kv => negb (String.eqb (fst kv) "1.2.840.113549.1.1.1")) map_algos_EncryptionAlgorithmId.
Lemma any_reads_checked : forallb (fun kv => oidb (tx (fst kv)) &&
  match dget eqb_text any_names (tx (fst kv)) with Some n => eqb_text n (tx (snd kv)) | None => false end) any_reads = true.
Proof. vm_compute. reflexivity. Qed.
Lemma any_reads_ok nd l k n b : In (k, n) any_reads -> encodes (tx k) b ->
  snd (oid_read (after nd l any_algorithm_id) b) = tx n.
Proof.
  intros I B. pose proof any_reads_checked as H. rewrite forallb_forall in H. apply H in I. cbn [fst snd] in I.
  apply andb_true_iff in I. destruct I as [_ I]. destruct (encodes_make _ _ B) as [_ F].
  unfold oid_read, oid_native. cbn [snd]. rewrite any_used, any_map, F.
  destruct (dget eqb_text any_names (tx k)); [|discriminate]. now apply text_ok in I.
Qed.

(* ---- the dotted form never has a letter ---- *)
Lemma dotted_loop_digits c : forall p out, 0 <= p -> Forall all_digits out -> Forall all_digits (dotted_loop c p out).
Proof.
  induction c as [|x c IH]; intros p out P F; [exact F|]. cbn [dotted_loop].
  assert (Q : 0 <= p * 128 + Z.land x 127).
  { assert (0 <= Z.land x 127) by (apply Z.land_nonneg; lia). lia. }
  destruct (Z.land x 128 =? 0); [|now apply IH].
  apply IH; [lia|]. apply Forall_app. split; [exact F|].
  destruct out; [|apply Forall_cons; [apply dec_digits; lia|constructor]].
  destruct (80 <=? _) eqn:A; [|destruct (40 <=? _) eqn:B];
    rewrite ?Z.leb_le in *; (apply Forall_cons; [apply dec_digits; lia|]);
    (apply Forall_cons; [apply dec_digits; lia|]); constructor.
Qed.
Lemma oid_dotted_chars c : Forall (fun x => 48 <= x <= 57 \/ x = 46) (oid_dotted c).
Proof.
  unfold oid_dotted. pose proof (dotted_loop_digits c 0 [] ltac:(lia) (Forall_nil _)) as F.
  induction F as [|w l D F IH]; cbn [join_with]; [constructor|].
  assert (G : Forall (fun x => 48 <= x <= 57 \/ x = 46) w).
  { eapply Forall_impl; [|exact D]. intros. now left. }
  destruct l; [exact G|]. apply Forall_app. split; [exact G|]. constructor; [now right|exact IH].
Qed.
Lemma oid_dotted_no_letter c s : letterb s = true -> oid_dotted c <> s.
Proof.
  intros H E. pose proof (oid_dotted_chars c) as F. rewrite E in F. rewrite Forall_forall in F.
  unfold letterb in H. apply existsb_exists in H. destruct H as (x & I & N).
  apply negb_true_iff, orb_false_iff in N. destruct N as [A B]. apply Z.eqb_neq in B.
  apply F in I. destruct I as [I|I]; [|lia].
  apply andb_false_iff in A. rewrite !Z.leb_gt in A. lia.
Qed.
