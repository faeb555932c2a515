(* The exceptions of reading the classes of the library, and which classes never raise one. *)
Require Import Verif.Base Verif.BaseFacts Verif.IntModel Verif.ParserModel Verif.Text Verif.NameModel Verif.PrimModel Verif.PrimRead Verif.PrimSide Verif.ContModel Verif.ParsModel Verif.GenModel
  Verif.ReadModel Verif.ReadProofs Verif.LibModel Verif.LibRead Verif.LibReadProofs Verif.LibProofs Verif.NameSort Verif.RaiseSpec Verif.RaiseProofs Verif.RaiseRead.
Require Coq.Strings.String.
Require Import Coq.Bool.Bool.
Import Coq.Strings.String.StringSyntax.

(* ---- what is used of the table ---- *)
Definition key_fine (fs : list rfield) (s : selector) : bool :=
  match s_else s with
  | None => true
  | Some _ => match s_key s with
              | [n] => match index_of (fun f => eqb_text (g_name f) n) fs 0 with Some k => Nat.ltb k (s_field s) | None => false end
              | _ => false
              end
  end.
Definition entry_fine (x : entry) : bool :=
  match snd (snd x), snd (fst (snd x)) with
  | OText _, DPrim KOctets => true
  | OText _, _ => false
  | OName, _ => ref_eqb (fst x) (CName "x509.Name")
  | _, DSeq fs (Some s) => key_fine fs s
  | _, _ => true
  end.
Lemma entries_fine pad : forallb (forallb entry_fine) (table pad) = true.
Proof. destruct pad; vm_compute; reflexivity. Qed.
Lemma ref_eqb_iff a b : ref_eqb a b = true -> a = b.
Proof.
  destruct a, b; cbn; try discriminate.
  - intros H. apply String.eqb_eq in H. now subst.
  - intros H. apply andb_true_iff in H as [H K]. apply String.eqb_eq in H, K. now subst.
Qed.
Lemma lookup_in pad r k : lookup pad r = Some k -> exists l, In l (table pad) /\ In (r, k) l.
Proof.
  intros H. unfold lookup in H. destruct (find _ _) as [e|] eqn:F; [|discriminate]. cbn [option_map] in H. injection H as <-.
  destruct (nth_in_or_default (String.length (ref_name r)) (table pad) []) as [I|I]; [|rewrite I in F; discriminate].
  apply find_some in F as [F E]. apply ref_eqb_iff in E. subst r. exists (nth (String.length (ref_name (fst e))) (table pad) []). split; [exact I|]. now destruct e.
Qed.
Lemma lookup_fine pad r k : lookup pad r = Some k -> entry_fine (r, k) = true.
Proof.
  intros H. apply lookup_in in H as (l & L & I). pose proof (entries_fine pad) as T. rewrite forallb_forall in T. specialize (T _ L).
  rewrite forallb_forall in T. exact (T _ I).
Qed.

Definition name_path (pad : bool) : bool :=
  match lookup pad (CName "x509.Name"), lookup pad (CName "x509.RDNSequence"), lookup pad (CName "x509.RelativeDistinguishedName"),
        lookup pad (CName "x509.NameTypeAndValue"), lookup pad (CName "x509.NameType") with
  | Some (_, DChoice [f] None, _), Some (_, DOf (Some a), OSame), Some (_, DOf (Some b), OSame), Some (_, DSeq [t; v] sel, OSame), Some (_, DPrim (KOid _), OSame) =>
      match g_class f with Some r => ref_eqb r (CName "x509.RDNSequence") | None => false end &&
      ref_eqb a (CName "x509.RelativeDistinguishedName") && ref_eqb b (CName "x509.NameTypeAndValue") &&
      match g_class t with Some r => ref_eqb r (CName "x509.NameType") | None => false end &&
      match g_pres t with GReq => true | _ => false end &&
      match sel with Some s => negb (Nat.eqb (s_field s) 0) | None => true end &&
      eqb_text (g_name t) (tx "type") && eqb_text (g_name v) (tx "value")
  | _, _, _, _, _ => false
  end.
Lemma name_path_ok pad : name_path pad = true.
Proof. destruct pad; vm_compute; reflexivity. Qed.

Section Texts.
Variable texts : string -> bytes -> res (option text).
Variable pad : bool.
Notation env := (lib_env texts pad).
Hypothesis texts_raise : forall n b e, bytes_ok b -> texts n b = Err e -> expected e.

Definition pair_fine (a : aval) : Prop := exists l t v, a = ADict l /\ dict_get l (tx "type") = Some (APrim (NText t)) /\ dict_get l (tx "value") = Some v.
Definition name_fine (a : aval) : Prop := exists l, a = AList l /\ Forall (fun x => exists m, x = AList m /\ Forall pair_fine m) l.
Lemma add_fine d a : pair_fine a -> exists d', name_add d a = Ok d'.
Proof. intros (l & t & v & -> & T & V). unfold name_add. rewrite T, V. eauto. Qed.
Lemma rdn_fine : forall m d, Forall pair_fine m -> exists d', name_rdn d m = Ok d'.
Proof.
  induction m as [|a m IH]; intros d F; [cbn; eauto|]. inversion F; subst. destruct (add_fine d a) as (d' & E); [assumption|]. cbn [name_rdn]. rewrite E. cbn [bind]. eauto.
Qed.
Lemma all_fine : forall l d, Forall (fun x => exists m, x = AList m /\ Forall pair_fine m) l -> exists d', name_all d l = Ok d'.
Proof.
  induction l as [|a l IH]; intros d F; [cbn; eauto|]. inversion F as [|? ? (m & -> & M) G]; subst. cbn [name_all].
  destruct (rdn_fine m d M) as (d' & E). rewrite E. cbn [bind]. eauto.
Qed.

Lemma name_read n c alts p i a : info_ok i -> lookup pad (CName "x509.Name") = Some (c, DChoice alts None, OName) ->
  choice_native env pad (read env pad n) c alts None p i = Ok a -> name_fine a.
Proof.
  intros I L H. pose proof (name_path_ok pad) as N. unfold name_path in N. rewrite L in N.
  destruct alts as [|f [|? ?]]; try discriminate N.
  destruct (lookup pad (CName "x509.RDNSequence")) as [[[c1 d1] o1]|] eqn:L1; [|discriminate N].
  destruct d1 as [| | | |x1|]; try discriminate N. destruct x1 as [x1|]; [|discriminate N]. destruct o1; try discriminate N.
  destruct (lookup pad (CName "x509.RelativeDistinguishedName")) as [[[c2 d2] o2]|] eqn:L2; [|discriminate N].
  destruct d2 as [| | | |x2|]; try discriminate N. destruct x2 as [x2|]; [|discriminate N]. destruct o2; try discriminate N.
  destruct (lookup pad (CName "x509.NameTypeAndValue")) as [[[c3 d3] o3]|] eqn:L3; [|discriminate N].
  destruct d3 as [| | |fs sel| |]; try discriminate N. destruct fs as [|t [|v [|? ?]]]; try discriminate N. destruct o3; try discriminate N.
  destruct (lookup pad (CName "x509.NameType")) as [[[c4 d4] o4]|] eqn:L4; [|discriminate N].
  destruct d4 as [k| | | | |]; try discriminate N. destruct k as [| | | | | | | | |m| | | |]; try discriminate N. destruct o4; try discriminate N.
  rewrite !andb_true_iff in N. destruct N as [[[[[[[N1 N2] N3] N4] N5] N6] N7] N8].
  destruct (g_class f) as [r|] eqn:Gf; [|discriminate N1]. apply ref_eqb_iff in N1, N2, N3. subst r x1 x2.
  destruct (g_class t) as [r|] eqn:Gt; [|discriminate N4]. apply ref_eqb_iff in N4. subst r.
  destruct (g_pres t) eqn:Pt; try discriminate N5. apply eqb_text_iff in N7, N8.
  apply choice_gives in H as (f' & j & [<-|[]] & Ij & H); [|exact I]. unfold field_read in H. rewrite Gf in H.
  destruct n as [|n]; [discriminate H|]. cbn [read] in H. unfold lib_env at 1 in H. rewrite L1 in H. cbn [option_map fst snd r_def r_cls r_out apply_out] in H.
  pose proof (opened_all c1 (g_params f) j Ij) as O. destruct (opened c1 (g_params f) j) as [x|]; cbn [bind] in H; [|discriminate H].
  destruct (of_native _ _ _ x) as [a'|] eqn:E; cbn [bind] in H; [|discriminate H]. injection H as ->.
  apply of_gives in E as (l & -> & F); [|exact O]. exists l. split; [reflexivity|]. eapply Forall_impl; [|exact F]. clear dependent x. clear dependent j.
  intros a (j & Ij & H). destruct n as [|n]; [discriminate H|]. cbn [read] in H. unfold lib_env at 1 in H. rewrite L2 in H. cbn [option_map fst snd r_def r_cls r_out apply_out] in H.
  pose proof (opened_all c2 no_params j Ij) as O. destruct (opened c2 no_params j) as [x|]; cbn [bind] in H; [|discriminate H].
  destruct (of_native _ _ _ x) as [a'|] eqn:E; cbn [bind] in H; [|discriminate H]. injection H as ->.
  apply of_gives in E as (q & -> & G); [|exact O]. exists q. split; [reflexivity|]. eapply Forall_impl; [|exact G]. clear dependent x. clear dependent j.
  intros a (j & Ij & H). destruct n as [|n]; [discriminate H|]. cbn [read] in H. unfold lib_env at 1 in H. rewrite L3 in H. cbn [option_map fst snd r_def r_cls r_out apply_out] in H.
  pose proof (opened_all c3 no_params j Ij) as O. destruct (opened c3 no_params j) as [x|]; cbn [bind] in H; [|discriminate H].
  destruct (seq_native _ _ _ _ _ x) as [a'|] eqn:E; cbn [bind] in H; [|discriminate H]. injection H as ->.
  apply seq_gives in E as (y & z & b & d & w & -> & Oy & Oz & E); [| |exact O].
  2:{ destruct sel as [s|]; cbn; [|discriminate]. intros K. injection K as K. rewrite K in N6. discriminate N6. }
  unfold field_native in E. destruct y as [iy|]; [|rewrite Pt in E; discriminate E]. unfold field_read in E. rewrite Gt in E.
  destruct n as [|n]; [discriminate E|]. cbn [read] in E. unfold lib_env at 1 in E. rewrite L4 in E. cbn [option_map fst snd r_def r_cls r_out apply_out] in E.
  destruct (prim_native _ _ _ iy) as [b'|] eqn:Q; cbn [bind] in E; [|discriminate E]. injection E as ->.
  apply oid_gives in Q as (s & ->); [|exact Oy]. exists ((g_name t, APrim (NText s)) :: (g_name v, d) :: w), s, d. split; [reflexivity|].
  rewrite N7, N8. split; reflexivity.
Qed.

Lemma octets_gives c p i a : info_ok i -> prim_native KOctets c p i = Ok a -> exists b, a = APrim (NBytes b) /\ bytes_ok b.
Proof.
  intros (_ & B & _) H. unfold prim_native in H. destruct (build _ _ _ _) as [o|] eqn:E; [|discriminate]. cbn [bind] in H.
  destruct (build_contents _ _ _ _ _ B E) as (b & C & Bb & N & _). unfold get_native in H. rewrite C, N in H. cbn [c_bytes no_cache] in H.
  destruct (merged_bytes _ _ _ _) as [x|] eqn:M; cbn in H; [|discriminate]. injection H as <-. exists x. split; [reflexivity|]. eapply merged_bytes_ok; eauto.
Qed.
Lemma cp1252_err b e : cp1252 b = Err e -> e = UnicodeError.
Proof.
  induction b as [|x b IH]; cbn [cp1252]; [discriminate|]. intros H. apply bind_err in H as [H|(c & _ & H)].
  - unfold cp1252_char in H. destruct (_ && _); [|discriminate]. destruct (nth _ _ _); congruence.
  - apply bind_err in H as [H|(s & _ & H)]; [auto|discriminate].
Qed.

Definition foreseen (r : ref) (ins : option ref) (e : exn) : Prop :=
  expected e \/ e = OutOfFuel \/ can_raise env e r \/ exists r', ins = Some r' /\ (e = AttributeError \/ can_raise env e r').
Lemma read_err : forall n r p ins i e, info_ok i -> read env pad n r p ins i = Err e -> foreseen r ins e.
Proof.
  induction n as [|n IH]; intros r p ins i e Ii H; cbn [read] in H; [right; left; congruence|].
  destruct (env r) as [k|] eqn:L; [|right; left; congruence]. pose proof L as L'. unfold lib_env in L'. destruct (lookup pad r) as [[[c d] o]|] eqn:K; [|discriminate].
  cbn [option_map fst snd] in L'. injection L' as <-. cbn [r_cls r_def r_out] in H.
  destruct (class_ok_parts env _ (proj1 (lib_env_ok texts pad r _ L))) as (_ & X & _). cbn [r_cls] in X.
  pose proof (lookup_fine pad r _ K) as W. unfold entry_fine in W. cbn [fst snd] in W.
  assert (HE : forall e, e = ValueError -> foreseen r ins e) by (intros x ->; left; now left).
  assert (HH : forall e, here d e -> foreseen r ins e) by (intros x Hx; right; right; left; eapply raise_here; [exact L|exact Hx]).
  assert (HU : forall r' x, uses d r' -> foreseen r' None x -> foreseen r ins x).
  { intros r' x U [Q|[Q|[Q|(r'' & Q & _)]]]; [now left|right; now left| |discriminate Q]. right. right. left. eapply raise_inside; [exact L|exact U|exact Q]. }
  assert (HC : (forall e, untyped_error e -> here d e) -> forall e, calm e -> foreseen r ins e).
  { intros U x [Q|[Q| ->]]; [now left|auto|right; now left]. }
  apply bind_err in H as [H|(a & D & H)].
  - destruct d as [kd| |bits|fs sel|item|alts fx]; destruct ins as [r'|]; try (right; right; right; exists r'; split; [reflexivity|left; congruence]).
    + apply prim_native_err in H as [H|H]; auto; [now left].
    + eapply HC; [|eapply any_err; eauto]. auto.
    + apply bind_err in H as [H|(b & B & H)]; [apply octets_in_err in H as [H|H]; auto|]. apply octets_in_ok in B; [|exact Ii].
      apply bind_err in H as [H|([j q] & E & H)]; [apply HE; eapply parse_0_err; eassumption|]. apply parse_0 in E; [|exact B].
      apply IH in H; [|exact E]. destruct H as [Q|[Q|[Q|(r'' & Q & _)]]]; [now left|right; now left| |discriminate Q].
      right. right. right. exists r'. split; [reflexivity|now right].
    + apply bind_err in H as [H|(b & B & H)]; [apply octets_in_err in H as [H|H]; auto|discriminate].
    + pose proof (opened_all c p i Ii) as O. destruct (opened c p i) as [x|]; cbn [bind] in H; [|injection H as <-; auto].
      eapply (seq_err env pad (read env pad n) (foreseen r None)) in H; [exact H| | | | | | | | |exact O].
      * auto.
      * right; now left.
      * apply HC. intros y Y. now left.
      * intros f r' p' i' e' If G Ij R. eapply HU; [|eapply IH; eassumption]. left. eauto.
      * intros s pk r' p' i' e' S N T Ij R. eapply HU; [|eapply IH; eassumption]. right. eauto.
      * intros s pk r' f k p' i' e' S N T If G Ij R. apply IH in R; [|exact Ij]. destruct R as [Q|[Q|[Q|(r'' & Q & [Q'|Q'])]]].
        -- now left.
        -- right; now left.
        -- apply (HU k). left; eauto. right. right. now left.
        -- apply HH. left. right. right. now right.
        -- injection Q as <-. apply (HU r'). right; eauto. right. right. now left.
      * intros s S E. apply HH. right. split; [reflexivity|]. eauto.
      * intros s S E. subst sel.
        assert (KF : key_fine fs s = true) by (destruct o; try discriminate W; try exact W; apply ref_eqb_iff in W; subst r;
          exfalso; pose proof (name_path_ok pad) as NP; unfold name_path in NP; rewrite K in NP; discriminate NP).
        unfold key_fine in KF. destruct (s_else s); [|congruence].
        destruct (s_key s) as [|m [|? ?]]; try discriminate KF. destruct (index_of _ _ _); [|discriminate KF]. now apply Nat.ltb_lt.
    + pose proof (opened_all c p i Ii) as O. destruct (opened c p i) as [x|]; cbn [bind] in H; [|injection H as <-; auto].
      eapply (of_err pad (read env pad n) (foreseen r None)) in H; [exact H| | | | |exact O].
      * auto.
      * right; now left.
      * intros r' j e' -> Ij R. eapply HU; [|eapply IH; eassumption]. reflexivity.
      * intros -> y Y. apply HC; auto.
    + destruct fx as [m|]; [apply HH; left; discriminate|].
      eapply (choice_err env pad (read env pad n) (foreseen r None)) in H; [exact H| | | |exact Ii].
      * auto.
      * intros f r' p' j e' If G Ij R. eapply HU; [|eapply IH; eassumption]. exists f. auto.
      * intros (f & If & G). apply HC. intros y Y. right. eauto.
  - destruct o as [|m|s|]; cbn [apply_out] in H; [discriminate| |discriminate|].
    + destruct d as [kd| | | | |]; try discriminate W. destruct kd; try discriminate W. destruct ins; [discriminate D|].
      apply octets_gives in D as (b & -> & B); [|exact Ii]. left. destruct (String.eqb m "x509.NotReallyTeletexString").
      * apply bind_err in H as [H|(? & _ & H)]; [|discriminate]. right. eapply cp1252_err; exact H.
      * apply bind_err in H as [H|(? & _ & H)]; [|discriminate]. eapply texts_raise; eassumption.
    + apply ref_eqb_iff in W. subst r. pose proof (name_path_ok pad) as NP. unfold name_path in NP. rewrite K in NP.
      destruct d as [| | | | |alts fx]; try discriminate NP. destruct fx; [destruct alts as [|? [|? ?]]; discriminate NP|].
      destruct ins; [discriminate D|]. apply (name_read n) in D; [|exact Ii|exact K]. destruct D as (l & -> & F).
      destruct (all_fine l [] F) as (d' & E). cbn [apply_out] in H. rewrite E in H. discriminate H.
Qed.
Lemma read_from_err n r data strict e : bytes_ok data -> read_from env pad n r data strict = Err e -> expected e \/ e = OutOfFuel \/ can_raise env e r.
Proof.
  intros B H. unfold read_from in H. apply bind_err in H as [H|([i q] & E & H)]; [left; left; eapply parse_0_err; eassumption|].
  apply parse_0 in E; [|exact B]. destruct (strict && _); [left; left; congruence|]. apply read_err in H; [|exact E].
  destruct H as [H|[H|[H|(r' & H & _)]]]; auto. discriminate.
Qed.
End Texts.

(* ---- deciding ---- *)
Definition untypedb (e : exn) : bool := existsb (exn_eqb e) [TypeError; IndexError; OverflowError; AttributeError].
Definition ownb (k : kind) (e : exn) : bool :=
  match k with
  | KBits _ | KIntBits | KOctetBits => exn_eqb e IndexError
  | KEnum None => exn_eqb e TypeError
  | KEnum (Some _) => exn_eqb e KeyError
  | KGenTime _ => exn_eqb e OverflowError
  | KRaw => exn_eqb e AttributeError
  | _ => false
  end.
Definition hereb (d : rdef) (e : exn) : bool :=
  match d with
  | DPrim k => ownb k e
  | DAny => untypedb e
  | DParse bits => bits && exn_eqb e IndexError
  | DSeq _ sel => untypedb e || (exn_eqb e KeyError && match sel with Some s => match s_else s with None => true | Some _ => false end | None => false end)
  | DOf None => untypedb e
  | DOf (Some _) => false
  | DChoice alts fx => match fx with Some _ => true | None => untypedb e && existsb (fun f => match g_class f with None => true | Some _ => false end) alts end
  end.
Definition pick_refs (p : pick) : list ref := match p with Keep => [] | As r => [r] | Inside r => [r] end.
Definition field_refs (fs : list rfield) : list ref := flat_map (fun f => match g_class f with Some r => [r] | None => [] end) fs.
Definition used (d : rdef) : list ref :=
  match d with
  | DSeq fs sel => (field_refs fs ++ match sel with
      | Some s => match s_else s with Some p => pick_refs p | None => [] end ++ flat_map (fun x => pick_refs (snd x)) (s_table s)
      | None => []
      end)%list
  | DOf (Some r) => [r]
  | DChoice alts _ => field_refs alts
  | _ => []
  end.
Lemma exn_eqb_refl e : exn_eqb e e = true.
Proof. destruct e; reflexivity. Qed.
Lemma untypedb_ok e : untyped_error e -> untypedb e = true.
Proof. intros [-> |[-> |[-> | ->]]]; reflexivity. Qed.
Lemma hereb_ok d e : here d e -> hereb d e = true.
Proof.
  destruct d as [k| |bits|fs sel|item|alts fx]; cbn [here hereb].
  - unfold own_error, ownb. destruct k; try tauto; try (intros ->; reflexivity). destruct m; intros ->; reflexivity.
  - apply untypedb_ok.
  - intros [-> ->]. reflexivity.
  - intros [H|[-> (s & -> & ->)]]; [now rewrite untypedb_ok|]. reflexivity.
  - destruct item; [tauto|apply untypedb_ok].
  - intros [H|[H (f & I & G)]]; [destruct fx; congruence|]. destruct fx; [reflexivity|]. rewrite untypedb_ok by assumption. apply existsb_exists. exists f. now rewrite G.
Qed.
Lemma used_ok d r : uses d r -> In r (used d).
Proof.
  assert (F : forall fs f, In f fs -> g_class f = Some r -> In r (field_refs fs)).
  { intros fs f I G. apply in_flat_map. exists f. rewrite G. split; [exact I|now left]. }
  destruct d as [k| |bits|fs sel|item|alts fx]; cbn [uses used]; try tauto.
  - intros [(f & I & G)|(s & p & -> & N & [E|(t & I)])]; apply in_or_app.
    + left. eauto.
    + right. rewrite E. apply in_or_app. left. destruct N as [-> | ->]; now left.
    + right. apply in_or_app. right. apply in_flat_map. exists (t, p). split; [exact I|]. destruct N as [-> | ->]; now left.
  - destruct item; [intros ->; now left|tauto].
  - intros (f & I & G). eauto.
Qed.
(* refs by the length of their names *)
Definition has (l : list (list ref)) (r : ref) : bool := existsb (ref_eqb r) (nth (String.length (ref_name r)) l []).
Definition bucket (l : list ref) : list (list ref) := map (fun k => filter (fun r => Nat.eqb (String.length (ref_name r)) k) l) (seq 0 64).
(* no entry outside l raises e or uses one inside l *)
Definition closed_under (pad : bool) (e : exn) (l : list (list ref)) : bool :=
  forallb (forallb (fun x => has l (fst x) || (negb (hereb (snd (fst (snd x))) e) && forallb (fun r => negb (has l r)) (used (snd (fst (snd x))))))) (table pad).
Lemma never texts pad e l r : closed_under pad e l = true -> has l r = false -> ~ can_raise (lib_env texts pad) e r.
Proof.
  intros C N H. revert N. induction H as [r k L H|r k r' L U H IH]; intros N;
    unfold lib_env in L; destruct (lookup pad r) as [y|] eqn:K; try discriminate; cbn [option_map] in L; injection L as <-; cbn [r_def] in *;
    apply lookup_in in K as (b & B & I); unfold closed_under in C; rewrite forallb_forall in C; specialize (C _ B); rewrite forallb_forall in C;
    specialize (C _ I); cbn [fst snd] in C; rewrite N in C; cbn [orb] in C; apply andb_true_iff in C as [C1 C2].
  - rewrite (hereb_ok _ _ H) in C1. discriminate.
  - apply used_ok in U. rewrite forallb_forall in C2. apply C2 in U. apply IH. now apply negb_true_iff.
Qed.
(* the refs that may raise e *)
Definition step (pad : bool) (e : exn) (l : list (list ref)) : list (list ref) :=
  bucket (flat_map (fun x => if has l (fst x) || hereb (snd (fst (snd x))) e || existsb (has l) (used (snd (fst (snd x)))) then [fst x] else []) (concat (table pad))).
Fixpoint steps (n : nat) (pad : bool) (e : exn) (l : list (list ref)) : list (list ref) := match n with O => l | S m => steps m pad e (step pad e l) end.
