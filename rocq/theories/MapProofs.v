(* Proofs about value maps. *)
Require Import Verif.Base Verif.BaseFacts Verif.IntModel Verif.IntSpec Verif.IntProofs Verif.Text Verif.ParserSpec Verif.OidModel Verif.OidSpec
  Verif.OidProofs Verif.MapModel Verif.MapSpec.

(* ---- dicts ---- *)
Section Dict.
Context {K V : Type} (eqb : K -> K -> bool) (eqb_ok : forall a b, eqb a b = true <-> a = b).

Lemma eqb_refl_ k : eqb k k = true. Proof. now apply eqb_ok. Qed.
Lemma eqb_neq a b : a <> b -> eqb a b = false.
Proof. destruct (eqb a b) eqn:E; auto. apply eqb_ok in E. tauto. Qed.

Lemma dget_dput (d : list (K * V)) k v k' :
  dget eqb (dput eqb d k v) k' = if eqb k k' then Some v else dget eqb d k'.
Proof.
  induction d as [|[a w] r IH]; cbn [dput dget]; [reflexivity|].
  destruct (eqb a k) eqn:E; cbn [dget].
  - apply eqb_ok in E. subst. destruct (eqb k k'); reflexivity.
  - rewrite IH. destruct (eqb a k') eqn:F; [|reflexivity].
    apply eqb_ok in F. subst. destruct (eqb k k') eqn:G; [|reflexivity].
    apply eqb_ok in G. subst. now rewrite eqb_refl_ in E.
Qed.

Lemma dget_in (d : list (K * V)) k v : dget eqb d k = Some v -> In (k, v) d.
Proof.
  induction d as [|[a w] r IH]; cbn [dget]; [discriminate|].
  destruct (eqb a k) eqn:E; intro H.
  - apply eqb_ok in E. injection H as ->. subst. now left.
  - right. auto.
Qed.

Lemma in_dget (d : list (K * V)) k v : NoDup (map fst d) -> In (k, v) d -> dget eqb d k = Some v.
Proof.
  induction d as [|[a w] r IH]; cbn [dget map fst In]; [tauto|].
  intros N [H|H].
  - injection H as -> ->. now rewrite eqb_refl_.
  - inversion N; subst. rewrite eqb_neq; auto.
    intros ->. apply H2. apply in_map_iff. now exists (k, v).
Qed.

Lemma dget_none (d : list (K * V)) k : dget eqb d k = None <-> ~ In k (map fst d).
Proof.
  induction d as [|[a w] r IH]; cbn [dget map fst In]; [tauto|].
  destruct (eqb a k) eqn:E.
  - apply eqb_ok in E. subst. split; [discriminate|]. tauto.
  - rewrite IH. assert (a <> k) by (intros ->; rewrite eqb_refl_ in E; discriminate). tauto.
Qed.

Lemma dput_new (d : list (K * V)) k v : ~ In k (map fst d) -> dput eqb d k v = d ++ [(k, v)].
Proof.
  induction d as [|[a w] r IH]; cbn [dput map fst In app]; [reflexivity|].
  intro N. rewrite eqb_neq by tauto. rewrite IH by tauto. reflexivity.
Qed.
End Dict.

Lemma text_ok a b : eqb_text a b = true <-> a = b. Proof. exact (eqb_text_spec a b). Qed.

(* ---- the reverse map ---- *)
Lemma reversed_snoc {K} (m : list (K * text)) k n : reversed (m ++ [(k, n)]) = dput eqb_text (reversed m) n k.
Proof. unfold reversed. rewrite fold_left_app. reflexivity. Qed.

Lemma last_snoc {K} (m : list (K * text)) k n k' n' :
  last_with_name (m ++ [(k, n)]) k' n' <-> (n = n' /\ k = k') \/ (n <> n' /\ last_with_name m k' n').
Proof.
  split.
  - intros (a & b & E & N). destruct b as [|x b] using rev_ind.
    + apply app_inj_tail in E. destruct E as [_ E]. injection E as -> ->. now left.
    + right. change ((k', n') :: b ++ [x]) with (((k', n') :: b) ++ [x]) in E. rewrite app_assoc in E.
      apply app_inj_tail in E. destruct E as [-> <-].
      rewrite map_app, in_app_iff in N. cbn in N. split; [tauto|]. exists a, b. split; [reflexivity|tauto].
  - intros [[-> ->]|[N (a & b & -> & M)]].
    + exists m, []. split; [reflexivity|]. cbn. tauto.
    + exists a, (b ++ [(k, n)]). rewrite <- app_assoc. split; [reflexivity|].
      rewrite map_app, in_app_iff. cbn. tauto.
Qed.

Lemma reversed_last {K} (m : list (K * text)) n : forall k,
  dget eqb_text (reversed m) n = Some k <-> last_with_name m k n.
Proof.
  induction m as [|[a v] m IH] using rev_ind; intro k.
  - cbn. split; [discriminate|]. intros (a & b & E & _). destruct a; discriminate.
  - rewrite reversed_snoc, (dget_dput eqb_text text_ok), last_snoc.
    destruct (eqb_text v n) eqn:E.
    + apply text_ok in E. subst. split.
      * intro H. injection H as ->. now left.
      * intros [[_ ->]|[N _]]; [reflexivity|tauto].
    + assert (v <> n) by (intro F; apply text_ok in F; congruence).
      rewrite IH. tauto.
Qed.

Lemma last_in {K} (m : list (K * text)) k n : last_with_name m k n -> In (k, n) m.
Proof. intros (a & b & -> & _). rewrite in_app_iff. right. now left. Qed.

Lemma name_has_last {K} (m : list (K * text)) n : is_name m n -> exists k, last_with_name m k n.
Proof.
  induction m as [|[a v] m IH] using rev_ind; intros [k H]; [destruct H|].
  destruct (eqb_text v n) eqn:E.
  - apply text_ok in E. subst. exists a. apply last_snoc. now left.
  - assert (N : v <> n) by (intro F; apply text_ok in F; congruence).
    apply in_app_iff in H. destruct H as [H|[H|[]]]; [|congruence].
    destruct (IH (ex_intro (fun k => In (k, n) m) k H)) as [k' L]. exists k'. apply last_snoc. now right.
Qed.

Lemma reversed_none {K} (m : list (K * text)) n : dget eqb_text (reversed m) n = None <-> ~ is_name m n.
Proof.
  split.
  - intros H I. destruct (name_has_last _ _ I) as [k L]. apply reversed_last in L. congruence.
  - intro H. destruct (dget eqb_text (reversed m) n) eqn:E; [|reflexivity].
    exfalso. apply H. exists k. apply last_in. now apply reversed_last.
Qed.

Lemma reversed_injective {K} (m : list (K * text)) k n : one_key_per_name m -> In (k, n) m ->
  dget eqb_text (reversed m) n = Some k.
Proof.
  intros J I. destruct (name_has_last m n (ex_intro (fun k => In (k, n) m) k I)) as [k' L].
  pose proof (last_in _ _ _ L) as I'. rewrite (J _ _ _ I I'). now apply reversed_last.
Qed.

Lemma key_iff {K} (m : list (K * text)) k : is_key m k <-> In k (map fst m).
Proof.
  unfold is_key. rewrite in_map_iff. split.
  - intros [n H]. now exists (k, n).
  - intros [[a n] [E H]]. cbn in E. subst. now exists n.
Qed.
Lemma name_iff {K} (m : list (K * text)) n : is_name m n <-> In n (map snd m).
Proof.
  unfold is_name. rewrite in_map_iff. split.
  - intros [k H]. now exists (k, n).
  - intros [[k b] [E H]]. cbn in E. subst. now exists k.
Qed.

(* ---- a class in use ---- *)
Definition ready {K} (m : list (K * text)) (r : list (text * K)) (c : cls K) : Prop :=
  k_done c = true /\ c_map c = Some m /\ c_rev c = Some r.

Lemma ensure_done {K} (eqb : K -> K -> bool) c : k_done c = true -> ensure eqb c = c.
Proof. unfold ensure. now intros ->. Qed.

(* not used yet: the class has this map and no reverse map, or the given one *)
Definition fresh {K} (m : list (K * text)) (r : option (list (text * K))) (c : cls K) : Prop :=
  k_done c = false /\ k_any c = None /\ c_map c = Some m /\ c_rev c = r /\ k_mro c <> [].

Definition rev_of {K} (m : list (K * text)) (r : option (list (text * K))) : list (text * K) :=
  match r with Some r => r | None => reversed m end.

Lemma fresh_declare {K} (m : list (K * text)) r : fresh m r (declare m r).
Proof. unfold fresh, declare, c_map, c_rev. cbn. destruct r; repeat split; discriminate. Qed.

Lemma fresh_ensure {K} (eqb : K -> K -> bool) (m : list (K * text)) r c : fresh m r c -> ready m (rev_of m r) (ensure eqb c).
Proof.
  intros (D & A & M & R & N). unfold ensure. rewrite D, A. unfold ready, c_map, c_rev in *. cbn.
  split; [reflexivity|]. unfold valuemap_setup. rewrite M, R.
  destruct r as [r|]; [auto|]. destruct (k_mro c) as [|o l]; [now elim N|].
  cbn [find_map find_rev own_map own_rev] in *. split; [exact M|reflexivity].
Qed.

Lemma fresh_or_ready {K} (eqb : K -> K -> bool) (m : list (K * text)) r c :
  fresh m r c \/ ready m (rev_of m r) c -> ready m (rev_of m r) (ensure eqb c).
Proof.
  intros [H|H]; [now apply fresh_ensure|]. rewrite ensure_done; auto. exact (proj1 H).
Qed.

Lemma act_ready nd m r c a : fresh m r c \/ ready m (rev_of m r) c -> ready m (rev_of m r) (act_on nd c a).
Proof. intro H. destruct a; cbn; exact (fresh_or_ready eqb_text m r c H). Qed.

Lemma after_state nd m r l : forall c, fresh m r c \/ ready m (rev_of m r) c ->
  fresh m r (after nd l c) \/ ready m (rev_of m r) (after nd l c).
Proof.
  induction l as [|a l IH]; intros c H; [exact H|]. cbn [after fold_left].
  apply (IH (act_on nd c a)). right. now apply act_ready.
Qed.

Lemma after_ready nd m r l c : ready m r c -> ready m r (after nd l c).
Proof.
  intro H. revert c H. induction l as [|a l IH]; intros c H; [exact H|]. cbn [after fold_left].
  apply IH. assert (E : act_on nd c a = c).
  { destruct a; cbn; unfold use; apply ensure_done; exact (proj1 H). }
  now rewrite E.
Qed.

Lemma state_map {K} (m : list (K * text)) r c : fresh m r c \/ ready m (rev_of m r) c -> c_map c = Some m.
Proof. intros [(_ & _ & H & _)|(_ & H & _)]; exact H. Qed.

(* ---- map and unmap ---- *)
Section Nd.
Variable nd : Z -> bool.
Hypothesis nd_ascii : forall c, 48 <= c <= 57 -> nd c = true.
Hypothesis nd_dot : nd 46 = false.

Lemma unmap_state m r c s : fresh m r c \/ ready m (rev_of m r) c ->
  snd (oid_unmap nd c s) = match dget eqb_text (rev_of m r) s with
                           | Some k => Ok k
                           | None => if oid_re nd s then Ok s else Err ValueError
                           end.
Proof.
  intro H. apply (fresh_or_ready eqb_text) in H. destruct H as (_ & M & R).
  unfold oid_unmap, use. cbn [snd]. now rewrite M, R.
Qed.

Lemma map_state m r c s : fresh m r c \/ ready m (rev_of m r) c ->
  oid_map c s = Ok (match dget eqb_text m s with Some n => n | None => s end).
Proof. intro H. unfold oid_map. now rewrite (state_map _ _ _ H). Qed.

Lemma make_state m r c s : fresh m r c \/ ready m (rev_of m r) c ->
  snd (oid_make c s) = oid_encode (match dget eqb_text (rev_of m r) s with Some k => k | None => s end).
Proof.
  intro H. apply (fresh_or_ready eqb_text) in H. destruct H as (_ & M & R).
  unfold oid_make, use. cbn [snd]. now rewrite M, R.
Qed.

Lemma read_state m r c b : fresh m r c \/ ready m (rev_of m r) c ->
  snd (oid_read c b) = match dget eqb_text m (oid_dotted b) with Some n => n | None => oid_dotted b end.
Proof.
  intro H. apply (fresh_or_ready eqb_text) in H. destruct H as (_ & M & R).
  unfold oid_read, oid_native, use. cbn [snd]. now rewrite M.
Qed.

(* ---- dotted texts ---- *)
Lemma digits_re w : all_digits w -> w <> [] -> forall rest b,
  oid_re_body nd (w ++ rest) b = oid_re_body nd rest true.
Proof.
  induction w as [|x w IH]; intros A N rest b; [now elim N|].
  inversion A; subst. cbn [app oid_re_body]. rewrite nd_ascii by assumption.
  destruct w; [reflexivity|]. apply IH; [assumption|discriminate].
Qed.

Lemma dotted_re arcs : arcs <> [] -> Forall (fun a => 0 <= a) arcs -> forall b,
  oid_re_body nd (dotted_text arcs) b = true.
Proof.
  unfold dotted_text. induction arcs as [|a l IH]; intros N F b; [now elim N|].
  inversion F; subst. destruct l as [|a' l].
  - cbn [map join_with]. rewrite <- (app_nil_r (dec a)).
    rewrite digits_re; auto using dec_digits, dec_nonnil.
  - change (join_with 46 (map dec (a :: a' :: l))) with (dec a ++ 46 :: join_with 46 (map dec (a' :: l))).
    rewrite digits_re; auto using dec_digits, dec_nonnil.
    cbn [oid_re_body]. rewrite nd_dot. cbn. apply IH; [discriminate|assumption].
Qed.

Lemma is_oid_re s : is_oid s -> oid_re nd s = true.
Proof.
  intros (arcs & L & ->). apply dotted_re; [now apply legal_nonnil|now apply legal_nonneg].
Qed.

Definition digit_word (w : text) : Prop := w <> [] /\ Forall (fun c => nd c = true) w.
Lemma re_reads s : forall b, oid_re_body nd s b = true -> exists w ws e,
  Forall (fun c => nd c = true) w /\ (b = false -> w <> []) /\ Forall digit_word ws /\ (e = [] \/ e = [10]) /\
  s = join_with 46 (w :: ws) ++ e.
Proof.
  induction s as [|c s IH]; intros b H; cbn [oid_re_body] in H.
  - subst b. exists [], [], []. repeat split; auto; discriminate.
  - destruct (nd c) eqn:D.
    + destruct (IH _ H) as (w & ws & e & A & _ & B & C & ->). exists (c :: w), ws, e.
      repeat split; auto; try discriminate. destruct ws; reflexivity.
    + destruct b; [|discriminate]. destruct (c =? 46) eqn:P.
      * apply Z.eqb_eq in P. subst c. destruct (IH _ H) as (w & ws & e & A & N & B & C & ->).
        exists [], (w :: ws), e. repeat split; auto; try discriminate. constructor; auto. split; auto.
      * apply andb_prop in H. destruct H as [Q R]. apply Z.eqb_eq in Q. subst c. destruct s; [|discriminate].
        exists [], [], [10]. repeat split; auto; discriminate.
Qed.
Lemma word_re w : Forall (fun c => nd c = true) w -> w <> [] -> forall rest b,
  oid_re_body nd (w ++ rest) b = oid_re_body nd rest true.
Proof.
  induction w as [|x w IH]; intros A N rest b; [now elim N|].
  inversion A as [|? ? X Y]; subst. cbn [app oid_re_body]. rewrite X. destruct w; [reflexivity|]. apply IH; [assumption|discriminate].
Qed.
Lemma words_re ws e : ws <> [] -> Forall digit_word ws -> e = [] \/ e = [10] -> forall b,
  oid_re_body nd (join_with 46 ws ++ e) b = true.
Proof.
  intros N F C. induction ws as [|w ws IH]; intro b; [now elim N|]. inversion F as [|? ? [X X'] Y]; subst.
  destruct ws as [|w' ws].
  - cbn [join_with]. rewrite word_re by assumption. destruct C as [->| ->]; cbn; [reflexivity|]. destruct (nd 10); reflexivity.
  - change (join_with 46 (w :: w' :: ws)) with (w ++ 46 :: join_with 46 (w' :: ws)). rewrite <- app_assoc.
    rewrite word_re by assumption. cbn [app oid_re_body]. rewrite nd_dot. cbn. apply IH; [discriminate|assumption].
Qed.
Lemma re_iff s : oid_re nd s = true <-> dotted_digits nd s.
Proof.
  split.
  - intro H. destruct (re_reads s _ H) as (w & ws & e & A & N & B & C & ->). exists (w :: ws), e.
    split; [discriminate|]. split; [constructor; [split|]; auto|]. split; [exact C|reflexivity].
  - intros (ws & e & N & F & C & ->). now apply words_re.
Qed.
Lemma oid_dotted_digits s : is_oid s -> dotted_digits nd s.
Proof. intro O. apply re_iff. now apply is_oid_re. Qed.

(* ---- the theorems for arbitrary maps ---- *)
Definition in_use (m : list (text * text)) (c : ocls) : Prop := fresh m None c \/ ready m (reversed m) c.

Lemma in_use_after l m : in_use m (after nd l (declare m None)).
Proof. apply (after_state nd m None l). left. apply fresh_declare. Qed.

Lemma both_ways m c k n : in_use m c -> is_dict m -> one_key_per_name m -> In (k, n) m ->
  oid_map c k = Ok n /\ snd (oid_unmap nd c n) = Ok k.
Proof.
  intros U D J I. split.
  - rewrite (map_state m None c k U). rewrite (in_dget eqb_text text_ok m k n D I). reflexivity.
  - rewrite (unmap_state m None c n U). cbn [rev_of]. now rewrite (reversed_injective m k n J I).
Qed.

Lemma others_unchanged m c s : in_use m c ->
  (~ is_key m s -> oid_map c s = Ok s) /\
  (is_oid s -> dotted_digits nd s) /\
  (~ is_name m s -> dotted_digits nd s -> snd (oid_unmap nd c s) = Ok s) /\
  (~ is_name m s -> ~ dotted_digits nd s -> snd (oid_unmap nd c s) = Err ValueError).
Proof.
  intro U. repeat split.
  - intro N. rewrite (map_state m None c s U).
    rewrite key_iff in N. apply (dget_none eqb_text text_ok) in N. now rewrite N.
  - apply oid_dotted_digits.
  - intros N O. rewrite (unmap_state m None c s U). cbn [rev_of].
    apply reversed_none in N. apply re_iff in O. now rewrite N, O.
  - intros N L. rewrite (unmap_state m None c s U). cbn [rev_of].
    apply reversed_none in N. rewrite N. destruct (oid_re nd s) eqn:E; [|reflexivity]. elim L. now apply re_iff.
Qed.

Lemma last_wins m c n : in_use m c -> is_dict m -> is_name m n -> exists k,
  last_with_name m k n /\ snd (oid_unmap nd c n) = Ok k /\ oid_map c k = Ok n.
Proof.
  intros U D N. destruct (name_has_last m n N) as [k L]. exists k. split; [exact L|]. split.
  - rewrite (unmap_state m None c n U). cbn [rev_of]. apply reversed_last in L. now rewrite L.
  - rewrite (map_state m None c k U). now rewrite (in_dget eqb_text text_ok m k n D (last_in _ _ _ L)).
Qed.

(* ---- the octets ---- *)
Lemma encodes_make s b : encodes s b -> oid_encode s = Ok b /\ oid_dotted b = s.
Proof.
  intros (arcs & L & -> & O). destruct (oid_roundtrip arcs L) as (c & E & O' & R).
  assert (c = b) by exact (oid_octets_unique _ _ _ O' O). subst. auto.
Qed.
Lemma is_oid_encodes s : is_oid s -> exists b, encodes s b.
Proof.
  intros (arcs & L & ->). destruct (oid_roundtrip arcs L) as (c & E & O & R). exists c, arcs. auto.
Qed.
Lemma encodes_oid s b : encodes s b -> is_oid s.
Proof. intros (arcs & L & E & _). now exists arcs. Qed.

(* with a reverse map that sends each name to a key of that name *)
Definition rev_good (m : list (text * text)) (r : list (text * text)) : Prop :=
  (forall n, is_name m n -> exists k, dget eqb_text r n = Some k /\ In (k, n) m) /\
  (forall n k, dget eqb_text r n = Some k -> ~ is_oid n).

Lemma make_name m r c n k : fresh m r c \/ ready m (rev_of m r) c -> is_dict m -> oid_keys m ->
  dget eqb_text (rev_of m r) n = Some k -> In (k, n) m ->
  exists b, snd (oid_make c n) = Ok b /\ encodes k b /\ snd (oid_read c b) = n /\ oid_native c (Some n) b = n.
Proof.
  intros U D O G I. destruct (O _ _ I) as [Ok_ No]. destruct (is_oid_encodes k Ok_) as [b B].
  destruct (encodes_make k b B) as [E F]. exists b. repeat split.
  - rewrite (make_state m r c n U), G. exact E.
  - exact B.
  - rewrite (read_state m r c b U), F. now rewrite (in_dget eqb_text text_ok m k n D I).
  - unfold oid_native. rewrite (state_map _ _ _ U).
    destruct (dget eqb_text m n) eqn:Q; [|reflexivity].
    apply (dget_in eqb_text text_ok) in Q. destruct (O _ _ Q). tauto.
Qed.

Lemma read_make m r c s b : fresh m r c \/ ready m (rev_of m r) c -> is_dict m -> oid_keys m ->
  (forall n k, dget eqb_text (rev_of m r) n = Some k -> ~ is_oid n) ->
  (forall n, In (s, n) m -> dget eqb_text (rev_of m r) n = Some s) ->
  encodes s b -> snd (oid_make c (snd (oid_read c b))) = Ok b.
Proof.
  intros U D O G R B. destruct (encodes_make s b B) as [E F].
  rewrite (read_state m r c b U), F, (make_state m r c _ U).
  destruct (dget eqb_text m s) as [n|] eqn:Q.
  - apply (dget_in eqb_text text_ok) in Q. now rewrite (R n Q).
  - destruct (dget eqb_text (rev_of m r) s) eqn:P; [|exact E].
    exfalso. exact (G _ _ P (encodes_oid _ _ B)).
Qed.

Lemma reversed_names_not_oids m : oid_keys m -> forall n k, dget eqb_text (reversed m) n = Some k -> ~ is_oid n.
Proof. intros O n k H. apply reversed_last, last_in in H. exact (proj2 (O _ _ H)). Qed.

Lemma user_reencode m c : in_use m c -> is_dict m -> one_key_per_name m -> oid_keys m ->
  (forall k n, In (k, n) m -> exists b, snd (oid_make c n) = Ok b /\ encodes k b /\
     snd (oid_read c b) = n /\ oid_native c (Some n) b = n) /\
  (forall s b, encodes s b -> snd (oid_make c (snd (oid_read c b))) = Ok b).
Proof.
  intros U D J O. split.
  - intros k n I. apply (make_name m None c n k U D O); auto. exact (reversed_injective m k n J I).
  - intros s b B. apply (read_make m None c s b U D O); auto.
    + exact (reversed_names_not_oids m O).
    + intros n I. exact (reversed_injective m s n J I).
Qed.

(* ---- entries added later ---- *)
Lemma find_put_map {K} (eqb : K -> K -> bool) (l : list (own K)) d k v : find_map l = Some d ->
  find_map (put_map eqb l k v) = Some (dput eqb d k v).
Proof.
  induction l as [|o l IH]; cbn [find_map put_map]; [discriminate|].
  destruct (own_map o) eqn:E; intro H.
  - injection H as ->. reflexivity.
  - cbn [find_map]. rewrite E. auto.
Qed.
Lemma find_rev_put_map {K} (eqb : K -> K -> bool) (l : list (own K)) k v :
  find_rev (put_map eqb l k v) = find_rev l.
Proof.
  induction l as [|o l IH]; cbn [find_rev put_map]; [reflexivity|].
  destruct (own_map o) eqn:E; cbn [find_rev own_rev]; [reflexivity|]. now rewrite IH.
Qed.
Lemma put_map_nonnil {K} (eqb : K -> K -> bool) (l : list (own K)) k v : l <> [] -> put_map eqb l k v <> [].
Proof. destruct l as [|o l]; cbn; [tauto|]. destruct (own_map o); discriminate. Qed.
Lemma find_put_rev {K} (l : list (own K)) d k v : find_rev l = Some d ->
  find_rev (put_rev l k v) = Some (dput eqb_text d v k).
Proof.
  induction l as [|o l IH]; cbn [find_rev put_rev]; [discriminate|].
  destruct (own_rev o) eqn:E; intro H.
  - injection H as ->. reflexivity.
  - cbn [find_rev]. rewrite E. auto.
Qed.
Lemma find_map_put_rev {K} (l : list (own K)) k v : find_map (put_rev l k v) = find_map l.
Proof.
  induction l as [|o l IH]; cbn [find_map put_rev]; [reflexivity|].
  destruct (own_rev o) eqn:E; cbn [find_map own_map]; [reflexivity|]. now rewrite IH.
Qed.

Lemma add_fresh m c k n : fresh m None c -> ~ is_key m k ->
  fresh (m ++ [(k, n)]) None (add_entry eqb_text c k n).
Proof.
  intros (D & A & M & R & N) F. unfold fresh, add_entry, on_mro, c_map, c_rev in *. cbn.
  rewrite key_iff in F.
  repeat split; auto.
  - rewrite (find_put_map _ _ _ _ _ M). now rewrite (dput_new eqb_text text_ok).
  - now rewrite find_rev_put_map.
  - now apply put_map_nonnil.
Qed.

Lemma add_all m : forall l c, fresh m None c -> NoDup (map fst (m ++ l)) ->
  fresh (m ++ l) None (fold_left (fun c kv => add_entry eqb_text c (fst kv) (snd kv)) l c).
Proof.
  intro l. revert m. induction l as [|[k n] l IH]; intros m c F N.
  - now rewrite app_nil_r.
  - cbn [fold_left fst snd]. replace (m ++ (k, n) :: l) with ((m ++ [(k, n)]) ++ l) in * by now rewrite <- app_assoc.
    apply IH; [|exact N]. apply add_fresh; [exact F|]. rewrite key_iff.
    rewrite map_app in N. rewrite map_app in N. cbn in N. rewrite <- app_assoc in N. cbn in N.
    apply NoDup_remove_2 in N. rewrite in_app_iff in N. tauto.
Qed.

Lemma register_in_use m c k n : in_use m c -> ~ is_key m k ->
  in_use (m ++ [(k, n)]) (register eqb_text c k n).
Proof.
  intros [F|F] NK.
  - left. pose proof (add_fresh m c k n F NK) as G. destruct F as (D & A & M & R & N).
    unfold register. unfold c_rev in R. rewrite find_rev_put_map, R. exact G.
  - right. destruct F as (D & M & R). unfold register, ready, on_mro, c_map, c_rev in *. cbn.
    rewrite find_rev_put_map, R. rewrite key_iff in NK. repeat split.
    + exact D.
    + rewrite find_map_put_rev, (find_put_map _ _ _ _ _ M). now rewrite (dput_new eqb_text text_ok).
    + rewrite reversed_snoc. apply find_put_rev. now rewrite find_rev_put_map.
Qed.

Lemma after_in_use l m c : in_use m c -> in_use m (after nd l c).
Proof. exact (after_state nd m None l c). Qed.

Lemma snoc_dict (m : list (text * text)) k n : is_dict m -> ~ is_key m k -> is_dict (m ++ [(k, n)]).
Proof.
  unfold is_dict. rewrite key_iff, map_app. cbn. intros D N.
  rewrite <- (rev_involutive (map fst m ++ [k])). apply NoDup_rev. rewrite rev_app_distr. cbn.
  constructor; [now rewrite <- in_rev|now apply NoDup_rev].
Qed.
Lemma snoc_injective (m : list (text * text)) k n : one_key_per_name m -> ~ is_name m n ->
  one_key_per_name (m ++ [(k, n)]).
Proof.
  intros J N a b x. rewrite !in_app_iff. cbn.
  intros [A|[A|[]]] [B|[B|[]]].
  - exact (J _ _ _ A B).
  - injection B as <- <-. elim N. now exists a.
  - injection A as <- <-. elim N. now exists b.
  - congruence.
Qed.
End Nd.

(* ---- Integer and Enumerated ---- *)
Lemma z_ok (a b : Z) : (a =? b) = true <-> a = b. Proof. apply Z.eqb_eq. Qed.

Definition iin_use (m : list (Z * text)) (c : icls) : Prop := fresh m None c \/ ready m (reversed m) c.

Lemma iuse_ready m c : iin_use m c -> ready m (reversed m) (iuse c).
Proof. exact (fresh_or_ready Z.eqb m None c). Qed.

Lemma enum_make_class c v : fst (enum_make c v) = iuse (iuse c) \/ fst (enum_make c v) = iuse c.
Proof.
  unfold enum_make. match goal with |- context [match ?x with Ok _ => _ | Err _ => _ end] => destruct x end; cbn; auto.
Qed.

Lemma iact_ready m c a : iin_use m c -> ready m (reversed m) (iact_on c a).
Proof.
  intro H. pose proof (iuse_ready m c H) as R. destruct a; cbn; auto.
  destruct (enum_make_class c v) as [E|E]; rewrite E; [|exact R].
  apply iuse_ready. now right.
Qed.

Lemma iin_use_after l m : iin_use m (iafter l (declare m None)).
Proof.
  assert (G : forall c, iin_use m c -> iin_use m (iafter l c)).
  { induction l as [|a l IH]; intros c H; [exact H|]. cbn [iafter fold_left].
    apply (IH (iact_on c a)). right. now apply iact_ready. }
  apply G. left. apply fresh_declare.
Qed.

Lemma int_make_num m c z : ready m (reversed m) c -> exists b,
  int_make c (INum z) = (c, Ok (b, int_name_of c z)) /\ bytes_ok b /\ twos_value b = z.
Proof.
  intros (D & M & R). unfold int_make, iuse. rewrite (ensure_done Z.eqb c D).
  destruct (int_signed_roundtrip z) as (b & E & B & _ & F & _). exists b. cbn [bind]. rewrite E. cbn.
  rewrite <- (int_from_bytes_signed b B). auto.
Qed.

Lemma int_both m c k n : iin_use m c -> is_dict m -> one_key_per_name m -> In (k, n) m -> exists b,
  snd (int_make c (IName n)) = Ok (b, IName n) /\ bytes_ok b /\ twos_value b = k /\ snd (int_read c b) = IName n.
Proof.
  intros U D J I. pose proof (iuse_ready m c U) as (Dn & M & R).
  destruct (int_signed_roundtrip k) as (b & E & B & _ & F & _). exists b.
  assert (NM : int_name_of (iuse c) k = IName n).
  { unfold int_name_of. rewrite M. now rewrite (in_dget Z.eqb z_ok m k n D I). }
  split; [|split; [exact B|split]].
  - unfold int_make. cbn [snd]. unfold int_of_name. rewrite M, R.
    rewrite (reversed_injective m k n J I). cbn [bind]. rewrite E. cbn [bind]. now rewrite NM.
  - rewrite <- (int_from_bytes_signed b B). exact F.
  - unfold int_read. cbn [snd]. now rewrite F.
Qed.

Lemma int_unknown_name m c n : iin_use m c -> ~ is_name m n -> snd (int_make c (IName n)) = Err ValueError.
Proof.
  intros U N. pose proof (iuse_ready m c U) as (Dn & M & R). unfold int_make. cbn [snd]. unfold int_of_name.
  rewrite M, R. apply reversed_none in N. now rewrite N.
Qed.

Lemma int_reencode m c b : iin_use m c -> is_dict m -> one_key_per_name m -> bytes_ok b -> exists b',
  snd (int_make c (snd (int_read c b))) = Ok (b', snd (int_read c b)) /\ bytes_ok b' /\ twos_value b' = twos_value b.
Proof.
  intros U D J B. pose proof (iuse_ready m c U) as (Dn & M & R).
  unfold int_read. cbn [snd]. rewrite (int_from_bytes_signed b B). set (z := twos_value b).
  destruct (int_signed_roundtrip z) as (b' & E & B' & _ & F & _). exists b'.
  rewrite (int_from_bytes_signed b' B') in F.
  split; [|auto]. unfold int_make. cbn [snd].
  unfold int_name_of at 1. rewrite M. destruct (dget Z.eqb m z) as [n|] eqn:G.
  - apply (dget_in Z.eqb z_ok) in G. unfold int_of_name. rewrite M, R.
    rewrite (reversed_injective m z n J G). cbn [bind]. rewrite E. reflexivity.
  - cbn [bind]. rewrite E. reflexivity.
Qed.

Lemma enum_both m c k n : iin_use m c -> is_dict m -> one_key_per_name m -> In (k, n) m -> exists b,
  snd (enum_make c (IName n)) = Ok (b, IName n) /\ snd (enum_make c (INum k)) = Ok (b, IName n) /\
  bytes_ok b /\ twos_value b = k /\ snd (enum_read c b) = Ok n.
Proof.
  intros U D J I. pose proof (iuse_ready m c U) as Rd. pose proof Rd as (Dn & M & R).
  destruct (int_make_num m (iuse c) k Rd) as (b & E & B & F). exists b.
  assert (NM : int_name_of (iuse c) k = IName n).
  { unfold int_name_of. rewrite M. now rewrite (in_dget Z.eqb z_ok m k n D I). }
  rewrite NM in E. unfold enum_make. rewrite M, R. rewrite (reversed_injective m k n J I), (in_dget Z.eqb z_ok m k n D I), E.
  repeat split; auto. unfold enum_read. cbn [snd]. rewrite M, (int_from_bytes_signed b B), F.
  now rewrite (in_dget Z.eqb z_ok m k n D I).
Qed.

Lemma enum_unknown m c : iin_use m c ->
  (forall n, ~ is_name m n -> snd (enum_make c (IName n)) = Err ValueError) /\
  (forall z, ~ is_key m z -> snd (enum_make c (INum z)) = Err ValueError) /\
  (forall b, bytes_ok b -> ~ is_key m (twos_value b) -> snd (enum_read c b) = Err KeyError).
Proof.
  intro U. pose proof (iuse_ready m c U) as (Dn & M & R). repeat split.
  - intros n N. unfold enum_make. rewrite R. apply reversed_none in N. now rewrite N.
  - intros z N. unfold enum_make. rewrite M. rewrite key_iff in N. apply (dget_none Z.eqb z_ok) in N. now rewrite N.
  - intros b B N. unfold enum_read. cbn [snd]. rewrite M, (int_from_bytes_signed b B).
    rewrite key_iff in N. apply (dget_none Z.eqb z_ok) in N. now rewrite N.
Qed.
