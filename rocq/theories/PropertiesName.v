(* Properties C36, C37 and C65 to C68: X.509 names. *)
Require Import Permutation Sorted.
Require Import Verif.Base Verif.BaseFacts Verif.Text Verif.NameModel Verif.NameSpec Verif.NameSort Verif.NameProofs.
Require Import Verif.NamePrep Verif.NameMore.

(* A library of tables for the examples: ASCII folds its case, nothing else happens. *)
Definition toy : prep_lib := {|
  map_b2 := fun c => [lower c]; nfkc := fun s => s; in_a1 := fun _ => false; in_c8 := fun _ => false;
  in_c3 := fun _ => false; in_c4 := fun _ => false; in_c5 := fun _ => false; in_d1 := fun _ => false;
  in_d2 := fun c => (97 <=? c) && (c <=? 122) |}.
Example toy_ascii_ex : ascii_lib toy.
Proof. repeat split. Qed.
Example toy_quiet_ex : quiet_lib toy.
Proof.
  split; [|auto]. intros c x H [<-|[]]. unfold lower. destruct ((65 <=? c) && (c <=? 90)) eqn:E; lia.
Qed.
Ltac no_repeats := unfold distinct_types; cbn [map a_type fst];
  repeat (constructor; [let H := fresh in intros H; vm_compute in H; intuition discriminate|]); constructor.
Definition cn (s : String.string) : attr := mk_attr (tx "common_name") (RText (tx s)).
Definition org (s : String.string) : attr := mk_attr (tx "organization_name") (RText (tx s)).
Definition uid (b : bytes) : attr := mk_attr (tx "unique_identifier") (RBytes b).
Definition odd (v : raw) : attr := mk_attr (tx "1.2.3") v.

(* ---- C36: an equivalence, consistent with hashable ---- *)

(* missing: names with a value that cannot be prepared, see the refutation *)
Theorem C36_reflexive_partial L n : comparable L n -> eq_name L n n = Ok true.
Proof. exact (name_refl L n). Qed.
Print Assumptions C36_reflexive_partial.
Example C36_reflexive_ex : comparable toy [[cn "Will"; org "Codex"]] /\
  eq_name toy [[cn "Will"; org "Codex"]] [[cn "Will"; org "Codex"]] = Ok true.
Proof. split; [|reflexivity]. repeat constructor; eexists; reflexivity. Qed.

(* a == b and b == a give the same answer, or both raise *)
Theorem C36_symmetric L a b : match eq_name L a b, eq_name L b a with
  | Ok x, Ok y => x = y | Err _, Err _ => True | _, _ => False end.
Proof. exact (name_sym L a b). Qed.
Print Assumptions C36_symmetric.
Example C36_symmetric_ex :
  eq_name toy [[cn "Will"]] [[cn " will "]] = Ok true /\ eq_name toy [[cn " will "]] [[cn "Will"]] = Ok true.
Proof. split; reflexivity. Qed.

Theorem C36_transitive L a b c : eq_name L a b = Ok true -> eq_name L b c = Ok true -> eq_name L a c = Ok true.
Proof. exact (name_trans L a b c). Qed.
Print Assumptions C36_transitive.
Example C36_transitive_ex : eq_name toy [[cn "Will B"]] [[cn "will  b"]] = Ok true /\
  eq_name toy [[cn "will  b"]] [[cn "WILL B "]] = Ok true /\ eq_name toy [[cn "Will B"]] [[cn "WILL B "]] = Ok true.
Proof. repeat split. Qed.

(* missing: names with boolean values of unregistered attributes, see the refutation *)
Theorem C36_hashable_partial L a b : Forall (Forall not_bool) a -> Forall (Forall not_bool) b -> eq_name L a b = Ok true ->
  exists h, hash_name L a = Ok h /\ hash_name L b = Ok h.
Proof. exact (name_hash L a b). Qed.
Print Assumptions C36_hashable_partial.
Example C36_hashable_ex :
  let a := [[cn "Will B"; org "X"]] in let b := [[org " x"; cn "WILL  b"]] in
  Forall (Forall not_bool) a /\ Forall (Forall not_bool) b /\ eq_name toy a b = Ok true /\
  hash_name toy a = Ok (tx "common_name:  will  b " ++ [0x1f] ++ tx "organization_name:  x ") /\
  hash_name toy b = hash_name toy a.
Proof. repeat split; repeat constructor. Qed.

(* missing: RDNs that repeat a type, see the refutation *)
Theorem C36_order_partial L a b : Forall2 (@Permutation attr) a b -> Forall distinct_types a -> comparable L a ->
  eq_name L a b = Ok true.
Proof. exact (name_order L a b). Qed.
Print Assumptions C36_order_partial.
Example C36_order_ex : Forall2 (@Permutation attr) [[cn "a"; org "b"]] [[org "b"; cn "a"]] /\
  Forall distinct_types [[cn "a"; org "b"]] /\ comparable toy [[cn "a"; org "b"]] /\
  eq_name toy [[cn "a"; org "b"]] [[org "b"; cn "a"]] = Ok true.
Proof.
  repeat split.
  - repeat constructor.
  - constructor; [no_repeats|constructor].
  - repeat constructor; eexists; reflexivity.
Qed.

(* the prepared form of printable ASCII: its words in lower case, two spaces apart *)
Theorem C36_prepared_text L s : ascii_lib L -> printable s ->
  ldap_prep L s = Ok (32 :: spaced (words (map lower s)) ++ [32]).
Proof. exact (prep_ascii L s). Qed.
Print Assumptions C36_prepared_text.
(* so two such texts are the same exactly when their words are, but for case *)
Theorem C36_case_and_spaces L s t : ascii_lib L -> printable s -> printable t ->
  (ldap_prep L s = ldap_prep L t <-> words (map lower s) = words (map lower t)).
Proof. exact (prep_same L s t). Qed.
Print Assumptions C36_case_and_spaces.
Example C36_text_ex : printable (tx "  Will   Bond ") /\ words (tx "  will   bond ") = [tx "will"; tx "bond"] /\
  ldap_prep toy (tx "  Will   Bond ") = Ok (tx " will  bond ") /\ ldap_prep toy (tx "willbond") = Ok (tx " willbond ").
Proof. split; [|repeat split]. cbv. repeat constructor; discriminate. Qed.

(* texts of any characters: the case of ASCII letters does not matter *)
Theorem C36_case L s t : (forall c, 65 <= c <= 90 -> map_b2 L c = map_b2 L (c + 32)) -> same_but_case s t ->
  ldap_prep L s = ldap_prep L t.
Proof. exact (prep_case L s t). Qed.
Print Assumptions C36_case.
Example C36_case_ex : (forall c, 65 <= c <= 90 -> map_b2 toy c = map_b2 toy (c + 32)) /\
  same_but_case [67; 97; 102; 233] [99; 65; 70; 233] /\ ldap_prep toy [67; 97; 102; 233] = Ok [32; 99; 97; 102; 233; 32].
Proof.
  repeat split. intros c H. cbn [toy map_b2]. unfold lower.
  destruct ((65 <=? c) && (c <=? 90)) eqn:E1, ((65 <=? c + 32) && (c + 32 <=? 90)) eqn:E2; f_equal; lia.
Qed.

(* a byte string that is not Windows-1252, in a unique identifier: the name is
   not equal to itself, the comparison raises *)
Theorem C36_reflexive_refuted : exists n, forall L, eq_name L n n = Err UnicodeError /\ hash_name L n = Err UnicodeError.
Proof. exists [[uid [0x81]]]. intros L. split; reflexivity. Qed.
Print Assumptions C36_reflexive_refuted.
(* nor is one holding the replacement character *)
Theorem C36_replacement_refuted : exists n, forall L, map_b2 L 0xfffd = [0xfffd] -> nfkc L [0xfffd] = [0xfffd] ->
  eq_name L n n = Err ValueError.
Proof.
  exists [[mk_attr (tx "common_name") (RText [0xfffd])]]. intros L H1 H2.
  assert (P : prep_value L (RText [0xfffd]) = Err ValueError).
  { unfold prep_value, ldap_prep. change (map_step [0xfffd]) with [0xfffd]. cbn [flat_map]. rewrite H1. cbn [app].
    rewrite H2. cbn [existsb]. unfold prohibited. change (0xfffd =? 0xfffd) with true. rewrite !orb_true_r. reflexivity. }
  cbv -[prep_value]. rewrite P. reflexivity.
Qed.
Print Assumptions C36_replacement_refuted.
(* INTEGER 1 and BOOLEAN TRUE as the value of an unregistered attribute: equal
   names whose hashable differs *)
Theorem C36_hashable_refuted : exists a b, forall L, eq_name L a b = Ok true /\
  exists h h', hash_name L a = Ok h /\ hash_name L b = Ok h' /\ h <> h'.
Proof.
  exists [[odd (RInt 1)]], [[odd (RBool true)]]. intros L. split; [reflexivity|].
  eexists _, _. split; [reflexivity|]. split; [reflexivity|]. vm_compute. discriminate.
Qed.
Print Assumptions C36_hashable_refuted.
(* the order of two attributes of one type matters *)
Theorem C36_order_refuted : exists a b, Permutation a b /\ forall L, eq_name L [a] [b] = Ok false.
Proof. exists [uid [1]; uid [2]], [uid [2]; uid [1]]. split; [constructor|]. intros L. reflexivity. Qed.
Print Assumptions C36_order_refuted.

(* ---- C37: equal names have the same attributes ---- *)

(* missing: RDNs that repeat a type, see the refutation *)
Theorem C37_partial L a b : Forall distinct_types a -> (eq_name L a b = Ok true <-> Forall2 (same_attrs L) a b).
Proof. exact (name_attrs L a b). Qed.
Print Assumptions C37_partial.
Theorem C37_attribute L x y : eq_attr L x y = Ok true <-> same_attr L x y.
Proof. exact (eq_attr_spec L x y). Qed.
Print Assumptions C37_attribute.
Example C37_ex : Forall distinct_types [[cn "a"]; [org "b"; cn "c"]] /\
  eq_name toy [[cn "a"]; [org "b"; cn "c"]] [[cn "A"]; [cn "C"; org "B"]] = Ok true /\
  eq_name toy [[cn "a"]; [org "b"; cn "c"]] [[cn "a"]; [cn "c"; org "d"]] = Ok false.
Proof.
  split; [|split; reflexivity]. constructor; [no_repeats|]. constructor; [no_repeats|constructor].
Qed.

(* of several values of one type only the last counts *)
Theorem C37_refuted : exists a b, forall L, eq_name L [a] [b] = Ok true /\ ~ same_attrs L a b /\
  hash_name L [a] = hash_name L [b].
Proof.
  exists [uid [1]; uid [2]], [uid [3]; uid [2]]. intros L. split; [reflexivity|]. split; [|reflexivity].
  intros (b' & P & F). inversion F as [|? y ? ? (_ & p & q & Hp & Hq & E) _]; subst.
  apply Permutation_sym in P. apply (Permutation_in y) in P; [|left; reflexivity].
  injection Hp as <-. destruct P as [<-|[<-|[]]]; injection Hq as <-; vm_compute in E; discriminate.
Qed.
Print Assumptions C37_refuted.

(* ---- C65: the map step of RFC 4518 ---- *)

(* missing: the characters U+FE00 to U+FEFE and U+FF00, see the refutations *)
Theorem C65_partial s : Forall (fun c => ~ (0xfe00 <= c < 0xfeff) /\ c <> 0xff00) s -> map_step s = rfc_map s.
Proof. exact (rfc_text s). Qed.
Print Assumptions C65_partial.
Example C65_ex : map_step [0x41; 0xad; 0x9; 0x7f; 0x2003; 0x1d174; 0xfeff; 0x42] = [0x41; 32; 32; 0x42].
Proof. reflexivity. Qed.

(* Arabic letters (here U+FE8D and U+FEB1) vanish: any two texts made of such
   letters are the same name *)
Theorem C65_drops_refuted : exists s t, s <> t /\ rfc_map s = s /\ rfc_map t = t /\
  forall L, ldap_prep L s = ldap_prep L t.
Proof.
  exists [0xfe8d; 0xfe8f], [0xfeb1]. split; [discriminate|]. split; [reflexivity|]. split; [reflexivity|].
  intros L. reflexivity.
Qed.
Print Assumptions C65_drops_refuted.
(* variation selectors stay *)
Theorem C65_keeps_refuted : exists c, rfc_map [c] = [] /\ map_step [c] = [c].
Proof. exists 0xfe00. split; reflexivity. Qed.
Print Assumptions C65_keeps_refuted.

(* ---- C66: hashable tells names apart ---- *)

(* missing: byte string values, repeated types, RDNs without attributes *)
Theorem C66_partial L a b h : quiet_lib L -> text_name a -> text_name b -> hash_name L a = Ok h -> hash_name L b = Ok h ->
  eq_name L a b = Ok true.
Proof. exact (hash_name_inj L a b h). Qed.
Print Assumptions C66_partial.
Example C66_ex : text_name [[cn "a"]] /\ hash_name toy [[cn "a"]] = Ok (tx "common_name:  a ").
Proof.
  split; [|reflexivity]. constructor; [|constructor]. split; [discriminate|]. split.
  - repeat constructor. intros [].
  - constructor; [|constructor]. split.
    + exists (tx "a"). split; [reflexivity|]. cbv. repeat constructor. discriminate.
    + cbv. repeat constructor; discriminate.
Qed.
(* a byte string may hold the separators *)
Theorem C66_bytes_refuted : exists a b, forall L, hash_name L a = hash_name L b /\ eq_name L a b = Ok false.
Proof.
  exists [[mk_attr (tx "unique_identifier") (RBytes (tx "a " ++ [0x1e] ++ tx "unique_identifier:  b"))]],
    [[uid (tx "a")]; [uid (tx "b")]].
  intros L. split; reflexivity.
Qed.
Print Assumptions C66_bytes_refuted.
(* repeated attributes and empty RDNs leave no trace *)
Theorem C66_repeated_refuted : exists a b, forall L, hash_name L a = hash_name L b /\ eq_name L a b = Ok false.
Proof. exists [[uid [1]; uid [2]]], [[uid [2]]]. intros L. split; reflexivity. Qed.
Print Assumptions C66_repeated_refuted.
Theorem C66_empty_refuted : exists a b, forall L, hash_name L a = hash_name L b /\ eq_name L a b = Ok false.
Proof. exists [], [[]]. intros L. split; reflexivity. Qed.
Print Assumptions C66_empty_refuted.

(* ---- C67: comparison sees the current value ---- *)

(* missing: objects whose prepared value was read before an assignment *)
Theorem C67_partial L x v : snd (read_prepped L (assign_value v (new_attr x))) = prep_value L v /\
  snd (read_prepped L (fst (read_prepped L (new_attr x)))) = snd (read_prepped L (new_attr x)).
Proof.
  split.
  - unfold read_prepped. cbn. destruct (prep_value L v); reflexivity.
  - unfold read_prepped at 2 3. cbn [new_attr o_attr o_prepped].
    destruct (prep_value L (a_value x)) as [[]|] eqn:E; unfold read_prepped; cbn; rewrite ?E; reflexivity.
Qed.
Print Assumptions C67_partial.
Example C67_ex : snd (read_prepped toy (assign_value (RText (tx "B")) (new_attr (cn "A")))) = Ok (PText (tx " b ")).
Proof. reflexivity. Qed.
(* after a comparison an assigned value is not seen by the next one *)
Theorem C67_refuted : exists x y v, forall L,
  let '(x1, y1, r1) := eq_obj L (new_attr x) (new_attr y) in
  let x2 := assign_value v x1 in
  r1 = Ok true /\ snd (eq_obj L x2 y1) = Ok true /\ eq_attr L (o_attr x2) (o_attr y1) = Ok false.
Proof. exists (uid [1]), (uid [1]), (RBytes [2]). intros L. repeat split. Qed.
Print Assumptions C67_refuted.

(* ---- C68: building and summarising ---- *)

(* missing: dictionaries that name one type in two ways *)
Theorem C68_order_partial make d d' : Permutation d d' -> NoDup (map (fun kv => map_type (fst kv)) d) ->
  build make d = build make d'.
Proof. exact (build_order make d d'). Qed.
Print Assumptions C68_order_partial.
Theorem C68_order_refuted : exists d d', Permutation d d' /\ NoDup (map fst d) /\
  forall L, exists n n', build (fun _ v => Ok v) d = Ok n /\ build (fun _ v => Ok v) d' = Ok n' /\ eq_name L n n' = Ok false.
Proof.
  exists [(tx "2.5.4.45", RBytes [1]); (tx "unique_identifier", RBytes [2])],
         [(tx "unique_identifier", RBytes [2]); (tx "2.5.4.45", RBytes [1])].
  split; [constructor|]. split.
  - no_repeats.
  - intros L. eexists _, _. split; [reflexivity|]. split; [reflexivity|]. reflexivity.
Qed.
Print Assumptions C68_order_refuted.
(* one RDN for each item, in the preferred order *)
Theorem C68_build make d n : build make d = Ok n ->
  exists l, Permutation d l /\ in_order (map (fun kv => map_type (fst kv)) l) /\
  Forall2 (fun kv r => exists x, make (map_type (fst kv)) (snd kv) = Ok x /\ r = [mk_attr (map_type (fst kv)) x] /\
                       In (map_type (fst kv)) (map snd name_map)) l n.
Proof. exact (build_result make d n). Qed.
Print Assumptions C68_build.
Theorem C68_accepts make d :
  (forall k v, In (k, v) d -> In (map_type k) (map snd name_map) /\ exists x, make (map_type k) v = Ok x) ->
  exists n, build make d = Ok n.
Proof. exact (build_accepts make d). Qed.
Print Assumptions C68_accepts.
Theorem C68_unknown make d k v : In (k, v) d -> ~ In (map_type k) (map snd name_map) -> forall n, build make d <> Ok n.
Proof. exact (build_unknown make d k v). Qed.
Print Assumptions C68_unknown.
Example C68_build_ex :
  build (fun _ v => Ok v) [(tx "common_name", RText (tx "x")); (tx "2.5.4.6", RText (tx "US"))] =
    Ok [[mk_attr (tx "country_name") (RText (tx "US"))]; [cn "x"]] /\
  build (fun _ v => Ok v) [(tx "1.2.3", RText (tx "x"))] = Err ValueError.
Proof. split; vm_compute; reflexivity. Qed.

(* native: for each type its values in order, alone if there is just one *)
Theorem C68_native t n : dget t (native_name n) =
  match values_of t n with [] => None | [v] => Some (One v) | l => Some (Many l) end.
Proof. rewrite native_spec. destruct (values_of t n) as [|? [|? ?]]; reflexivity. Qed.
Print Assumptions C68_native.
Example C68_native_ex : let n := [[cn "a"]; [org "b"; cn "c"]; [cn "d"]] in
  dget (tx "common_name") (native_name n) = Some (Many [RText (tx "a"); RText (tx "c"); RText (tx "d")]) /\
  dget (tx "organization_name") (native_name n) = Some (One (RText (tx "b"))) /\ dget (tx "title") (native_name n) = None.
Proof. repeat split. Qed.

(* human_friendly: every field once, its values latest first; the last field
   first, unless the name ends with the country *)
Theorem C68_human l :
  let order := firsts [] (map (fun x => friendly (fst x)) l) in
  let order := match rev l with
               | x :: _ => if eqb_text (friendly (fst x)) (tx "Country") then order else rev order
               | [] => rev order
               end in
  let parts := map (fun f => f ++ tx ": " ++ join_text (tx ", ") (shown f l)) order in
  human l = join_text (if existsb (fun e => existsb (Z.eqb 44) e) parts then tx "; " else tx ", ") parts.
Proof. exact (human_spec l). Qed.
Print Assumptions C68_human.
Example C68_human_ex :
  human [(tx "country_name", tx "US"); (tx "common_name", tx "a"); (tx "common_name", tx "b"); (tx "common_name", tx "c")] =
  tx "Common Name: c, b, a; Country: US".
Proof. vm_compute. reflexivity. Qed.

(* ---- C36: which texts have no prepared form ---- *)
(* exactly those with a prohibited character after folding and normalisation,
   and those that mix directions; D.1 and D.2 share no character *)
Theorem C36_prepared_or_refused : forall L s, (forall c, in_d1 L c = true -> in_d2 L c = false) ->
  let t := nfkc L (flat_map (map_b2 L) (map_step s)) in
  ((exists r, ldap_prep L s = Ok r) <-> (forall c, In c t -> ~ rfc_prohibited L c) /\ rfc_bidi L t) /\
  (forall e, ldap_prep L s = Err e -> e = ValueError).
Proof. exact prep_refused. Qed.
Print Assumptions C36_prepared_or_refused.
Definition arabic : prep_lib :=
  {| map_b2 := fun c => [c]; nfkc := fun s => s; in_a1 := fun c => c =? 0x221; in_c8 := fun c => c =? 0x340;
     in_c3 := fun c => c =? 0xe000; in_c4 := fun c => c =? 0xfdd0; in_c5 := fun c => c =? 0xd800;
     in_d1 := fun c => (0x627 <=? c) && (c <=? 0x64a); in_d2 := fun c => (65 <=? c) && (c <=? 90) |}.
Example C36_prepared_or_refused_ex :
  ldap_prep arabic [0x627; 49; 0x628] = Ok [32; 0x627; 49; 0x628; 32] /\ ldap_prep arabic [0x627; 49] = Err ValueError /\
  ldap_prep arabic [0x627; 65; 0x628] = Err ValueError /\ ldap_prep arabic [0xe000] = Err ValueError.
Proof. repeat split; vm_compute; reflexivity. Qed.

(* ---- C68: the tables for building and showing names ---- *)
(* the preferred order lists every known type but one, and no other *)
Theorem C68_preferred_order_table : NoDup preferred_order /\
  forall w, In w preferred_order <-> In w (map snd name_map) /\ w <> tx "unique_identifier".
Proof. exact order_table. Qed.
Print Assumptions C68_preferred_order_table.
(* every known type has a label, no two the same *)
Theorem C68_labels_table : forall v w, In v (map snd name_map) -> In w (map snd name_map) -> friendly v = friendly w -> v = w.
Proof. exact labels_table. Qed.
Print Assumptions C68_labels_table.
Theorem C68_every_type_has_a_label : forall w, In w (map snd name_map) -> exists f, In (w, f) friendly_map /\ friendly w = f.
Proof. exact every_label. Qed.
Print Assumptions C68_every_type_has_a_label.
Example C68_labels_ex : friendly (tx "user_id") = tx "User ID" /\ index_of (tx "title") preferred_order = 12.
Proof. split; vm_compute; reflexivity. Qed.
