(* C74: EC private keys have the length of the order of their curve.
   C75: PrivateKeyInfo keeps the length of the EC key in it. *)
Require Import Verif.Base Verif.BaseFacts Verif.IntSpec Verif.Text Verif.MapModel Verif.Tables Verif.RegSpec Verif.PrimModel Verif.PrimSpec
  Verif.KeyModel Verif.KeySpec Verif.KeyProofs Verif.MapTables.
Require Coq.Strings.String.
Import Coq.Strings.String.StringSyntax.

(* the sizes of the library *)
Definition lib_sizes : list (text * Z) := map (fun x => (tx (fst x), snd x)) key_sizes.

(* ---- C74 ---- *)
(* the size of every named curve is that of its order *)
Theorem C74_named_sizes : forall oct oid n, In (oid, n) map_keys_NamedCurve ->
  exists bits, In (n, bits) order_bits /\ key_size oct lib_sizes (Named (tx oid)) = Ok ((bits + 7) / 8).
Proof.
  assert (A : forallb (fun x => match sget order_bits (snd x), size_get lib_sizes (tx (fst x)) with
    | Some b, Some s => s =? (b + 7) / 8 | _, _ => false end) map_keys_NamedCurve = true) by (vm_compute; reflexivity).
  intros oct oid n H. rewrite forallb_forall in A. specialize (A _ H). cbn [fst snd] in A.
  destruct (sget order_bits n) as [b|] eqn:E; [|discriminate]. exists b. split; [now apply sget_in|].
  unfold key_size. destruct (size_get lib_sizes (tx oid)) as [s|]; [|discriminate]. apply Z.eqb_eq in A. now subst.
Qed.
Print Assumptions C74_named_sizes.
(* curves without a size, implicit curves and orders that are not positive have none *)
Theorem C74_no_size : forall oct d, (d = ImplicitCA \/ (exists q, d = Specified q /\ q <= 0) \/
    exists o, d = Named o /\ forall x n, In (x, n) map_keys_NamedCurve -> o <> tx x) ->
  key_size oct lib_sizes d = Err ValueError.
Proof.
  assert (A : forallb (fun x => existsb (fun y => eqb_text (tx (fst y)) (fst x)) map_keys_NamedCurve) lib_sizes = true) by (vm_compute; reflexivity).
  intros oct d [-> | [(q & -> & Q) | (o & -> & N)]]; [reflexivity| |].
  - unfold key_size. apply Z.leb_le in Q. now rewrite Q.
  - unfold key_size. destruct (size_get lib_sizes o) as [s|] eqn:E; [|reflexivity]. exfalso.
    assert (I : In (o, s) lib_sizes).
    { clear A N. revert E. induction lib_sizes as [|[a b] m IH]; cbn [size_get]; [discriminate|].
      destruct (eqb_text a o) eqn:Q; [|intro E; right; auto]. apply eqb_text_spec in Q. intro E. injection E as ->. left. now subst. }
    rewrite forallb_forall in A. specialize (A _ I). cbn [fst] in A. apply existsb_exists in A.
    destruct A as ([x n] & J & Q). cbn [fst] in Q. apply eqb_text_spec in Q. exact (N x n J (eq_sym Q)).
Qed.
Print Assumptions C74_no_size.
Example C74_no_size_ex : key_size (fun _ => 0) lib_sizes (Named (tx "1.2.3")) = Err ValueError /\
  key_size (fun _ => 0) lib_sizes (Named (tx "1.2.840.10045.3.1.7")) = Ok 32.
Proof. split; vm_compute; reflexivity. Qed.

(* in whatever order the fields are assigned and the key is written in between, the private
   key is held and written in the width of the last size, or in the fewest octets *)
Theorem C74_private_partial : forall oct sizes ops k, Forall by_name ops -> run oct sizes new_key ops = Ok k ->
  let a := abs_run (sized oct sizes) ops in
  match a_value a with
  | None => k_private k = None
  | Some z => exists o c, k_private k = Some o /\ contents o = Some c /\ private_form a z c /\
      snd (get_native KIntOctets priv_cls o) = Ok (NInt z)
  end.
Proof. exact history_private. Qed.
Print Assumptions C74_private_partial.
Theorem C74_forced_dump_partial : forall oct sizes ops k, Forall by_name ops -> run oct sizes new_key ops = Ok k ->
  let a := abs_run (sized oct sizes) ops in a_version a <> None -> a_value a <> None ->
  exists d, snd (dump_key k true) = Ok d /\ (len d < 2 ^ 1008 -> key_form a d).
Proof. exact history_forced. Qed.
Print Assumptions C74_forced_dump_partial.
Theorem C74_dump_partial : forall oct sizes ops k, Forall by_name ops -> Forall no_resize ops -> run oct sizes new_key ops = Ok k ->
  let a := abs_run (sized oct sizes) ops in a_version a <> None -> a_value a <> None ->
  exists d, snd (dump_key k false) = Ok d /\ (len d < 2 ^ 1008 -> key_form a d).
Proof. exact history_dump. Qed.
Print Assumptions C74_dump_partial.
(* exactly the values that do not fit are refused *)
Theorem C74_outcome : forall oct sizes ops k x, Forall by_name ops -> run oct sizes new_key ops = Ok k -> by_name x ->
  match x with Dump _ => False | _ => True end ->
  snd (step oct sizes k x) = match outcome (key_size oct sizes) (abs_run (sized oct sizes) ops) x with Ok tt => Ok [] | Err e => Err e end.
Proof. exact outcome_ok. Qed.
Print Assumptions C74_outcome.
(* a loaded key is written as it was read, and once it is given its parameters it is a key
   like any other *)
Theorem C74_loaded_same : forall v c p u,
  snd (dump_key (loaded v c p u) false) = Ok (v ++ PrimDump.object_bytes priv_tagging c ++ opt (option_map snd p) ++ opt u).
Proof. exact loaded_same. Qed.
Print Assumptions C74_loaded_same.
Theorem C74_loaded_partial : forall oct sizes v c p u d b n ops k,
  bytes_ok c -> d <> ImplicitCA -> key_size oct sizes d = Ok n -> 0 <= n -> be_value c < 256 ^ n ->
  Forall by_name ops -> Forall no_resize ops ->
  run oct sizes (loaded v c p u) (SetParams ByName (Some (d, b)) :: ops) = Ok k ->
  let a := fold_left (abs_step (sized oct sizes)) ops (Abs (Some v) (Some (be_value c)) (Some n) (Some b) u) in
  exists e, snd (dump_key k false) = Ok e /\ (len e < 2 ^ 1008 -> key_form a e).
Proof. exact loaded_history. Qed.
Print Assumptions C74_loaded_partial.

(* what the log sees *)
Definition any_log : Z -> Z := fun _ => 0.
Definition p256 : dom := Named (tx "1.2.840.10045.3.1.7").
Definition p256_octets : bytes := [160; 10; 6; 8; 42; 134; 72; 206; 61; 3; 1; 7].
Definition version1 : bytes := [2; 1; 1].
(* witnesses *)
Definition made (r : res eck) : eck := match r with Ok k => k | Err _ => new_key end.
Definition got (r : res bytes) : bytes := match r with Ok b => b | Err _ => [] end.
Definition held (k : eck) : obj := match k_private k with Some o => o | None => loaded_private [] end.
Definition held_octets (k : eck) : bytes := match contents (held k) with Some c => c | None => [] end.
Definition info (r : res (pki * res unit)) : pki := match r with Ok (x, _) => x | Err _ => PKI ImplicitCA [] new_key end.

Example C74_named_sizes_ex : In ("1.3.132.0.35"%string, "secp521r1"%string) map_keys_NamedCurve /\
  key_size any_log lib_sizes (Named (tx "1.3.132.0.35")) = Ok 66.
Proof. split; [apply sget_in; reflexivity|vm_compute; reflexivity]. Qed.
Definition ops_ex : list op :=
  [SetPrivate ByName 1000; SetVersion version1; Dump false; SetParams ByName (Some (p256, p256_octets)); Dump true;
   SetPrivate ByName 5; SetPublic (Some [161; 0])].
Example C74_dump_ex : Forall by_name ops_ex /\ Forall no_resize ops_ex /\
  exists k, run any_log lib_sizes new_key ops_ex = Ok k /\
    snd (dump_key k false) = Ok (version1 ++ [4; 32] ++ repeat 0 31 ++ [5] ++ p256_octets ++ [161; 0]).
Proof.
  split; [repeat (constructor; [exact Logic.I|]); constructor|]. split; [repeat (constructor; [exact Logic.I|]); constructor|].
  exists (made (run any_log lib_sizes new_key ops_ex)). split; vm_compute; reflexivity.
Qed.
Example C74_outcome_ex : exists k, run any_log lib_sizes new_key ops_ex = Ok k /\
  snd (step any_log lib_sizes k (SetPrivate ByName (256 ^ 32))) = Err OverflowError.
Proof. exists (made (run any_log lib_sizes new_key ops_ex)). split; vm_compute; reflexivity. Qed.
Example C74_loaded_ex : exists k, run any_log lib_sizes (loaded version1 (repeat 0 31 ++ [9]) (Some (p256, p256_octets)) None)
    [SetParams ByName (Some (p256, p256_octets)); SetPrivate ByName 77] = Ok k /\
  snd (dump_key k false) = Ok (version1 ++ [4; 32] ++ repeat 0 31 ++ [77] ++ p256_octets).
Proof.
  exists (made (run any_log lib_sizes (loaded version1 (repeat 0 31 ++ [9]) (Some (p256, p256_octets)) None)
    [SetParams ByName (Some (p256, p256_octets)); SetPrivate ByName 77])). split; vm_compute; reflexivity. Qed.

(* the logarithm is taken of the order rounded to 53 bits, so whatever it answers the size
   cannot be right both for the order of secp224r1 and for that of secp224k1 *)
Definition order_224r1 : Z := 0xFFFFFFFFFFFFFFFFFFFFFFFFFFFF16A2E0B8F03E13DD29455C5C2A3D.
Definition order_224k1 : Z := 0x010000000000000000000000000001DCE8D2EC6184CAF0A971769FB1F7.
Theorem C74_specified_refuted : exists q q', octets q = 28 /\ octets q' = 29 /\
  rounded q (to_double q) /\ rounded q' (to_double q') /\
  forall oct sizes, key_size oct sizes (Specified q) = key_size oct sizes (Specified q').
Proof.
  exists order_224r1, order_224k1. split; [vm_compute; reflexivity|]. split; [vm_compute; reflexivity|]. split; [|split].
  - exists (2 ^ 53), 171. vm_compute. intuition discriminate.
  - exists (2 ^ 52), 172. vm_compute. intuition discriminate.
  - intros. unfold key_size. replace (to_double order_224r1) with (to_double order_224k1) by (vm_compute; reflexivity). reflexivity.
Qed.
Print Assumptions C74_specified_refuted.
(* the width is taken from the first private key, so that a longer one is refused *)
Theorem C74_second_key_refuted : exists z z', exists k, 0 <= z /\ 0 <= z' /\
  run any_log lib_sizes new_key [SetVersion version1; SetPrivate ByName z] = Ok k /\
  snd (step any_log lib_sizes k (SetPrivate ByName z')) = Err OverflowError.
Proof. exists 256, 65536, (made (run any_log lib_sizes new_key [SetVersion version1; SetPrivate ByName 256])). split; [lia|]. split; [lia|]. split; vm_compute; reflexivity. Qed.
Print Assumptions C74_second_key_refuted.
(* the parameters of a loaded key are not used: a new private key is written too short *)
Theorem C74_loaded_size_refuted : exists c z k d, len c = 32 /\
  run any_log lib_sizes (loaded version1 c (Some (p256, p256_octets)) None) [SetPrivate ByName z] = Ok k /\
  snd (dump_key k false) = Ok d /\ d = version1 ++ [4; 1; z] ++ p256_octets.
Proof.
  exists (repeat 7 32), 5, (made (run any_log lib_sizes (loaded version1 (repeat 7 32) (Some (p256, p256_octets)) None) [SetPrivate ByName 5])).
  eexists. split; [reflexivity|]. split; [vm_compute; reflexivity|]. split; [|reflexivity]. vm_compute. reflexivity.
Qed.
Print Assumptions C74_loaded_size_refuted.
(* a loaded key that is written anew loses the leading zeros that its length requires *)
Theorem C74_loaded_forced_refuted : exists c d d', len c = 32 /\
  snd (dump_key (loaded version1 c (Some (p256, p256_octets)) None) false) = Ok d /\
  snd (dump_key (loaded version1 c (Some (p256, p256_octets)) None) true) = Ok d' /\ len d' < len d.
Proof.
  exists (0 :: repeat 7 31), (version1 ++ [4; 32] ++ (0 :: repeat 7 31) ++ p256_octets), (version1 ++ [4; 31] ++ repeat 7 31 ++ p256_octets).
  split; [reflexivity|]. split; [vm_compute; reflexivity|]. split; vm_compute; reflexivity.
Qed.
Print Assumptions C74_loaded_forced_refuted.
(* the same happens to a copy *)
Definition ops_copy : list op := [SetVersion version1; SetPrivate ByName 5; SetParams ByName (Some (p256, p256_octets))].
Theorem C74_copy_refuted : exists k c d d', run any_log lib_sizes new_key ops_copy = Ok k /\ copy_key k = Ok c /\
  snd (dump_key k true) = Ok d /\ snd (dump_key c true) = Ok d' /\ len d = len d' + 31.
Proof.
  set (k := made (run any_log lib_sizes new_key ops_copy)). exists k, (made (copy_key k)), (got (snd (dump_key k true))),
    (got (snd (dump_key (made (copy_key k)) true))).
  split; [vm_compute; reflexivity|]. split; [vm_compute; reflexivity|]. split; [vm_compute; reflexivity|]. split; vm_compute; reflexivity.
Qed.
Print Assumptions C74_copy_refuted.
(* fields assigned by their number do not take part *)
Definition ops_index : list op := [SetVersion version1; SetParams ByName (Some (p256, p256_octets)); SetPrivate ByIndex 5].
Theorem C74_by_index_refuted : exists k, run any_log lib_sizes new_key ops_index = Ok k /\
  snd (dump_key k false) = Ok (version1 ++ [4; 1; 5] ++ p256_octets).
Proof. exists (made (run any_log lib_sizes new_key ops_index)). split; vm_compute; reflexivity. Qed.
Print Assumptions C74_by_index_refuted.
(* set_key_size changes the private key and not what the key that has been written is
   written as *)
Definition ops_resize : list op := [SetVersion version1; SetPrivate ByName 5; Dump false; SetSize 32].
Theorem C74_resize_stale_refuted : exists k o c, run any_log lib_sizes new_key ops_resize = Ok k /\
  k_private k = Some o /\ contents o = Some c /\ len c = 32 /\ snd (dump_key k false) = Ok (version1 ++ [4; 1; 5]).
Proof.
  set (k := made (run any_log lib_sizes new_key ops_resize)). exists k, (held k), (held_octets k).
  split; [vm_compute; reflexivity|]. split; [vm_compute; reflexivity|]. split; [vm_compute; reflexivity|]. split; vm_compute; reflexivity.
Qed.
Print Assumptions C74_resize_stale_refuted.
(* a private key that is refused stays in the object *)
Definition ops_refused : list op := [SetVersion version1; SetPrivate ByName 5; SetSize 2].
Theorem C74_refused_kept_refuted : exists k k', run any_log lib_sizes new_key ops_refused = Ok k /\
  step any_log lib_sizes k (SetPrivate ByName 16777215) = (k', Err OverflowError) /\
  snd (dump_key k' false) = Ok (version1 ++ [4; 3; 255; 255; 255]).
Proof.
  set (k := made (run any_log lib_sizes new_key ops_refused)). exists k, (fst (step any_log lib_sizes k (SetPrivate ByName 16777215))).
  split; [vm_compute; reflexivity|]. split; vm_compute; reflexivity.
Qed.
Print Assumptions C74_refused_kept_refuted.

(* ---- C75 ---- *)
(* the key is given the size of the curve of the algorithm; written anew it has that size,
   and also as it is if it had the size before *)
Theorem C75_info_partial : forall oct sizes ops k d n z,
  Forall by_name ops -> Forall no_resize ops -> run oct sizes new_key ops = Ok k ->
  d <> ImplicitCA -> key_size oct sizes d = Ok n -> 0 <= n ->
  let a := abs_run (sized oct sizes) ops in a_version a <> None -> a_value a = Some z ->
  (256 ^ n <= z -> exists x, pki_make oct sizes d k = Ok (x, Err OverflowError)) /\
  (z < 256 ^ n -> exists x, pki_make oct sizes d k = Ok (x, Ok tt) /\
     (exists o c, k_private (p_parsed x) = Some o /\ contents o = Some c /\ fixed n z c) /\
     (exists e, snd (pki_dump x true) = Ok e /\ (len e < 2 ^ 1008 -> key_form (abs_step (sized oct sizes) a (SetSize n)) e)) /\
     (a_width a = Some n -> exists e, snd (pki_dump x false) = Ok e /\ (len e < 2 ^ 1008 -> key_form a e))).
Proof. exact make_info. Qed.
Print Assumptions C75_info_partial.
(* wrap moves the parameters and keeps the length *)
Theorem C75_wrap : forall oct sizes ops k d b n z,
  Forall by_name ops -> Forall no_resize ops -> run oct sizes new_key ops = Ok k ->
  d <> ImplicitCA -> key_size oct sizes d = Ok n -> 0 <= n < 128 ->
  let a := abs_run (sized oct sizes) ops in
  k_params k = Some (d, b) -> a_version a <> None -> a_value a = Some z -> a_width a = Some n ->
  exists x, wrap_ec oct sizes k = Ok (x, Ok tt) /\
    (exists o c, k_private (p_parsed x) = Some o /\ contents o = Some c /\ fixed n z c) /\
    forall f, exists e, snd (pki_dump x f) = Ok e /\ (len e < 2 ^ 1008 -> key_form (abs_step (sized oct sizes) a DelParams) e).
Proof. exact wrap_info. Qed.
Print Assumptions C75_wrap.
(* a key without parameters can not be wrapped *)
Theorem C75_wrap_needs_parameters : forall oct sizes k, k_params k = None -> forall x, wrap_ec oct sizes k <> Ok x.
Proof. exact wrap_needs. Qed.
Print Assumptions C75_wrap_needs_parameters.
Example C75_wrap_needs_ex : k_params (made (run any_log lib_sizes new_key [SetVersion version1; SetPrivate ByName 5])) = None.
Proof. vm_compute. reflexivity. Qed.

Definition plain_key : list op := [SetVersion version1; SetPrivate ByName 5].
Example C75_info_ex : exists k x, run any_log lib_sizes new_key plain_key = Ok k /\ pki_make any_log lib_sizes p256 k = Ok (x, Ok tt) /\
  snd (pki_dump x true) = Ok (version1 ++ [4; 32] ++ repeat 0 31 ++ [5]).
Proof.
  set (k := made (run any_log lib_sizes new_key plain_key)). exists k, (info (pki_make any_log lib_sizes p256 k)).
  split; [vm_compute; reflexivity|]. split; vm_compute; reflexivity.
Qed.
Example C75_wrap_ex : exists k x, run any_log lib_sizes new_key ops_ex = Ok k /\ k_params k = Some (p256, p256_octets) /\
  wrap_ec any_log lib_sizes k = Ok (x, Ok tt) /\
  snd (pki_dump x false) = Ok (version1 ++ [4; 32] ++ repeat 0 31 ++ [5] ++ [161; 0]).
Proof.
  set (k := made (run any_log lib_sizes new_key ops_ex)). exists k, (info (wrap_ec any_log lib_sizes k)).
  split; [vm_compute; reflexivity|]. split; [vm_compute; reflexivity|]. split; vm_compute; reflexivity.
Qed.
(* the octet string is made before the size is known, so it keeps the short key, while the
   key that can be read from the object is long: this is what the tests look at *)
Theorem C75_stale_octets_refuted : exists k x o c e,
  run any_log lib_sizes new_key plain_key = Ok k /\ pki_make any_log lib_sizes p256 k = Ok (x, Ok tt) /\
  k_private (p_parsed x) = Some o /\ contents o = Some c /\ len c = 32 /\
  snd (pki_dump x false) = Ok e /\ e = version1 ++ [4; 1; 5] /\ snd (dump_key (p_parsed x) false) = Ok e.
Proof.
  set (k := made (run any_log lib_sizes new_key plain_key)). set (x := info (pki_make any_log lib_sizes p256 k)).
  exists k, x, (held (p_parsed x)), (held_octets (p_parsed x)), (version1 ++ [4; 1; 5]).
  split; [vm_compute; reflexivity|]. split; [vm_compute; reflexivity|]. split; [vm_compute; reflexivity|].
  split; [vm_compute; reflexivity|]. split; [vm_compute; reflexivity|]. split; [vm_compute; reflexivity|]. split; vm_compute; reflexivity.
Qed.
Print Assumptions C75_stale_octets_refuted.
(* the same when the curve of the algorithm is changed afterwards *)
Definition p384 : dom := Named (tx "1.3.132.0.34").
Theorem C75_changed_curve_refuted : exists k x x' o c,
  run any_log lib_sizes new_key ops_ex = Ok k /\ wrap_ec any_log lib_sizes k = Ok (x, Ok tt) /\
  pki_params any_log lib_sizes x p384 = (x', Ok tt) /\
  k_private (p_parsed x') = Some o /\ contents o = Some c /\ len c = 48 /\
  snd (pki_dump x' false) = Ok (version1 ++ [4; 32] ++ repeat 0 31 ++ [5] ++ [161; 0]).
Proof.
  set (k := made (run any_log lib_sizes new_key ops_ex)). set (x := info (wrap_ec any_log lib_sizes k)).
  set (x' := fst (pki_params any_log lib_sizes x p384)). exists k, x, x', (held (p_parsed x')), (held_octets (p_parsed x')).
  split; [vm_compute; reflexivity|]. split; [vm_compute; reflexivity|]. split; [vm_compute; reflexivity|].
  split; [vm_compute; reflexivity|]. split; [vm_compute; reflexivity|]. split; vm_compute; reflexivity.
Qed.
Print Assumptions C75_changed_curve_refuted.
