(* C76: the key in a PublicKeyInfo or PrivateKeyInfo is read as its algorithm says.
   C77: the sizes and digests that keys report. *)
Require Import Verif.Base Verif.BaseFacts Verif.IntSpec Verif.Text Verif.OidModel Verif.OidSpec Verif.MapModel Verif.MapSpec Verif.MapProofs
  Verif.Tables Verif.MapTables Verif.RegSpec Verif.PrimSpec Verif.AlgoProofs Verif.KeyModel Verif.KeySpec Verif.KeyProofs
  Verif.InfoModel Verif.InfoSpec Verif.InfoProofs.
Require Coq.Strings.String.
Import Coq.Strings.String.StringSyntax.

(* the names read for identifiers, after any uses of the classes *)
Definition public_name (nd : Z -> bool) (h : list act) (b : bytes) : text :=
  snd (oid_read (after nd h (lib_cls "keys.PublicKeyAlgorithmId" map_keys_PublicKeyAlgorithmId)) b).
Definition private_name (nd : Z -> bool) (h : list act) (b : bytes) : text :=
  snd (oid_read (after nd h (lib_cls "keys.PrivateKeyAlgorithmId" map_keys_PrivateKeyAlgorithmId)) b).

Lemma public_typed nd h oid ty b : In (oid, ty) public_types -> encodes (tx oid) b ->
  dget eqb_text public_specs (public_name nd h b) = Some (tx ty).
Proof.
  assert (A : forallb (fun x => match sget map_keys_PublicKeyAlgorithmId (fst x) with
    | Some n => match dget eqb_text public_specs (tx n) with Some s => eqb_text s (tx (snd x)) | None => false end | None => false end)
    public_types = true) by (vm_compute; reflexivity).
  intros H E. rewrite forallb_forall in A. specialize (A _ H). cbn [fst snd] in A.
  destruct (sget map_keys_PublicKeyAlgorithmId oid) as [n|] eqn:S; [|discriminate].
  unfold public_name. rewrite (lib_read nd h _ _ oid n b S E).
  destruct (dget eqb_text public_specs (tx n)); [|discriminate]. apply text_ok in A. now subst.
Qed.
Lemma private_typed nd h oid ty b : In (oid, ty) private_types -> encodes (tx oid) b ->
  dget eqb_text private_specs (private_name nd h b) = Some (tx ty).
Proof.
  assert (A : forallb (fun x => match sget map_keys_PrivateKeyAlgorithmId (fst x) with
    | Some n => match dget eqb_text private_specs (tx n) with Some s => eqb_text s (tx (snd x)) | None => false end | None => false end)
    private_types = true) by (vm_compute; reflexivity).
  intros H E. rewrite forallb_forall in A. specialize (A _ H). cbn [fst snd] in A.
  destruct (sget map_keys_PrivateKeyAlgorithmId oid) as [n|] eqn:S; [|discriminate].
  unfold private_name. rewrite (lib_read nd h _ _ oid n b S E).
  destruct (dget eqb_text private_specs (tx n)); [|discriminate]. apply text_ok in A. now subst.
Qed.

(* ---- C76 ---- *)
(* in whatever order a PublicKeyInfo of a listed algorithm is read, the algorithm is the
   first part and the key is the second, read as the type of the algorithm *)
Theorem C76_public_partial : forall V build algorithm_of absent encode nd h oid ty ob a k b v l,
  In (oid, ty) public_types -> encodes (tx oid) ob ->
  build (Some (tx "PublicKeyAlgorithm")) a = Ok v -> algorithm_of v = Ok (public_name nd h ob) ->
  let i := looks V public_fields build algorithm_of absent encode (loaded_info (Part a (Part k End)) b) l in
  snd (get V public_fields build algorithm_of absent i 0) = Ok v /\
  snd (get V public_fields build algorithm_of absent i 1) = build (Some (tx ty)) k /\
  snd (size V public_fields build algorithm_of absent i) = Ok 2 /\
  snd (dump_info V public_fields build algorithm_of absent encode i false) = Ok b.
Proof.
  intros V build algorithm_of absent encode nd h oid ty ob a k b v l T E B N.
  exact (public_known V build algorithm_of absent encode a k b v _ _ l B N (public_typed nd h oid ty ob T E)).
Qed.
Print Assumptions C76_public_partial.
(* the same for a PrivateKeyInfo, with or without attributes *)
Theorem C76_private_partial : forall V build algorithm_of absent encode nd h oid ty ob x a k b v l rest t,
  In (oid, ty) private_types -> encodes (tx oid) ob ->
  build (Some (tx "PrivateKeyAlgorithm")) a = Ok v -> algorithm_of v = Ok (private_name nd h ob) ->
  (rest = End /\ t = None \/ exists p, rest = Part p End /\ p_class p = 2 /\ p_tag p = 0 /\ t = Some p) ->
  let i := looks V private_fields build algorithm_of absent encode (loaded_info (Part x (Part a (Part k rest))) b) l in
  snd (get V private_fields build algorithm_of absent i 0) = build (Some (tx "Integer")) x /\
  snd (get V private_fields build algorithm_of absent i 1) = Ok v /\
  snd (get V private_fields build algorithm_of absent i 2) = build (Some (tx ty)) k /\
  snd (get V private_fields build algorithm_of absent i 3) = match t with Some p => build (Some (tx "Attributes")) p | None => Ok absent end /\
  snd (dump_info V private_fields build algorithm_of absent encode i false) = Ok b.
Proof.
  intros V build algorithm_of absent encode nd h oid ty ob x a k b v l rest t T E B N R.
  exact (private_known V build algorithm_of absent encode x a k b v _ _ l rest t B N (private_typed nd h oid ty ob T E) R).
Qed.
Print Assumptions C76_private_partial.
(* every algorithm the library has a name for is listed *)
Theorem C76_named_algorithms : forall oid n,
  (In (oid, n) map_keys_PublicKeyAlgorithmId -> exists ty, In (oid, ty) public_types) /\
  (In (oid, n) map_keys_PrivateKeyAlgorithmId -> exists ty, In (oid, ty) private_types).
Proof.
  assert (A : forallb (fun x => match sget public_types (fst x) with Some _ => true | None => false end) map_keys_PublicKeyAlgorithmId = true)
    by (vm_compute; reflexivity).
  assert (B : forallb (fun x => match sget private_types (fst x) with Some _ => true | None => false end) map_keys_PrivateKeyAlgorithmId = true)
    by (vm_compute; reflexivity).
  rewrite forallb_forall in A, B. intros oid n. split; intro H.
  - specialize (A _ H). cbn [fst] in A. destruct (sget public_types oid) as [ty|] eqn:S; [|discriminate]. exists ty. now apply sget_in.
  - specialize (B _ H). cbn [fst] in B. destruct (sget private_types oid) as [ty|] eqn:S; [|discriminate]. exists ty. now apply sget_in.
Qed.
Print Assumptions C76_named_algorithms.
(* whatever the contents: if the first read succeeds or ends in a ValueError or TypeError,
   every later read answers the same *)
Theorem C76_reads_agree_partial : forall V fields build algorithm_of absent encode st b l,
  (forall e, snd (size V fields build algorithm_of absent (loaded_info st b)) = Err e -> caught e = true) ->
  (forall n, snd (get V fields build algorithm_of absent (looks V fields build algorithm_of absent encode (loaded_info st b) l) n) =
             snd (get V fields build algorithm_of absent (loaded_info st b) n)) /\
  snd (size V fields build algorithm_of absent (looks V fields build algorithm_of absent encode (loaded_info st b) l)) =
  snd (size V fields build algorithm_of absent (loaded_info st b)).
Proof. intros V fields build algorithm_of absent encode st b l. exact (reads_agree V fields build algorithm_of absent encode st b l). Qed.
Print Assumptions C76_reads_agree_partial.
(* which contents are accepted: two parts of a listed algorithm, any further parts, and
   nothing broken; else ValueError *)
Theorem C76_public_accepts_partial : forall V build algorithm_of absent nd h oid ty ob st l w b v,
  In (oid, ty) public_types -> encodes (tx oid) ob -> found st l w ->
  (forall a k r, l = a :: k :: r -> build (Some (tx "PublicKeyAlgorithm")) a = Ok v /\ algorithm_of v = Ok (public_name nd h ob)) ->
  snd (size V public_fields build algorithm_of absent (loaded_info st b)) =
    if w && (2 <=? len l) then Ok (len l) else Err ValueError.
Proof.
  intros V build algorithm_of absent nd h oid ty ob st l w b v T E W K.
  apply (public_accepts V build algorithm_of absent st l w b v (public_name nd h ob) (tx ty) W).
  intros a k r L. destruct (K a k r L). repeat split; auto. now apply (public_typed nd h oid).
Qed.
Print Assumptions C76_public_accepts_partial.
(* three parts of a PrivateKeyInfo; a fourth that is not tagged as attributes is not one *)
Theorem C76_private_accepts_partial : forall V build algorithm_of absent nd h oid ty ob st l w b v,
  In (oid, ty) private_types -> encodes (tx oid) ob -> found st l w ->
  (forall x a k r, l = x :: a :: k :: r -> build (Some (tx "PrivateKeyAlgorithm")) a = Ok v /\ algorithm_of v = Ok (private_name nd h ob)) ->
  let i := loaded_info st b in
  (w = false \/ len l < 3 -> snd (size V private_fields build algorithm_of absent i) = Err ValueError) /\
  (w = true -> len l = 3 -> snd (size V private_fields build algorithm_of absent i) = Ok 4) /\
  (forall x a k p r, w = true -> l = x :: a :: k :: p :: r ->
    (p_class p = 2 -> p_tag p = 0 -> snd (size V private_fields build algorithm_of absent i) = Ok (len l)) /\
    (p_class p <> 2 \/ p_tag p <> 0 ->
      snd (size V private_fields build algorithm_of absent i) = Ok (len l + 1) /\
      snd (get V private_fields build algorithm_of absent i 2) = build (Some (tx ty)) k /\
      snd (get V private_fields build algorithm_of absent i 3) = Ok absent /\
      snd (get V private_fields build algorithm_of absent i 4) = build None p)).
Proof.
  intros V build algorithm_of absent nd h oid ty ob st l w b v T E W K i.
  pose proof (private_typed nd h oid ty ob T E) as S.
  pose proof (private_accepts V build algorithm_of absent st l w b v (private_name nd h ob) (tx ty) W
    (fun x a k r L => conj (proj1 (K x a k r L)) (conj (proj2 (K x a k r L)) S))) as A. fold i in A.
  split; [|split].
  - intros [-> | H]; rewrite A; [reflexivity|]. apply Z.leb_gt in H. rewrite H, andb_false_r. reflexivity.
  - intros -> L. rewrite A, L. destruct l as [|? [|? [|? [|? ?]]]]; try reflexivity. unfold len in L. cbn [length] in L. lia.
  - intros x a k p r -> ->.
    assert (G : 3 <=? len (x :: a :: k :: p :: r) = true) by (apply Z.leb_le; unfold len; cbn [length]; lia).
    rewrite G in A. cbn [andb] in A. split.
    + intros C D. rewrite A, C, D. reflexivity.
    + intro N. destruct (K x a k (p :: r) eq_refl) as [B M].
      split; [|exact (private_other V build algorithm_of absent st r b v _ _ x a k p W B M S N)].
      rewrite A. destruct ((p_class p =? 2) && (p_tag p =? 0)) eqn:Q; [|reflexivity].
      apply andb_true_iff in Q. rewrite !Z.eqb_eq in Q. intuition congruence.
Qed.
Print Assumptions C76_private_accepts_partial.

(* values as pairs of type and part; the algorithm of a part is the identifier it holds *)
Definition pair_build (s : option text) (p : part) : res (option text * part) := Ok (s, p).
Definition ex_absent : option text * part := (None, P 0 0 []).
Definition ex_encode (v : option text * part) : res bytes := Ok (p_octets (snd v)).
Definition ex_name (v : option text * part) : res text := Ok (public_name (fun c => (48 <=? c) && (c <=? 57)) [] (p_octets (snd v))).
Definition ex_ec : part := P 0 16 [42; 134; 72; 206; 61; 2; 1].
Definition ex_gost : part := P 0 16 [42; 133; 3; 7; 1; 1; 1; 1].
Definition ex_key : part := P 0 3 [1; 2; 3].
Definition ex_get := get _ public_fields pair_build ex_name ex_absent.
Definition ex_dump := dump_info _ public_fields pair_build ex_name ex_absent ex_encode.
Example C76_ex : let i := loaded_info (Part ex_ec (Part ex_key End)) [9] in
  encodes (tx "1.2.840.10045.2.1") (p_octets ex_ec) /\
  snd (ex_get i 1) = Ok (Some (tx "ECPointBitString"), ex_key) /\
  snd (ex_get (fst (ex_get i 1)) 0) = Ok (Some (tx "PublicKeyAlgorithm"), ex_ec).
Proof.
  cbv zeta. split; [|split; vm_compute; reflexivity].
  destruct (listed_more "1.2.840.10045.2.1" eq_refl) as [b E]. replace (p_octets ex_ec) with b; [exact E|].
  destruct (encodes_make _ _ E) as [M _]. vm_compute in M. injection M as <-. reflexivity.
Qed.

Example C76_accepts_ex :
  found (Part ex_ec (Part ex_key Bad)) [ex_ec; ex_key] false /\
  snd (size _ public_fields pair_build ex_name ex_absent (loaded_info (Part ex_ec (Part ex_key Bad)) [9])) = Err ValueError /\
  snd (size _ public_fields pair_build ex_name ex_absent (loaded_info (Part ex_ec End) [9])) = Err ValueError.
Proof. split; [repeat constructor|]. split; vm_compute; reflexivity. Qed.

(* an algorithm the library has no name for: the first read of anything raises KeyError,
   the second gives the algorithm, and the key can never be read nor the structure written *)
Theorem C76_unknown_refuted : exists oid ob, encodes (tx oid) ob /\
  forall V build algorithm_of absent encode nd h a k b v n,
  build (Some (tx "PublicKeyAlgorithm")) a = Ok v -> algorithm_of v = Ok (public_name nd h ob) ->
  let get := get V public_fields build algorithm_of absent in
  let i := loaded_info (Part a (Part k End)) b in
  let j := fst (get i n) in
  snd (get i n) = Err KeyError /\ snd (get j 0%nat) = Ok v /\ snd (get j 1%nat) = Err IndexError /\
  snd (dump_info V public_fields build algorithm_of absent encode i false) = Ok b /\
  snd (dump_info V public_fields build algorithm_of absent encode j false) = Err IndexError.
Proof.
  destruct (listed_more "1.2.643.7.1.1.1.1" eq_refl) as [ob E]. exists "1.2.643.7.1.1.1.1"%string, ob. split; [exact E|].
  intros V build algorithm_of absent encode nd h a k b v n B N.
  assert (R : public_name nd h ob = tx "1.2.643.7.1.1.1.1").
  { unfold public_name. apply lib_read_unknown; [exact E|]. intros o m I.
    assert (A : forallb (fun x => negb (eqb_text (tx (fst x)) (tx "1.2.643.7.1.1.1.1"))) map_keys_PublicKeyAlgorithmId = true) by (vm_compute; reflexivity).
    rewrite forallb_forall in A. specialize (A _ I). cbn [fst] in A. intro Q. rewrite Q in A.
    rewrite (proj2 (text_ok _ _) eq_refl) in A. discriminate. }
  rewrite R in N. clear R.
  assert (D : dget eqb_text public_specs (tx "1.2.643.7.1.1.1.1") = None) by (vm_compute; reflexivity).
  assert (C : children V public_fields build algorithm_of absent (loaded_info (Part a (Part k End)) b) =
    (I (Part a (Part k End)) b (Some [Child a (Some (tx "PublicKeyAlgorithm"))]), Err KeyError)).
  { unfold children, parse_children, loaded_info, public_fields. cbn [i_children i_stream i_octets fill determine f_spec f_optional app].
    unfold nth_child. cbn [nth_error app]. rewrite B. cbn [bind]. rewrite N. cbn [bind]. rewrite D. reflexivity. }
  cbv zeta. unfold get at 1. rewrite C. cbn [snd]. split; [reflexivity|].
  unfold get. rewrite C. cbn [fst]. unfold children. cbn [i_children snd]. unfold nth_child. cbn [nth_error].
  split; [exact B|]. split; [reflexivity|]. split; reflexivity.
Qed.
Print Assumptions C76_unknown_refuted.
Example C76_unknown_ex : let i := loaded_info (Part ex_gost (Part ex_key End)) [9] in
  snd (ex_get i 0) = Err KeyError /\ snd (ex_get (fst (ex_get i 0)) 0) = Ok (Some (tx "PublicKeyAlgorithm"), ex_gost) /\
  snd (ex_get (fst (ex_get i 0)) 1) = Err IndexError /\
  snd (ex_dump i false) = Ok [9] /\ snd (ex_dump (fst (ex_get i 0)) false) = Err IndexError.
Proof. vm_compute. auto. Qed.
(* parts beyond the last field are read without complaint and lost when written anew *)
Theorem C76_extra_part_refuted : exists i, i_stream i = Part ex_ec (Part ex_key (Part ex_gost End)) /\
  snd (size _ public_fields pair_build ex_name ex_absent i) = Ok 3 /\
  snd (ex_get i 0) = Ok (Some (tx "PublicKeyAlgorithm"), ex_ec) /\
  snd (ex_dump i true) = Ok (p_octets ex_ec ++ p_octets ex_key).
Proof. exists (loaded_info (Part ex_ec (Part ex_key (Part ex_gost End))) [9]). vm_compute. auto. Qed.
Print Assumptions C76_extra_part_refuted.

(* ---- C77 ---- *)
(* RSA and DSA: the length of the modulus or prime in octets, after any reads, if it is not
   next to a power of two *)
Theorem C77_rsa_partial : forall clog small n m p l, accurate clog -> rsa_name n -> clear m ->
  bits_and_octets (private_bits clog) (fold_left (read_private clog small) l (new_info n p (Rsa m))) (octets m) /\
  bits_and_octets (public_bits clog) (fold_left (read_public clog small) l (new_info n p (Rsa m))) (octets m).
Proof. exact rsa_sizes. Qed.
Print Assumptions C77_rsa_partial.
Theorem C77_dsa_partial : forall clog small p q x l, accurate clog -> clear p ->
  bits_and_octets (private_bits clog) (fold_left (read_private clog small) l (new_info (tx "dsa") (Dsa p q) x)) (octets p) /\
  bits_and_octets (public_bits clog) (fold_left (read_public clog small) l (new_info (tx "dsa") (Dsa p q) x)) (octets p).
Proof. exact dsa_sizes. Qed.
Print Assumptions C77_dsa_partial.
Theorem C77_point_partial : forall clog small n b p l, uncompressed n b ->
  bits_and_octets (public_bits clog) (fold_left (read_public clog small) l (new_info (tx "ec") p (Point b))) n.
Proof. exact point_sizes. Qed.
Print Assumptions C77_point_partial.
(* the digest that goes with the length of q *)
Theorem C77_hash_algo_partial : forall clog small p q x l bits h, accurate_small small -> q_digest bits h ->
  2 ^ (bits - 1) <= q <= 2 ^ bits - 2 ^ (bits - 29) ->
  snd (private_hash small (fold_left (read_private clog small) l (new_info (tx "dsa") (Dsa p q) x))) = Ok (Some h) /\
  snd (public_hash small (fold_left (read_public clog small) l (new_info (tx "dsa") (Dsa p q) x))) = Ok (Some h).
Proof. exact dsa_hash. Qed.
Print Assumptions C77_hash_algo_partial.
(* only DSA keys have a digest, only EC keys a curve; the curve and the algorithm are those
   of the structure *)
Theorem C77_other_accessors : forall clog small n p x l,
  (n <> tx "dsa" ->
    snd (private_hash small (fold_left (read_private clog small) l (new_info n p x))) = Err ValueError /\
    snd (public_hash small (fold_left (read_public clog small) l (new_info n p x))) = Err ValueError) /\
  (n <> tx "ec" ->
    snd (curve (fold_left (read_private clog small) l (new_info n p x))) = Err ValueError /\
    snd (curve (fold_left (read_public clog small) l (new_info n p x))) = Err ValueError) /\
  (n = tx "ec" -> forall d, p = Curve d ->
    snd (curve (fold_left (read_private clog small) l (new_info n p x))) = Ok d /\
    snd (curve (fold_left (read_public clog small) l (new_info n p x))) = Ok d) /\
  (snd (algorithm (fold_left (read_private clog small) l (new_info n p x))) = n /\
   snd (algorithm (fold_left (read_public clog small) l (new_info n p x))) = n).
Proof. exact other_accessors. Qed.
Print Assumptions C77_other_accessors.
(* the length of q itself *)
Theorem C77_q_byte_size : forall q c, 0 < q -> der_int q c -> q_byte_size c = octets q.
Proof. exact byte_size. Qed.
Print Assumptions C77_q_byte_size.
(* the size of explicit curve parameters (C74) is right too if the order is not next to a
   power of two *)
Theorem C74_explicit_partial : forall oct sizes q, accurate_octets oct -> clear q -> key_size oct sizes (Specified q) = Ok (octets q).
Proof.
  intros oct sizes q A C. destruct (clear_octets oct q A C) as [P E]. unfold key_size. destruct (q <=? 0) eqn:L; [lia|]. now rewrite E.
Qed.
Print Assumptions C74_explicit_partial.

(* exact logarithms are accurate *)
Lemma log2_up_accurate : accurate Z.log2_up.
Proof.
  intros k y K B. assert (0 < 2 ^ (k - 30)) by (apply Z.pow_pos_nonneg; lia).
  replace (k + 1) with (Z.succ k) in * by lia. apply Z.log2_up_unique; [lia|]. cbn [Z.pred]. replace (Z.pred (Z.succ k)) with k by lia. lia.
Qed.
Lemma octets_accurate : accurate_octets (fun y => (Z.log2_up y + 7) / 8).
Proof. intros k y K B. rewrite (log2_up_accurate k y K B). f_equal. lia. Qed.
Lemma small_accurate : accurate_small (fun y => y <=? 2 ^ 160).
Proof. intros y B. assert (0 < 2 ^ 130) by (apply Z.pow_pos_nonneg; lia). split; intro; lia. Qed.
Definition exact_small (y : Z) : bool := y <=? 2 ^ 160.
Example C77_rsa_ex : clear (3 * 2 ^ 2046 + 12345) /\ rsa_name (tx "rsassa_pss") /\
  snd (private_bits Z.log2_up (new_info (tx "rsassa_pss") NoParams (Rsa (3 * 2 ^ 2046 + 12345)))) = Ok 2048.
Proof.
  split; [|split; [right; reflexivity|vm_compute; reflexivity]]. exists 2047. split; [lia|]. vm_compute. split; discriminate.
Qed.
Example C77_dsa_ex : clear (3 * 2 ^ 1022) /\ q_digest 160 (tx "sha1") /\
  (2 ^ (160 - 1) <= 3 * 2 ^ 158 <= 2 ^ 160 - 2 ^ (160 - 29)) /\
  snd (public_bits Z.log2_up (new_info (tx "dsa") (Dsa (3 * 2 ^ 1022) (3 * 2 ^ 158)) OtherKey)) = Ok 1024 /\
  snd (public_hash exact_small (new_info (tx "dsa") (Dsa (3 * 2 ^ 1022) (3 * 2 ^ 158)) OtherKey)) = Ok (Some (tx "sha1")) /\
  snd (public_hash exact_small (new_info (tx "dsa") (Dsa (3 * 2 ^ 1022) (3 * 2 ^ 222)) OtherKey)) = Ok (Some (tx "sha2")).
Proof.
  split; [exists 1023; split; [lia|]; vm_compute; split; discriminate|]. split; [left; auto|].
  split; [vm_compute; split; discriminate|]. vm_compute. auto.
Qed.
Example C77_point_ex : uncompressed 32 (4 :: repeat 1 32 ++ repeat 2 32) /\
  snd (public_bits Z.log2_up (new_info (tx "ec") NoParams (Point (4 :: repeat 1 32 ++ repeat 2 32)))) = Ok 256.
Proof. split; [exists (repeat 1 32), (repeat 2 32); auto|vm_compute; reflexivity]. Qed.
Example C77_q_byte_size_ex : der_int 128 [0; 128] /\ q_byte_size [0; 128] = 1 /\ octets 128 = 1.
Proof.
  split; [|vm_compute; auto]. split; [repeat constructor; unfold byte_ok; lia|]. split; [discriminate|]. split; [reflexivity|]. lia.
Qed.
Example C74_explicit_ex : clear (3 * 2 ^ 254) /\ key_size (fun y => (Z.log2_up y + 7) / 8) [] (Specified (3 * 2 ^ 254)) = Ok 32.
Proof. split; [exists 255; split; [lia|]; vm_compute; split; discriminate|vm_compute; reflexivity]. Qed.

(* the logarithm is taken of a rounded number: no function of it can tell a modulus of 256
   octets from one of 257 *)
Theorem C77_rounded_refuted : exists m m', octets m = 256 /\ octets m' = 257 /\ forall clog,
  snd (private_bits clog (new_info (tx "rsa") NoParams (Rsa m))) = snd (private_bits clog (new_info (tx "rsa") NoParams (Rsa m'))) /\
  snd (public_bits clog (new_info (tx "rsa") NoParams (Rsa m))) = snd (public_bits clog (new_info (tx "rsa") NoParams (Rsa m'))).
Proof.
  exists (2 ^ 2048 - 1), (2 ^ 2048 + 1). split; [vm_compute; reflexivity|]. split; [vm_compute; reflexivity|].
  assert (T : to_double (2 ^ 2048 - 1) = to_double (2 ^ 2048 + 1)) by (vm_compute; reflexivity).
  intro clog. assert (L : log_bits clog (2 ^ 2048 - 1) = log_bits clog (2 ^ 2048 + 1)).
  { unfold log_bits. rewrite T. replace (2 ^ 2048 - 1 <=? 0) with false by (vm_compute; reflexivity).
    replace (2 ^ 2048 + 1 <=? 0) with false by (vm_compute; reflexivity). reflexivity. }
  unfold private_bits, public_bits, new_info. cbn [q_bits algorithm q_algorithm q_name q_params q_key]. names. rewrite L. auto.
Qed.
Print Assumptions C77_rounded_refuted.
(* the size of an EC private key is that of the secret number, not that of the curve *)
Theorem C77_ec_private_refuted : exists d z, d = Named (tx "1.2.840.10045.3.1.7") /\ 0 < z < 256 ^ 31 /\ forall clog, accurate clog ->
  snd (private_bits clog (new_info (tx "ec") (Curve d) (EcPrivate z))) = Ok 208.
Proof.
  exists (Named (tx "1.2.840.10045.3.1.7")), (3 * 2 ^ 200). split; [reflexivity|]. split; [vm_compute; auto|]. intros clog A.
  assert (C : clear (3 * 2 ^ 200)) by (exists 201; split; [lia|]; vm_compute; split; discriminate).
  destruct (bits_clear clog _ A C) as (b & E & W). unfold private_bits, new_info. cbn [q_bits algorithm q_algorithm q_name q_params q_key]. names.
  rewrite E. cbn [bind snd]. rewrite W. reflexivity.
Qed.
Print Assumptions C77_ec_private_refuted.
(* a compressed point gives half the size *)
Theorem C77_compressed_refuted : exists b, compressed 32 b /\ forall clog,
  snd (public_bits clog (new_info (tx "ec") NoParams (Point b))) = Ok 128.
Proof. exists (2 :: repeat 5 32). split; [exists 2, (repeat 5 32); auto|]. intro clog. vm_compute. reflexivity. Qed.
Print Assumptions C77_compressed_refuted.
(* keys of other algorithms raise UnboundLocalError, DSA keys without parameters TypeError *)
Theorem C77_no_size_refuted : exists names, names = map tx ["x25519"; "x448"; "ed25519"; "ed448"; "dh"; "rsaes_oaep"]%string /\
  forall n p x clog, In n names -> snd (public_bits clog (new_info n p x)) = Err NameError /\ snd (private_bits clog (new_info n p x)) = Err NameError.
Proof.
  exists (map tx ["x25519"; "x448"; "ed25519"; "ed448"; "dh"; "rsaes_oaep"]%string). split; [reflexivity|]. intros n p x clog H.
  repeat (destruct H as [<-|H]; [unfold public_bits, private_bits, new_info; cbn [q_bits algorithm q_algorithm q_name q_params q_key]; names; auto|]).
  destruct H.
Qed.
Print Assumptions C77_no_size_refuted.
Theorem C77_inherited_refuted : exists n p x, forall clog small,
  snd (public_bits clog (new_info n p x)) = Err TypeError /\ snd (public_hash small (new_info n p x)) = Ok None.
Proof. exists (tx "dsa"), NoParams, OtherKey. intros. vm_compute. auto. Qed.
Print Assumptions C77_inherited_refuted.
(* the size and the algorithm that were read once survive an assignment *)
Theorem C77_stale_refuted : exists k m, let k' := assign (fst (public_bits Z.log2_up k)) (tx "dsa") (Dsa m 7) OtherKey in
  snd (public_bits Z.log2_up k) = Ok 1024 /\ snd (public_bits Z.log2_up k') = Ok 1024 /\
  snd (public_bits Z.log2_up (new_info (tx "dsa") (Dsa m 7) OtherKey)) = Ok 2048 /\
  snd (algorithm k') = tx "rsa" /\ snd (public_hash exact_small k') = Err ValueError.
Proof. exists (new_info (tx "rsa") NoParams (Rsa (3 * 2 ^ 1022))), (3 * 2 ^ 2046). vm_compute. auto 6. Qed.
Print Assumptions C77_stale_refuted.
