Require Import Verif.Base Verif.BaseFacts Verif.IntModel Verif.IntSpec Verif.IntProofs.
Require Import Verif.ParserProofs Verif.Text Verif.BitModel Verif.BitSpec.

Lemma bits_int_gen l : forall a,
  fold_left (fun a b => a * 2 + (if b : bool then 1 else 0)) l a = a * 2 ^ len l + bits_int l.
Proof.
  induction l as [|b l IH]; intros a.
  - unfold bits_int, len; cbn. lia.
  - unfold bits_int. cbn [fold_left]. rewrite IH, (IH (0 * 2 + _)). rewrite len_cons.
    rewrite Z.pow_add_r by (pose proof (len_nonneg l); lia). lia.
Qed.

Lemma bits_int_app a b : bits_int (a ++ b) = bits_int a * 2 ^ len b + bits_int b.
Proof. unfold bits_int at 1. rewrite fold_left_app. rewrite bits_int_gen. reflexivity. Qed.

Lemma bits_int_snoc a b : bits_int (a ++ [b]) = bits_int a * 2 + (if b then 1 else 0).
Proof. rewrite bits_int_app. change (2 ^ len [b]) with 2. f_equal. Qed.

Lemma bits_int_bound l : 0 <= bits_int l < 2 ^ len l.
Proof.
  induction l as [|b l IH] using rev_ind.
  - unfold bits_int, len; cbn. lia.
  - rewrite bits_int_snoc, len_app. change (len [b]) with 1.
    rewrite Z.pow_add_r by (pose proof (len_nonneg l); lia). change (2 ^ 1) with 2. destruct b; lia.
Qed.

Lemma bits_int_inj a : forall b, length a = length b -> bits_int a = bits_int b -> a = b.
Proof.
  induction a as [|x a IH] using rev_ind; intros b L E.
  - destruct b; auto; cbn in L; lia.
  - destruct b as [|y b _] using rev_ind; [rewrite app_length in L; cbn in L; lia|].
    rewrite !app_length in L; cbn in L. rewrite !bits_int_snoc in E.
    assert (x = y) by (destruct x, y; auto; lia). subst.
    f_equal. apply IH; destruct y; lia.
Qed.

Lemma bin_digits_length n : forall v, length (bin_digits n v) = n.
Proof. induction n; intros v; cbn [bin_digits]; auto. rewrite app_length, IHn. cbn. lia. Qed.

Lemma bin_digits_value n : forall v, bits_int (bin_digits n v) = v mod 2 ^ Z.of_nat n.
Proof.
  induction n as [|n IH]; intros v; cbn [bin_digits].
  - change (2 ^ Z.of_nat 0) with 1. rewrite Z.mod_1_r. reflexivity.
  - rewrite bits_int_snoc, IH. rewrite Nat2Z.inj_succ, Z.pow_succ_r by lia.
    rewrite Z.rem_mul_r by lia.
    replace (if Z.odd v then 1 else 0) with (v mod 2) by (rewrite Zmod_odd; reflexivity). lia.
Qed.

Lemma bin_digits_bits l : bin_digits (length l) (bits_int l) = l.
Proof.
  apply bits_int_inj; [apply bin_digits_length|]. rewrite bin_digits_value.
  apply Z.mod_small. apply bits_int_bound.
Qed.

Lemma int_to_bits_ok l : int_to_bits (bits_int l) (len l) = Ok l.
Proof.
  unfold int_to_bits. pose proof (bits_int_bound l) as B. pose proof (len_nonneg l) as Hl.
  destruct ((bits_int l =? 0) && (len l =? 0)) eqn:E.
  - destruct l; [reflexivity|]. rewrite len_cons in E. pose proof (len_nonneg l). lia.
  - assert (0 < len l).
    { destruct (Z.eq_dec (len l) 0) as [E0|]; [|lia]. rewrite E0 in *. change (2 ^ 0) with 1 in B. lia. }
    assert (bit_length (bits_int l) <= len l).
    { pose proof (bit_length_spec (bits_int l)) as (B0 & B1 & B2).
      destruct (Z.eq_dec (bits_int l) 0) as [E0|N]; [rewrite E0; change (bit_length 0) with 0; lia|].
      specialize (B2 N). assert (bit_length (bits_int l) - 1 < len l) by (apply (Z.pow_lt_mono_r_iff 2); lia). lia. }
    replace (Z.max (len l) (Z.max 1 (bit_length (bits_int l)))) with (len l) by lia.
    replace (Z.to_nat (len l)) with (length l) by (unfold len; lia).
    rewrite bin_digits_bits, Z.eqb_refl. reflexivity.
Qed.

Lemma octet_bits_int b : byte_ok b -> bits_int (octet_bits b) = b.
Proof.
  intros H.
  assert (K : forallb (fun b => bits_int (octet_bits b) =? b) (map Z.of_nat (seq 0 256)) = true) by (vm_compute; reflexivity).
  rewrite forallb_forall in K. specialize (K b).
  rewrite Z.eqb_eq in K. apply K. apply in_map_iff. exists (Z.to_nat b). unfold byte_ok in H.
  rewrite in_seq. lia.
Qed.

Lemma octets_bits_len l : len (octets_bits l) = 8 * len l.
Proof. induction l as [|b l IH]; [reflexivity|]. unfold octets_bits. cbn [flat_map]. fold (octets_bits l).
  rewrite len_app, IH, len_cons. change (len (octet_bits b)) with 8. lia. Qed.

Lemma octets_bits_int l : bytes_ok l -> bits_int (octets_bits l) = be_value l.
Proof.
  induction l as [|b l IH]; intros H; [reflexivity|]. apply bytes_ok_cons in H as [Hb H].
  unfold octets_bits. cbn [flat_map be_value]. fold (octets_bits l).
  rewrite bits_int_app, IH, octet_bits_int, octets_bits_len by auto.
  rewrite pow256 by apply len_nonneg. lia.
Qed.

Lemma repeat_false_int n : bits_int (repeat false n) = 0.
Proof. induction n as [|n IH]; [reflexivity|]. change (repeat false (S n)) with ([false] ++ repeat false n).
  rewrite bits_int_app, IH. reflexivity. Qed.

Lemma len_repeat {A} (x : A) n : len (repeat x n) = Z.of_nat n.
Proof. unfold len. now rewrite repeat_length. Qed.

(* ---- decoding any contents ---- *)
Lemma bit_chunk_ok u body a b : bytes_ok body -> 0 <= u <= 7 ->
  octets_bits body = a ++ b -> len b = u ->
  bit_chunk (u :: body) = Ok (bits_int a, len a, b).
Proof.
  intros Hok Hu E Hb. unfold bit_chunk. unfold int_from_bytes. rewrite be_fold_value.
  rewrite <- octets_bits_int, E by auto. rewrite len_cons.
  pose proof (octets_bits_len body) as Hl. rewrite E, len_app in Hl.
  destruct (Z.eqb_spec u 0) as [->|Hu0].
  - apply len_zero_nil in Hb. subst b. rewrite app_nil_r. rewrite len_nil in Hl. repeat f_equal; lia.
  - assert (0 < len body) by (pose proof (len_nonneg a); lia).
    destruct (Z.eqb_spec (1 + len body) 1); [lia|]. destruct (Z.ltb_spec 7 u); [lia|].
    rewrite Z.shiftl_1_l. replace (2 ^ u - 1) with (Z.ones u) by (rewrite Z.ones_equiv; lia).
    rewrite Z.land_ones by lia. rewrite Z.shiftr_div_pow2 by lia.
    rewrite bits_int_app, Hb. pose proof (bits_int_bound b) as B. rewrite Hb in B.
    assert (Hp : 0 < 2 ^ u) by (apply Z.pow_pos_nonneg; lia).
    rewrite Z.add_comm, Z.mod_add, Z.mod_small by lia. rewrite Z.div_add, Z.div_small by lia.
    rewrite Z.add_0_l. rewrite <- Hb at 1. rewrite int_to_bits_ok. cbn [bind].
    repeat f_equal. lia.
Qed.

Lemma bit_decode_ok u body a b : bytes_ok body -> 0 <= u <= 7 ->
  octets_bits body = a ++ b -> len b = u -> bitstring_decode (u :: body) = Ok (a, b).
Proof.
  intros. unfold bitstring_decode. rewrite (bit_chunk_ok u body a b) by auto. cbn [bind].
  rewrite int_to_bits_ok. reflexivity.
Qed.

Lemma bit_decode_total c : bytes_ok c ->
  match c with
  | [] => bitstring_decode c = Err IndexError
  | u :: body =>
      if (u <=? 7) && ((u =? 0) || negb (len body =? 0)) then
        exists a b, octets_bits body = a ++ b /\ len b = u /\ bitstring_decode c = Ok (a, b)
      else bitstring_decode c = Err ValueError
  end.
Proof.
  intros H. destruct c as [|u body]; [reflexivity|]. apply bytes_ok_cons in H as [Hu H]. unfold byte_ok in Hu.
  destruct ((u <=? 7) && _) eqn:E.
  - pose proof (octets_bits_len body) as Hl. pose proof (len_nonneg body).
    set (n := (length (octets_bits body) - Z.to_nat u)%nat).
    exists (firstn n (octets_bits body)), (skipn n (octets_bits body)).
    assert (Hb : len (skipn n (octets_bits body)) = u).
    { unfold len in *. rewrite skipn_length. lia. }
    rewrite firstn_skipn. repeat split; auto.
    apply bit_decode_ok; auto; [lia|]. now rewrite firstn_skipn.
  - unfold bitstring_decode, bit_chunk. rewrite len_cons.
    destruct (Z.eqb_spec u 0); [lia|]. destruct (Z.eqb_spec (1 + len body) 1); [reflexivity|].
    destruct (Z.ltb_spec 7 u); [reflexivity|]. lia.
Qed.

(* ---- encoding ---- *)
Lemma bitstring_encode_bits bits : exists c, bitstring_encode None bits = Ok c /\ der_bits bits c.
Proof.
  unfold bitstring_encode. cbn [bind].
  set (n := len bits). pose proof (len_nonneg bits) as Hn. fold n in Hn.
  set (e := if n mod 8 =? 0 then 0 else 8 - n mod 8).
  assert (He : 0 <= e <= 7 /\ (n + e) mod 8 = 0 /\ (n + 7) / 8 = (n + e) / 8).
  { unfold e. destruct (Z.eqb_spec (n mod 8) 0); repeat split; lia. }
  destruct He as (He & Hm & Hs).
  set (value := bits ++ repeat false (Z.to_nat e)).
  assert (Hlv : len value = 8 * ((n + 7) / 8)).
  { unfold value. rewrite len_app, len_repeat. fold n. lia. }
  assert (Hex : (if e =? 0 then Ok [0] else int_to_bytes e false None) = Ok [e]).
  { destruct (Z.eqb_spec e 0) as [->|]; auto.
    assert (E : e = 1 \/ e = 2 \/ e = 3 \/ e = 4 \/ e = 5 \/ e = 6 \/ e = 7) by lia.
    destruct E as [->|[->|[->|[->|[->|[->| ->]]]]]]; reflexivity. }
  rewrite Hex. cbn [bind]. clear Hex.
  set (s := (n + 7) / 8) in *.
  assert (exists vb, (match value with [] => Ok [] | _ => int_to_bytes (bits_int value) false None end) = Ok vb /\
    bytes_ok vb /\ be_value vb = bits_int value /\ len vb <= s) as (vb & Hvb & Hok & Hval & Hle).
  { destruct value as [|b0 v0] eqn:Ev.
    - exists []. repeat split; auto; [constructor|]. unfold s. rewrite len_nil in *. lia.
    - rewrite <- Ev in *. pose proof (bits_int_bound value) as B.
      destruct (int_unsigned_roundtrip (bits_int value)) as (l & E1 & E2 & E3 & E4 & E5); [lia|].
      exists l. rewrite E1. repeat split; auto.
      + unfold int_from_bytes in E4. now rewrite be_fold_value in E4.
      + assert (1 <= len value) by (rewrite Ev, len_cons; pose proof (len_nonneg v0); lia).
        assert (Hs1 : 1 <= s) by lia.
        destruct (E5 (be_digits (Z.to_nat s) (bits_int value))) as [E6 _].
        * apply be_digits_ok.
        * intros E. apply (f_equal (@length Z)) in E. rewrite be_digits_length in E. cbn in E. lia.
        * unfold int_from_bytes. rewrite be_fold_value, be_digits_value. apply Z.mod_small.
          rewrite Z2Nat.id by lia. rewrite pow256 by lia. rewrite <- Hlv. lia.
        * rewrite be_digits_length in E6. unfold len. lia. }
  rewrite Hvb. cbn [bind].
  set (vb' := if len vb =? s then vb else zeros (Z.to_nat (s - len vb)) ++ vb).
  assert (Hvb' : bytes_ok vb' /\ be_value vb' = bits_int value /\ len vb' = s).
  { unfold vb'. destruct (Z.eqb_spec (len vb) s); [auto|]. repeat split.
    - apply bytes_ok_app; split; auto using bytes_ok_zeros.
    - rewrite be_value_app, be_value_zeros. lia.
    - rewrite len_app. unfold zeros. rewrite len_repeat. lia. }
  destruct Hvb' as (V1 & V2 & V3).
  eexists; split; [reflexivity|]. exists e, vb'. repeat split; auto; try lia.
  fold value. apply bits_int_inj.
  - pose proof (octets_bits_len vb') as L. unfold len in L, Hlv, V3. lia.
  - rewrite octets_bits_int by auto. auto.
Qed.

Lemma der_bits_decode bits c : der_bits bits c ->
  exists ub, bitstring_decode c = Ok (bits, ub) /\ Forall (fun b => b = false) ub.
Proof.
  intros (u & body & -> & Hok & Hu & E). exists (repeat false (Z.to_nat u)). split.
  - apply bit_decode_ok; auto. rewrite len_repeat. lia.
  - clear. induction (Z.to_nat u); cbn; constructor; auto.
Qed.

Lemma der_bits_unique bits c1 c2 : der_bits bits c1 -> der_bits bits c2 -> c1 = c2.
Proof.
  intros (u1 & b1 & -> & Ok1 & U1 & E1) (u2 & b2 & -> & Ok2 & U2 & E2).
  pose proof (f_equal len E1) as L1. pose proof (f_equal len E2) as L2.
  rewrite octets_bits_len, len_app, len_repeat in L1, L2.
  assert (u1 = u2) by lia. subst u2. f_equal. apply be_value_inj; auto.
  - unfold len in *. lia.
  - rewrite <- !octets_bits_int by auto. congruence.
Qed.

Lemma bitstring_roundtrip bits : exists c, bitstring_encode None bits = Ok c /\ bytes_ok c /\ der_bits bits c /\
  exists ub, bitstring_decode c = Ok (bits, ub) /\ Forall (fun b => b = false) ub.
Proof.
  destruct (bitstring_encode_bits bits) as (c & E & D). exists c. repeat split; auto.
  - destruct D as (u & body & -> & Hok & Hu & _). apply bytes_ok_cons; split; auto. unfold byte_ok; lia.
  - now apply der_bits_decode.
Qed.

Lemma bitstring_encode_inj a b c : bitstring_encode None a = Ok c -> bitstring_encode None b = Ok c -> a = b.
Proof.
  intros Ha Hb. destruct (bitstring_roundtrip a) as (ca & Ea & _ & _ & ua & Da & _).
  destruct (bitstring_roundtrip b) as (cb & Eb & _ & _ & ub & Db & _). congruence.
Qed.

(* ---- named bits ---- *)
Lemma rstrip0_spec l : exists k, l = rstrip0 l ++ repeat false k.
Proof.
  induction l as [|b l (k & IH)]; [exists 0%nat; reflexivity|]. cbn [rstrip0].
  destruct (rstrip0 l) as [|b' r] eqn:E.
  - destruct b; [exists k; cbn; now rewrite IH at 1|]. exists (S k). cbn. now rewrite IH at 1.
  - exists k. cbn [app]. now rewrite IH at 1.
Qed.

Lemma rstrip0_last l : no_trailing_zero (rstrip0 l).
Proof.
  induction l as [|b l IH]; [now left|]. cbn [rstrip0].
  destruct (rstrip0 l) as [|b' r] eqn:E.
  - destruct b; [right; reflexivity|now left].
  - right. destruct IH as [|IH]; [discriminate|]. cbn [last]. cbn [last] in IH. exact IH.
Qed.

Lemma rstrip0_len l : len (rstrip0 l) <= len l.
Proof. destruct (rstrip0_spec l) as (k & E). rewrite E at 2. rewrite len_app, len_repeat. lia. Qed.

Lemma labels_app m a : forall i b, labels_from m i (a ++ b) = labels_from m i a ++ labels_from m (i + len a) b.
Proof.
  induction a as [|x a IH]; intros i b.
  - cbn [app labels_from]. rewrite len_nil, Z.add_0_r. reflexivity.
  - cbn [app labels_from]. rewrite IH, len_cons. replace (i + 1 + len a) with (i + (1 + len a)) by lia.
    destruct x; reflexivity.
Qed.

Lemma labels_false m k : forall i, labels_from m i (repeat false k) = [].
Proof. induction k; intros; cbn; auto. Qed.

Lemma set_of_rstrip m l : set_of_bits m (rstrip0 l) = set_of_bits m l.
Proof.
  destruct (rstrip0_spec l) as (k & E). unfold set_of_bits. rewrite E at 2.
  rewrite labels_app, labels_false, app_nil_r. reflexivity.
Qed.

Lemma label_eqb_spec a b : label_eqb a b = true <-> a = b.
Proof.
  destruct a, b; cbn; try (split; congruence).
  - rewrite eqb_text_spec. split; congruence.
  - rewrite Z.eqb_eq. split; congruence.
Qed.

Lemma label_in_spec x s : label_in x s = true <-> In x s.
Proof.
  unfold label_in. rewrite existsb_exists. split.
  - intros (y & H & E). apply label_eqb_spec in E. now subst.
  - intros H. exists x. split; auto. now apply label_eqb_spec.
Qed.

Lemma zseq_length n : forall s, length (zseq s n) = n.
Proof. induction n; intros; cbn; auto. Qed.

Definition label_of (m : list (Z * text)) (i : Z) : label :=
  match map_get m i with Some k => LName k | None => LIndex i end.

Lemma labels_in m bits x : forall i, In x (labels_from m i bits) <->
  exists j, (j < length bits)%nat /\ nth j bits false = true /\ x = label_of m (i + Z.of_nat j).
Proof.
  induction bits as [|b bits IH]; intros i; cbn [labels_from].
  - split; [easy|]. intros (j & H & _). cbn in H. lia.
  - assert (K : In x (labels_from m (i + 1) bits) <-> exists j, (S j < length (b :: bits))%nat /\
        nth (S j) (b :: bits) false = true /\ x = label_of m (i + Z.of_nat (S j))).
    { rewrite IH. split; intros (j & H1 & H2 & H3); exists j; repeat split; auto; cbn [length] in *; try lia;
        rewrite H3; f_equal; lia. }
    destruct b; cbn [In]; rewrite K; split.
    + intros [H|(j & H)]; [|eauto]. exists 0%nat. repeat split; [cbn; lia|]. rewrite Z.add_0_r. auto.
    + intros (j & H1 & H2 & H3). destruct j; [left|right; eauto].
      rewrite H3. change (Z.of_nat 0) with 0. rewrite Z.add_0_r. reflexivity.
    + intros (j & H); eauto.
    + intros (j & H1 & H2 & H3). destruct j; [discriminate|eauto].
Qed.

Lemma nth_map_zseq {A} (f : Z -> A) d n : forall s j, (j < n)%nat ->
  nth j (map f (zseq s n)) d = f (s + Z.of_nat j).
Proof.
  induction n as [|n IH]; intros s j H; [lia|]. cbn [zseq map]. destruct j.
  - cbn [nth]. f_equal. lia.
  - cbn [nth]. rewrite IH by lia. f_equal. lia.
Qed.

Lemma map_get_in m i k : NoDup (map fst m) -> (map_get m i = Some k <-> In (i, k) m).
Proof.
  induction m as [|(a, b) m IH]; cbn; intros H; [split; easy|]. inversion H; subst.
  destruct (Z.eqb_spec a i).
  - subst. split; [intros [= ->]; auto|]. intros [E|E]; [congruence|].
    exfalso. apply H2. now apply (in_map fst) in E.
  - rewrite IH by auto. split; auto. intros [E|E]; [congruence|auto].
Qed.

Lemma map_size_bound m i k : In (i, k) m -> i < map_size m.
Proof.
  unfold map_size. induction m as [|(a, b) m IH]; cbn; [easy|]. intros [E|E].
  - injection E as -> ->. lia.
  - specialize (IH E). lia.
Qed.

Lemma bits_of_set_len m s : len (bits_of_set m s) = Z.max 0 (map_size m).
Proof. unfold bits_of_set. rewrite len_map. unfold len. rewrite zseq_length. lia. Qed.

Lemma set_bits_set m s x : NoDup (map fst m) -> Forall (fun p => 0 <= fst p) m ->
  (In x (set_of_bits m (bits_of_set m s)) <-> In x s /\ exists i k, In (i, k) m /\ x = LName k).
Proof.
  intros Hd Hp. unfold set_of_bits. rewrite labels_in. split.
  - intros (j & H1 & H2 & H3). unfold bits_of_set in *. rewrite map_length, zseq_length in H1.
    rewrite nth_map_zseq in H2 by auto. rewrite Z.add_0_l in *. unfold label_of in H3.
    destruct (map_get m (Z.of_nat j)) as [k|] eqn:E; [|discriminate].
    apply label_in_spec in H2. subst x. split; auto. exists (Z.of_nat j), k. split; auto.
    now apply map_get_in.
  - intros (H & i & k & Hm & ->). pose proof (map_size_bound _ _ _ Hm).
    rewrite Forall_forall in Hp. pose proof (Hp _ Hm) as Hi. cbn [fst] in Hi.
    exists (Z.to_nat i). unfold bits_of_set. rewrite map_length, zseq_length.
    assert (E : map_get m i = Some k) by now apply map_get_in.
    repeat split; [lia| |].
    + rewrite nth_map_zseq by lia. rewrite Z.add_0_l, Z2Nat.id by lia. rewrite E. now apply label_in_spec.
    + rewrite Z.add_0_l, Z2Nat.id by lia. unfold label_of. now rewrite E.
Qed.

Lemma bitstring_encode_some s bits : len bits <= s ->
  bitstring_encode (Some s) bits = bitstring_encode None (rstrip0 bits).
Proof. intros. unfold bitstring_encode. destruct (Z.ltb_spec s (len bits)); [lia|reflexivity]. Qed.

Lemma map_size_pos m : Forall (fun p : Z * text => 0 <= fst p) m -> 0 <= map_size m.
Proof. unfold map_size. intros H. assert (-1 <= fold_right Z.max (-1) (map fst m)) by (induction H; cbn; lia). lia. Qed.

Lemma named_roundtrip m s : NoDup (map fst m) -> Forall (fun p => 0 <= fst p) m ->
  (forall x, In x s -> exists i k, In (i, k) m /\ x = LName k) ->
  exists c s', named_encode m s = Ok c /\ named_decode m c = Ok s' /\ (forall x, In x s' <-> In x s) /\
    exists bits, der_bits bits c /\ no_trailing_zero bits.
Proof.
  intros Hd Hp Hs. unfold named_encode, named_decode.
  rewrite bitstring_encode_some by (rewrite bits_of_set_len; pose proof (map_size_pos m Hp); lia).
  destruct (bitstring_roundtrip (rstrip0 (bits_of_set m s))) as (c & E & _ & D & ub & Dec & _).
  exists c, (set_of_bits m (rstrip0 (bits_of_set m s))). rewrite Dec. cbn [bind].
  repeat split; auto.
  - rewrite set_of_rstrip. intros H. now apply set_bits_set in H.
  - intros H. rewrite set_of_rstrip. apply set_bits_set; auto.
  - eexists; split; eauto. apply rstrip0_last.
Qed.

Lemma label_in_ext s s' x : (forall y, In y s <-> In y s') -> label_in x s = label_in x s'.
Proof.
  intros H. destruct (label_in x s) eqn:E, (label_in x s') eqn:E'; auto.
  - apply label_in_spec, H, label_in_spec in E. congruence.
  - apply label_in_spec, H, label_in_spec in E'. congruence.
Qed.

Lemma named_encode_set m s s' : (forall x, In x s <-> In x s') -> named_encode m s = named_encode m s'.
Proof.
  intros H. unfold named_encode. f_equal. unfold bits_of_set. apply map_ext. intros i.
  destruct (map_get m i); auto. now apply label_in_ext.
Qed.

(* ---- octet and integer views ---- *)
Lemma octetbits_roundtrip v : octetbits_chunk (octetbits_encode v) = Ok (v, []).
Proof. reflexivity. Qed.

Lemma intbits_roundtrip v : 0 <= v -> exists c, intbits_encode v = Ok c /\ bytes_ok c /\ intbits_decode c = Ok v.
Proof.
  intros Hv. unfold intbits_encode. destruct (Z.ltb_spec v 0); [lia|].
  destruct (int_signed_roundtrip v) as (l & E1 & E2 & E3 & E4 & _). rewrite E1. cbn [bind].
  exists (0 :: l). repeat split; auto.
  - apply bytes_ok_cons; split; auto. unfold byte_ok; lia.
  - unfold intbits_decode, bit_chunk. rewrite Z.eqb_refl. cbn [bind]. f_equal.
    unfold int_from_bytes in *. destruct l as [|b l]; [easy|].
    destruct (Z.leb_spec 128 b); [|lia].
    rewrite be_fold_value in *. pose proof (be_value_bound (b :: l) E2) as B.
    rewrite pow256 in B by apply len_nonneg. lia.
Qed.

Lemma intbits_negative v : v < 0 -> intbits_encode v = Err ValueError.
Proof. intros. unfold intbits_encode. destruct (Z.ltb_spec v 0); [reflexivity|lia]. Qed.

Lemma intoctets_roundtrip w v : 0 <= v ->
  match w with
  | None => exists c, intoctets_encode w v = Ok c /\ bytes_ok c /\ intoctets_decode c = v
  | Some n => 0 <= n ->
      (v < 256 ^ n -> exists c, intoctets_encode w v = Ok c /\ bytes_ok c /\ len c = n /\ intoctets_decode c = v) /\
      (256 ^ n <= v -> intoctets_encode w v = Err OverflowError)
  end.
Proof.
  intros Hv. unfold intoctets_encode, intoctets_decode. destruct (Z.ltb_spec v 0); [lia|].
  destruct w as [n|].
  - intros Hn. destruct (int_to_bytes_width v n Hv Hn) as [A B]. split; auto.
    intros Hlt. destruct (A Hlt) as (l & E1 & E2 & E3 & E4). exists l. repeat split; auto.
    unfold int_from_bytes. now rewrite be_fold_value.
  - destruct (int_unsigned_roundtrip v Hv) as (l & E1 & E2 & _ & E4 & _). exists l. auto.
Qed.

Lemma intoctets_negative w v : v < 0 -> intoctets_encode w v = Err ValueError.
Proof. intros. unfold intoctets_encode. destruct (Z.ltb_spec v 0); [reflexivity|lia]. Qed.
