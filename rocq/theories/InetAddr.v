(* Proofs about x509.IPAddress and the IPv4 half of _inet.py. *)
Require Import Verif.Base Verif.BaseFacts Verif.Text Verif.IntModel Verif.IntSpec Verif.IntProofs Verif.InetModel Verif.InetSpec Verif.InetProofs.

(* ---- IPv4 ---- *)
Lemma ntop4_ok p : len p = 4 -> ntop4 p = Ok (join_with 46 (map dec p)) /\ ipv4_text (join_with 46 (map dec p)) p.
Proof. intros L. unfold ntop4. rewrite L. split; [reflexivity|]. now split. Qed.
Lemma octets4_dec p : bytes_ok p -> octets4 (map dec p) = Ok p.
Proof.
  intros B. induction p as [|a p IH]; [reflexivity|]. apply bytes_ok_cons in B as [A B]. unfold byte_ok in A. cbn [map octets4].
  rewrite py_int_dec by lia. cbn [bind]. replace ((255 <? a) || (a <? 0))%bool with false by lia. rewrite IH by exact B. reflexivity.
Qed.
Lemma pton4_text s p : bytes_ok p -> ipv4_text s p -> pton4 s = Ok p.
Proof.
  intros B [L ->]. unfold pton4. rewrite split_join.
  - replace (len (map dec p) =? 4) with true by (unfold len in *; rewrite map_length; lia). now apply octets4_dec.
  - intros E. apply map_eq_nil in E. subst. discriminate.
  - apply Forall_forall. intros w W. apply in_map_iff in W as (a & <- & I). unfold bytes_ok in B. rewrite Forall_forall in B.
    specialize (B a I). unfold byte_ok in B. apply dec_not_in; lia.
Qed.
Lemma pton4_range s p : pton4 s = Ok p -> bytes_ok p /\ len p = 4.
Proof.
  unfold pton4. destruct (len (split_on 46 s) =? 4) eqn:E; [|discriminate].
  assert (forall l q, octets4 l = Ok q -> bytes_ok q /\ len q = len l) as K.
  { induction l as [|o l IH]; intros q; cbn [octets4].
    - intros H. inversion H; subst. split; [constructor|reflexivity].
    - destruct (py_int o) as [n|]; [|discriminate]. cbn [bind]. destruct ((255 <? n) || (n <? 0))%bool eqn:R; [discriminate|].
      destruct (octets4 l) as [ns|]; [|discriminate]. cbn [bind]. intros H. inversion H; subst. destruct (IH ns eq_refl) as [I1 I2].
      split; [apply bytes_ok_cons; split; [unfold byte_ok; lia|exact I1]|]. rewrite !len_cons. lia. }
  intros H. apply K in H as [H1 H2]. split; [exact H1|lia].
Qed.
Lemma pton4_errors s e : pton4 s = Err e -> e = ValueError.
Proof.
  unfold pton4. destruct (len (split_on 46 s) =? 4); [|congruence]. generalize (split_on 46 s) as l.
  induction l as [|o l IH]; cbn [octets4]; [discriminate|]. intros H.
  destruct (py_int o) as [n|e'] eqn:P; cbn [bind] in H.
  - destruct ((255 <? n) || (n <? 0))%bool; [congruence|]. destruct (octets4 l); [discriminate|]. cbn [bind] in H. apply IH. congruence.
  - unfold py_int in P. destruct (match strip o with [] => _ | _ => _ end); congruence.
Qed.
Lemma ungroups_len l : len (ungroups l) = 2 * len l.
Proof. unfold ungroups. induction l as [|n l IH]; [reflexivity|]. cbn [map concat app]. rewrite !len_cons, IH. lia. Qed.
Lemma ints6_range l ns : ints6 l = Ok ns -> Forall (fun n => 0 <= n < 65536) ns.
Proof.
  revert ns. induction l as [|o l IH]; intros ns; cbn [ints6].
  - intros H. inversion H. constructor.
  - destruct (py_int16 o) as [n|]; [|discriminate]. cbn [bind]. destruct ((65535 <? n) || (n <? 0))%bool eqn:R.
    + intros H. inversion H. constructor.
    + destruct (ints6 l) as [ms|]; [|discriminate]. cbn [bind]. intros H. inversion H; subst. constructor; [lia|]. now apply IH.
Qed.
Lemma pton6_range s p : pton6 s = Ok p -> bytes_ok p /\ len p = 16.
Proof.
  unfold pton6. destruct (1 <? count2 s); [discriminate|].
  destruct (if count2 s =? 0 then _ else _) as [oc|]; [|discriminate]. cbn [bind].
  destruct (ints6 oc) as [ns|] eqn:N; [|discriminate]. cbn [bind]. destruct (len ns =? 8) eqn:E; [|discriminate].
  intros H. inversion H; subst. apply ints6_range in N. split; [|rewrite ungroups_len; lia].
  unfold ungroups. clear -N. induction N as [|n ns R N IH]; [constructor|]. cbn [map concat app].
  apply bytes_ok_cons; split; [unfold byte_ok; lia|]. apply bytes_ok_cons; split; [unfold byte_ok; lia|]. exact IH.
Qed.
Lemma py_int16_errors s e : py_int16 s = Err e -> e = ValueError.
Proof. unfold py_int16. destruct (match strip s with [] => _ | _ => _ end); congruence. Qed.
Lemma ints6_errors l e : ints6 l = Err e -> e = ValueError.
Proof.
  induction l as [|o l IH]; cbn [ints6]; [discriminate|]. destruct (py_int16 o) as [n|e'] eqn:P; cbn [bind].
  - destruct ((65535 <? n) || (n <? 0))%bool; [discriminate|]. destruct (ints6 l); cbn [bind]; [discriminate|]. intros H. apply IH. congruence.
  - intros H. inversion H; subst. now apply py_int16_errors in P.
Qed.
Lemma pton6_errors s e : pton6 s = Err e -> e = ValueError \/ e = StructError.
Proof.
  unfold pton6. destruct (1 <? count2 s); [intros H; inversion H; auto|].
  destruct (if count2 s =? 0 then _ else _) as [oc|e'] eqn:O; cbn [bind].
  - destruct (ints6 oc) as [ns|e''] eqn:N; cbn [bind].
    + destruct (len ns =? 8); intros H; inversion H; auto.
    + intros H. inversion H; subst. left. now apply ints6_errors in N.
  - intros H. inversion H; subst. destruct (count2 s =? 0).
    + destruct (len _ =? 8); inversion O; auto.
    + destruct (split2 s). discriminate.
Qed.

(* ---- masks ---- *)
Lemma mask_fold_ones n a : fold_left (fun a d => a * 2 + d) (repeat 1 n) a = (a + 1) * 2 ^ Z.of_nat n - 1.
Proof.
  revert a. induction n as [|n IH]; intros a; cbn [repeat fold_left]; [change (2 ^ Z.of_nat 0) with 1; lia|].
  rewrite IH, Nat2Z.inj_succ, Z.pow_succ_r by lia. lia.
Qed.
Lemma mask_fold_zeros n a : fold_left (fun a d => a * 2 + d) (repeat 0 n) a = a * 2 ^ Z.of_nat n.
Proof.
  revert a. induction n as [|n IH]; intros a; cbn [repeat fold_left]; [change (2 ^ Z.of_nat 0) with 1; lia|].
  rewrite IH, Nat2Z.inj_succ, Z.pow_succ_r by lia. lia.
Qed.
Lemma mask_int_ok n size : 0 <= n <= size -> mask_int n size = (2 ^ n - 1) * 2 ^ (size - n).
Proof.
  intros H. unfold mask_int. rewrite fold_left_app, mask_fold_ones, mask_fold_zeros, !Z2Nat.id by lia. f_equal. lia.
Qed.
Lemma mask_bound n size : 0 <= n <= size -> 0 <= (2 ^ n - 1) * 2 ^ (size - n) < 2 ^ size.
Proof.
  intros H. assert (0 < 2 ^ n) by (apply Z.pow_pos_nonneg; lia). assert (0 < 2 ^ (size - n)) by (apply Z.pow_pos_nonneg; lia).
  replace (2 ^ size) with (2 ^ n * 2 ^ (size - n)) by (rewrite <- Z.pow_add_r by lia; f_equal; lia). nia.
Qed.
Lemma mask_bytes n k : 0 < k -> 0 <= n <= 8 * k -> exists b,
  int_to_bytes (mask_int n (8 * k)) false None = Ok b /\
  let m := repeat 0 (Z.to_nat (k - len b)) ++ b in len m = k /\ mask_of n m.
Proof.
  intros K H. rewrite mask_int_ok by exact H. pose proof (mask_bound n (8 * k) H) as B.
  destruct (int_to_bytes_unsigned_ok ((2 ^ n - 1) * 2 ^ (8 * k - n))) as (b & E & Ok' & N & V & W & T); [lia|].
  exists b. split; [exact E|]. cbv zeta.
  assert (len b <= k) as LB.
  { destruct T as [-> | T]; [change (len [0]) with 1; lia|]. destruct b as [|c b]; [easy|]. cbn [hd] in T.
    cbn [be_value] in V. apply bytes_ok_cons in Ok' as [Oc Ob]. pose proof (be_value_bound b Ob). rewrite len_cons.
    assert (len b < k); [|lia]. apply (Z.pow_lt_mono_r_iff 256); [lia|lia|].
    replace (256 ^ k) with (2 ^ (8 * k)) by (rewrite Z.pow_mul_r by lia; reflexivity). nia. }
  assert (len (repeat 0 (Z.to_nat (k - len b)) ++ b) = k) as L.
  { rewrite len_app. unfold len at 1. rewrite repeat_length. lia. }
  split; [exact L|]. split.
  - apply bytes_ok_app. split; [|exact Ok']. apply Forall_forall. intros x X. apply repeat_spec in X. subst. unfold byte_ok; lia.
  - rewrite L, be_value_app. change (repeat 0 (Z.to_nat (k - len b))) with (zeros (Z.to_nat (k - len b))). rewrite be_value_zeros. lia.
Qed.

(* ---- set ---- *)
Lemma split_slash_none s : ~ In 47 s -> split_slash s = (s, None).
Proof.
  induction s as [|c s IH]; intros H; [reflexivity|]. cbn [split_slash]. destruct (c =? 47) eqn:E; [exfalso; apply H; left; lia|].
  rewrite IH; [reflexivity|]. intros X. apply H. now right.
Qed.
Lemma split_slash_some s t : ~ In 47 s -> split_slash (s ++ 47 :: t) = (s, Some t).
Proof.
  induction s as [|c s IH]; intros H; [reflexivity|]. cbn [split_slash app]. destruct (c =? 47) eqn:E; [exfalso; apply H; left; lia|].
  rewrite IH; [reflexivity|]. intros X. apply H. now right.
Qed.
Lemma split_slash_inv v addr tail : split_slash v = (addr, tail) ->
  ~ In 47 addr /\ v = match tail with None => addr | Some t => addr ++ 47 :: t end.
Proof.
  revert addr tail. induction v as [|c v IH]; intros addr tail; cbn [split_slash].
  - intros H. inversion H; subst. split; [easy|reflexivity].
  - destruct (c =? 47) eqn:E.
    + intros H. inversion H; subst. split; [easy|]. cbn [app]. f_equal. lia.
    + destruct (split_slash v) as [a b]. intros H. inversion H; subst. destruct (IH a tail eq_refl) as [I1 I2]. split.
      * intros [X|X]; [lia|now apply I1].
      * rewrite I2. now destruct tail.
Qed.
Definition colon (s : text) : bool := existsb (fun c => c =? 58) s.
Lemma colon_in s : colon s = true <-> In 58 s.
Proof.
  unfold colon. rewrite existsb_exists. split.
  - intros (x & I & E). replace 58 with x by lia. exact I.
  - intros I. exists 58. split; [exact I|reflexivity].
Qed.
Definition v6_dec (s : text) (v6 : bool) : Prop := In 58 s <-> v6 = true.
Lemma v6_colon s v6 : v6_dec s v6 -> existsb (fun c => c =? 58) s = v6.
Proof.
  intros H. change (colon s = v6). destruct v6.
  - apply colon_in. now apply H.
  - destruct (colon s) eqn:E; [|reflexivity]. apply colon_in, H in E. discriminate.
Qed.
Section Set_.
  Variable pton : bool -> text -> res bytes.

  Lemma ip_set_iff value c :
    (forall v6 s p, pton v6 s = Ok p -> len p = size_of v6) ->
    (ip_set pton value = Ok c <->
     exists addr prefix v6 a, address_text value addr prefix /\ (In 58 addr <-> v6 = true) /\
       match prefix with None => True | Some n => 0 <= n <= 8 * size_of v6 end /\
       pton v6 addr = Ok a /\ address_octets a prefix c).
  Proof.
    intros P. unfold ip_set. split.
    - destruct (split_slash value) as [addr tail] eqn:S. apply split_slash_inv in S as [S1 S2].
      set (v6 := existsb (fun c => c =? 58) addr). assert (In 58 addr <-> v6 = true) as V by (unfold v6; symmetry; apply colon_in).
      replace (if v6 then 128 else 32) with (8 * size_of v6) by (destruct v6; reflexivity).
      replace (8 * size_of v6 / 8) with (size_of v6) by (destruct v6; reflexivity).
      assert (0 < size_of v6) as SZ by (destruct v6; reflexivity).
      destruct tail as [t|].
      + destruct (py_int t) as [n|] eqn:PI; [|discriminate]. cbn [bind]. destruct (n <? 0) eqn:N0; [discriminate|]. cbn [bind].
        destruct (8 * size_of v6 <? n) eqn:N1; [discriminate|].
        destruct (mask_bytes n (size_of v6)) as (b & Eb & Lm & Mm); [exact SZ|lia|]. rewrite Eb. cbn [bind].
        destruct (pton v6 addr) as [a|] eqn:A; [|discriminate]. cbn [bind]. intros H. inversion H; subst c.
        exists addr, (Some n), v6, a. split; [split; [exact S1|exists t; auto]|]. split; [exact V|]. split; [lia|]. split; [exact A|].
        cbn [address_octets]. eexists. split; [reflexivity|]. split; [|exact Mm]. rewrite (P v6 addr a A). exact Lm.
      + cbn [bind]. replace (8 * size_of v6 <? 0) with false by lia. destruct (pton v6 addr) as [a|] eqn:A; [|discriminate].
        cbn [bind]. intros H. inversion H; subst c. exists addr, None, v6, a. split; [split; auto|]. split; [exact V|]. split; [exact I|].
        split; [exact A|]. cbn [address_octets]. now rewrite app_nil_r.
    - intros (addr & prefix & v6 & a & [T1 T2] & V & R & A & O). pose proof (P v6 addr a A) as LA.
      assert (0 < size_of v6) as SZ by (destruct v6; reflexivity).
      destruct prefix as [n|].
      + destruct T2 as (t & -> & PI). rewrite split_slash_some by exact T1. rewrite (v6_colon addr v6 V), PI. cbn [bind].
        replace (n <? 0) with false by lia. cbn [bind].
        replace (if v6 then 128 else 32) with (8 * size_of v6) by (destruct v6; reflexivity).
        replace (8 * size_of v6 / 8) with (size_of v6) by (destruct v6; reflexivity).
        replace (8 * size_of v6 <? n) with false by lia.
        destruct (mask_bytes n (size_of v6)) as (b & Eb & Lm & Mm); [exact SZ|lia|]. rewrite Eb. cbn [bind]. rewrite A. cbn [bind].
        destruct O as (m & -> & Lm' & Mm'). do 2 f_equal. destruct Mm as [B1 B2], Mm' as [B1' B2'].
        apply be_value_inj; auto; [unfold len in *; lia|]. rewrite B2, B2'. do 3 f_equal. lia.
      + subst value. rewrite split_slash_none by exact T1. rewrite (v6_colon addr v6 V). cbn [bind].
        replace (if v6 then 128 else 32) with (8 * size_of v6) by (destruct v6; reflexivity).
        replace (8 * size_of v6 <? 0) with false by lia. rewrite A. cbn [bind]. cbn [address_octets] in O. subst c. now rewrite app_nil_r.
  Qed.
  Lemma ip_set_errors value e : ip_set pton value = Err e ->
    e = ValueError \/ exists v6 addr, pton v6 addr = Err e /\ exists p, address_text value addr p.
  Proof.
    unfold ip_set. destruct (split_slash value) as [addr tail] eqn:S. apply split_slash_inv in S as [S1 S2].
    set (v6 := existsb (fun c => c =? 58) addr).
    destruct tail as [t|].
    - destruct (py_int t) as [n|e'] eqn:PI; cbn [bind].
      + destruct (n <? 0) eqn:N0; cbn [bind]; [intros H; inversion H; auto|].
        destruct ((if v6 then 128 else 32) <? n) eqn:N1; [intros H; inversion H; auto|].
        destruct (mask_bytes n (size_of v6)) as (b & Eb & _); [destruct v6; reflexivity|destruct v6; cbn [size_of] in *; lia|].
        replace (8 * size_of v6) with (if v6 then 128 else 32) in Eb by (destruct v6; reflexivity). rewrite Eb. cbn [bind].
        destruct (pton v6 addr) as [a|e'] eqn:A; [discriminate|]. cbn [bind]. intros H. inversion H; subst e'. right.
        exists v6, addr. split; [exact A|]. exists (Some n). split; [exact S1|]. exists t. auto.
      + intros H. inversion H; subst e'. left. unfold py_int in PI. destruct (match strip t with [] => _ | _ => _ end); congruence.
    - cbn [bind]. replace ((if v6 then 128 else 32) <? 0) with false by (destruct v6; reflexivity).
      destruct (pton v6 addr) as [a|e'] eqn:A; [discriminate|]. cbn [bind]. intros H. inversion H; subst e'. right.
      exists v6, addr. split; [exact A|]. exists None. split; auto.
  Qed.

End Set_.

(* ---- native ---- *)
Section Platform.
  Variable pton : bool -> text -> res bytes.
  Variable ntop : bool -> bytes -> res text.

  Lemma bin_loop_len f : forall v acc, 0 < v -> Z.log2 v < Z.of_nat f -> len (bin_loop f v acc) = Z.log2 v + 1 + len acc.
  Proof.
    induction f as [|f IH]; intros v acc P L; [pose proof (Z.log2_nonneg v); lia|]. cbn [bin_loop].
    destruct (v / 2 =? 0) eqn:E.
    - assert (v = 1) as -> by lia. rewrite len_cons. change (Z.log2 1) with 0. lia.
    - assert (Z.log2 v = Z.log2 (v / 2) + 1) as LG.
      { rewrite <- Z.div2_div. rewrite (Z.div2_odd v) at 1. destruct (Z.odd v); cbn [Z.b2z].
        - rewrite Z.log2_succ_double by (rewrite Z.div2_div; lia). lia.
        - rewrite Z.add_0_r. rewrite Z.log2_double by (rewrite Z.div2_div; lia). lia. }
      rewrite IH by lia. rewrite len_cons. lia.
  Qed.
  Lemma bin_loop_acc f : forall v acc, bin_loop f v acc = bin_loop f v [] ++ acc.
  Proof.
    induction f as [|f IH]; intros v acc; [reflexivity|]. cbn [bin_loop]. destruct (v / 2 =? 0); [reflexivity|].
    rewrite (IH _ (_ :: acc)), (IH _ [_]). now rewrite <- app_assoc.
  Qed.
  Lemma bin_loop_shift k : forall f v acc, 0 < v -> bin_loop (k + f) (v * 2 ^ Z.of_nat k) acc = bin_loop f v (repeat 48 k ++ acc).
  Proof.
    induction k as [|k IH]; intros f v acc P; cbn [repeat app Nat.add]; [now rewrite Z.mul_1_r|].
    rewrite Nat2Z.inj_succ, Z.pow_succ_r by lia. cbn [bin_loop].
    assert (0 < 2 ^ Z.of_nat k) by (apply Z.pow_pos_nonneg; lia).
    replace (v * (2 * 2 ^ Z.of_nat k) / 2) with (v * 2 ^ Z.of_nat k) by lia.
    replace (v * (2 * 2 ^ Z.of_nat k) mod 2) with 0 by lia.
    replace (v * 2 ^ Z.of_nat k =? 0) with false by nia. rewrite IH by exact P. change (48 + 0) with 48.
    f_equal. change (48 :: acc) with ([48] ++ acc). rewrite app_assoc. rewrite <- repeat_cons. reflexivity.
  Qed.
  Lemma bin_loop_last f v acc : (0 < f)%nat -> exists l, bin_loop f v acc = l ++ (48 + v mod 2) :: acc.
  Proof.
    destruct f as [|f]; [lia|]. intros _. cbn [bin_loop]. destruct (v / 2 =? 0); [now exists []|].
    rewrite bin_loop_acc. now exists (bin_loop f (v / 2) []).
  Qed.
  (* the digits between the first and the last one bit *)
  Definition span (m : Z) : Z := len (rstrip_by (fun c => c =? 48) (bin m)).
  Lemma span_0 : span 0 = 0. Proof. reflexivity. Qed.
  Lemma span_odd o k : 0 <= o -> 0 <= k -> span ((2 * o + 1) * 2 ^ k) = Z.log2 (2 * o + 1) + 1.
  Proof.
    intros Ho Hk. unfold span, bin.
    rewrite Z.log2_mul_pow2 by lia. set (w := 2 * o + 1).
    assert (0 <= Z.log2 w) by apply Z.log2_nonneg.
    replace (S (Z.to_nat (k + Z.log2 w))) with (Z.to_nat k + S (Z.to_nat (Z.log2 w)))%nat by lia.
    rewrite <- (Z2Nat.id k) at 2 by lia. rewrite bin_loop_shift by (unfold w; lia). rewrite app_nil_r.
    rewrite bin_loop_acc. destruct (bin_loop_last (S (Z.to_nat (Z.log2 w))) w []) as (l & E); [lia|].
    assert (len (bin_loop (S (Z.to_nat (Z.log2 w))) w []) = Z.log2 w + 1) as L.
    { rewrite bin_loop_len; [change (len (@nil Z)) with 0; lia|unfold w; lia|lia]. }
    rewrite <- L, E. replace (48 + w mod 2) with 49 by (unfold w; lia).
    unfold rstrip_by. rewrite rev_app_distr. f_equal. rewrite rev_app_distr.
    change (rev [49]) with [49].
    assert (forall n x, lstrip_by (fun c => c =? 48) (rev (repeat 48 n) ++ x) = lstrip_by (fun c => c =? 48) x) as K.
    { intros n x. assert (rev (repeat 48 n) = repeat 48 n) as ->.
      { clear. induction n as [|n IH]; [reflexivity|]. cbn [repeat rev]. rewrite IH. now rewrite <- repeat_cons. }
      induction n as [|n IH]; [reflexivity|]. cbn [repeat app lstrip_by]. exact IH. }
    rewrite K. cbn [app lstrip_by]. change (49 =? 48) with false. cbv iota. cbn [rev]. now rewrite rev_involutive.
  Qed.
  Lemma span_mask n size : 0 <= n <= size -> span ((2 ^ n - 1) * 2 ^ (size - n)) = n.
  Proof.
    intros H. destruct (Z.eq_dec n 0) as [->|N].
    - replace ((2 ^ 0 - 1) * 2 ^ (size - 0)) with 0 by lia. reflexivity.
    - assert (2 ^ n = 2 * 2 ^ (n - 1)) as E by (rewrite <- Z.pow_succ_r by lia; f_equal; lia).
      assert (0 < 2 ^ (n - 1)) by (apply Z.pow_pos_nonneg; lia).
      replace (2 ^ n - 1) with (2 * (2 ^ (n - 1) - 1) + 1) by lia. rewrite span_odd by lia.
      replace (2 * (2 ^ (n - 1) - 1) + 1) with (Z.pred (2 ^ n)) by lia. rewrite Z.log2_pred_pow2 by lia. lia.
  Qed.
  Lemma ip_native_plain v6 a s : len a = size_of v6 -> ntop v6 a = Ok s -> ip_native ntop a = Ok (Some s).
  Proof.
    intros L E. unfold ip_native. rewrite L. destruct v6; cbn [size_of] in *.
    - change ((16 =? 32) || (16 =? 16))%bool with true. cbv iota. rewrite <- L. rewrite slice_full, E. cbn [bind].
      rewrite L. reflexivity.
    - change ((4 =? 32) || (4 =? 16))%bool with false. change ((4 =? 8) || (4 =? 4))%bool with true. cbv iota.
      rewrite <- L. rewrite slice_full, E. cbn [bind]. rewrite L. reflexivity.
  Qed.
  Lemma slice_tail {A} (a b : list A) : slice (a ++ b) (len a) (len (a ++ b)) = b.
  Proof.
    unfold slice. rewrite len_app. replace (len a + len b - len a) with (len b) by lia. unfold len. rewrite !Nat2Z.id.
    rewrite skipn_app, skipn_all, Nat.sub_diag. cbn [skipn app]. apply firstn_all.
  Qed.
  Lemma ip_native_mask v6 a m s : len a = size_of v6 -> len m = size_of v6 -> ntop v6 a = Ok s ->
    ip_native ntop (a ++ m) = Ok (Some (s ++ 47 :: dec (span (be_value m)))).
  Proof.
    intros L M E. unfold ip_native. rewrite len_app, L, M. pose proof (slice_tail a m) as T. rewrite len_app, L, M in T.
    pose proof (slice_prefix_app a m) as Q. rewrite L in Q. destruct v6; cbn [size_of] in *.
    - change ((16 + 16 =? 32) || (16 + 16 =? 16))%bool with true. cbv iota. rewrite Q, E. cbn [bind].
      change (16 <? 16 + 16) with true. cbv iota. rewrite T, int_from_bytes_unsigned. reflexivity.
    - change ((4 + 4 =? 32) || (4 + 4 =? 16))%bool with false. change ((4 + 4 =? 8) || (4 + 4 =? 4))%bool with true. cbv iota.
      rewrite Q, E. cbn [bind]. change (4 <? 4 + 4) with true. cbv iota. rewrite T, int_from_bytes_unsigned. reflexivity.
  Qed.
  Lemma ip_native_other c : len c <> 4 -> len c <> 8 -> len c <> 16 -> len c <> 32 -> ip_native ntop c = Ok None.
  Proof.
    intros. unfold ip_native. replace ((len c =? 32) || (len c =? 16))%bool with false by lia.
    replace ((len c =? 8) || (len c =? 4))%bool with false by lia. reflexivity.
  Qed.
  Definition with_prefix (s : text) (prefix : option Z) : text := match prefix with None => s | Some n => s ++ 47 :: dec n end.
  Lemma ip_round_trip v6 a prefix : platform pton ntop -> bytes_ok a -> len a = size_of v6 ->
    (forall n, prefix = Some n -> 0 <= n <= 8 * size_of v6) ->
    exists s c, ntop v6 a = Ok s /\ ip_set pton (with_prefix s prefix) = Ok c /\ address_octets a prefix c
      /\ ip_native ntop c = Ok (Some (with_prefix s prefix)).
  Proof.
    intros P B L R. destruct (P v6 a B L) as (s & N & T & S & V). exists s.
    assert (0 < size_of v6) as SZ by (destruct v6; reflexivity).
    destruct prefix as [n|]; cbn [with_prefix].
    - specialize (R n eq_refl). destruct (mask_bytes n (size_of v6) SZ R) as (b & Eb & Lm & Mm).
      eexists. split; [exact N|]. split.
      + unfold ip_set. rewrite split_slash_some by exact S. rewrite py_int_dec by lia. cbn [bind].
        replace (n <? 0) with false by lia. cbn [bind]. rewrite (v6_colon s v6 V).
        replace (if v6 then 128 else 32) with (8 * size_of v6) by (destruct v6; reflexivity).
        replace (8 * size_of v6 / 8) with (size_of v6) by (destruct v6; reflexivity).
        replace (8 * size_of v6 <? n) with false by lia. rewrite Eb. cbn [bind]. rewrite T. cbn [bind]. reflexivity.
      + split.
        * cbn [address_octets]. eexists. split; [reflexivity|]. split; [rewrite L; exact Lm|exact Mm].
        * rewrite (ip_native_mask v6 a _ s L Lm N). do 4 f_equal. destruct Mm as [_ ->]. f_equal. rewrite Lm. now apply span_mask.
    - exists a. split; [exact N|]. split.
      + unfold ip_set. rewrite split_slash_none by exact S. cbn [bind]. rewrite (v6_colon s v6 V).
        replace ((if v6 then 128 else 32) <? 0) with false by (destruct v6; reflexivity). rewrite T. cbn [bind]. now rewrite app_nil_r.
      + split; [reflexivity|]. now apply (ip_native_plain v6).
  Qed.
  (* a stored value is what is read, whatever was stored before *)
  Lemma ip_store_read o value o' : ip_store pton o value = (o', Ok tt) ->
    snd (ip_read ntop o') = Ok (Some value) /\ exists c, ip_contents o' = Some c /\ ip_set pton value = Ok c.
  Proof.
    unfold ip_store. destruct (ip_set pton value) as [c|e]; [|discriminate]. intros H. inversion H; subst. split; [reflexivity|].
    exists c. split; reflexivity.
  Qed.
End Platform.
Section Store.
  Variable pton : bool -> text -> res bytes.
  Lemma ip_store_failed o value o' e : ip_store pton o value = (o', Err e) ->
    ip_contents o' = ip_contents o /\ ip_set pton value = Err e /\
    (ip_text o' = ip_text o \/ ip_text o' = Some value /\ exists v6 addr, pton v6 addr = Err e).
  Proof.
    unfold ip_store. destruct (ip_set pton value) as [c|e'] eqn:S; [discriminate|].
    set (r := match _ with Ok _ => true | Err _ => false end). intros H.
    assert (e' = e) as -> by congruence. destruct r eqn:E.
    - inversion H; subst. cbn. split; [reflexivity|]. split; [reflexivity|]. right. split; [reflexivity|].
      subst r. unfold ip_set in S. destruct (split_slash value) as [addr tail].
      destruct (match tail with Some _ => _ | None => _ end) as [n|]; [|discriminate]. cbn [bind] in *.
      destruct (_ <? n) eqn:N; [discriminate|].
      destruct (match tail with Some _ => _ | None => Ok [] end) as [m|] eqn:M; cbn [bind] in S.
      + exists (existsb (fun c => c =? 58) addr), addr. destruct (pton _ addr); [discriminate|]. cbn [bind] in S. congruence.
      + exfalso. destruct tail; [|discriminate]. 
        destruct (int_to_bytes (mask_int n (if existsb (fun c => c =? 58) addr then 128 else 32)) false None) eqn:Q; [discriminate|].
        destruct (int_to_bytes_unsigned_ok (mask_int n (if existsb (fun c => c =? 58) addr then 128 else 32))) as (l & Ql & _); [|congruence].
        unfold mask_int. rewrite fold_left_app, mask_fold_ones, mask_fold_zeros.
        assert (0 < 2 ^ Z.of_nat (Z.to_nat n)) by (apply Z.pow_pos_nonneg; lia). apply Z.mul_nonneg_nonneg; [lia|apply Z.pow_nonneg; lia].
    - inversion H; subst. split; [reflexivity|]. split; [reflexivity|]. now left.
  Qed.
End Store.
