Require Import Verif.Base Verif.BaseFacts Verif.IntModel Verif.IntSpec Verif.IntProofs
  Verif.ParserModel Verif.ParserSpec Verif.ParserProofs Verif.ParserFacts Verif.Text Verif.OidModel Verif.OidSpec
  Verif.OidProofs Verif.BitModel Verif.BitSpec Verif.BitProofs Verif.CodecModel Verif.CodecSpec Verif.CodecProofs
  Verif.Calendar Verif.TimeModel Verif.TimeSpec Verif.TimeProofs Verif.TimeFacts Verif.TagSpec Verif.TagProofs
  Verif.PrimModel Verif.PrimSpec.

(* ---- integers ---- *)
Lemma der_int_encode z : exists c, int_to_bytes z true None = Ok c /\ der_int z c.
Proof.
  destruct (int_signed_roundtrip z) as (l & E & Ok_ & N & V & M). exists l. split; auto.
  rewrite int_from_bytes_signed in V by auto. split; [auto|split; [auto|split; [auto|]]].
  destruct l as [|a [|b r]]; auto.
  assert (G : twos_value (b :: r) = z -> False).
  { intros F. pose proof Ok_ as Ok'. apply bytes_ok_cons in Ok' as [_ Ok'].
    destruct (M (b :: r)) as [L _]; auto; [discriminate|now rewrite int_from_bytes_signed|]. cbn in L. lia. }
  apply bytes_ok_cons in Ok_ as [Ba Ob]. apply bytes_ok_cons in Ob as [Bb Or].
  cbn [twos_value be_value] in V, G. rewrite len_cons in V.
  rewrite Z.pow_add_r in V by (pose proof (len_nonneg r); lia). change (256 ^ 1) with 256 in V.
  split; intros [-> Hb]; apply G; rewrite <- V.
  - replace (0 <? 128) with true by lia. destruct (Z.ltb_spec b 128); lia.
  - replace (255 <? 128) with false by lia. destruct (Z.ltb_spec b 128); lia.
Qed.

Lemma der_int_far a b r : bytes_ok (a :: b :: r) -> ~ (a = 0 /\ b < 128) -> ~ (a = 255 /\ 128 <= b) ->
  ~ (- 128 * 256 ^ len r <= twos_value (a :: b :: r) < 128 * 256 ^ len r).
Proof.
  intros Ok_ H1 H2. apply bytes_ok_cons in Ok_ as [Ba Ob]. apply bytes_ok_cons in Ob as [Bb Or].
  pose proof (be_value_bound r Or) as B. cbn [twos_value be_value]. rewrite len_cons.
  rewrite Z.pow_add_r by (pose proof (len_nonneg r); lia). change (256 ^ 1) with 256.
  pose proof (pow256_pos (len r) (len_nonneg r)) as P. set (p := 256 ^ len r) in *. unfold byte_ok in *.
  destruct (Z.ltb_spec a 128).
  - assert (128 <= a * 256 + b) by lia. nia.
  - assert (a * 256 + b - 65536 <= -129) by lia. nia.
Qed.

Lemma der_int_unique z a b : der_int z a -> der_int z b -> a = b.
Proof.
  assert (G : forall a b, der_int z a -> der_int z b -> (length a <= length b)%nat).
  { intros x y (Ox & Nx & Vx & Mx) (Oy & Ny & Vy & My). destruct (Nat.le_gt_cases (length x) (length y)) as [|L]; auto.
    exfalso. destruct y as [|y0 y]; [contradiction|]. destruct x as [|x0 [|x1 x]]; cbn in L; try lia.
    destruct Mx as [M1 M2]. apply (der_int_far x0 x1 x Ox M1 M2). rewrite Vx, <- Vy.
    pose proof (twos_value_bound y0 y Oy).
    assert (256 ^ len y <= 256 ^ len x) by (apply Z.pow_le_mono_r; unfold len; lia). lia. }
  intros H K. pose proof (G _ _ H K). pose proof (G _ _ K H). destruct H as (? & ? & ? & _), K as (? & ? & ? & _).
  apply twos_value_inj; auto; [lia|congruence].
Qed.

Lemma der_nat_encode z : 0 <= z -> exists c, int_to_bytes z false None = Ok c /\ der_nat z c.
Proof.
  intros H. destruct (int_to_bytes_unsigned_ok z H) as (l & E & O & N & V & _ & M). exists l. split; auto.
  split; [auto|split; [auto|split; [auto|]]]. destruct l as [|a [|b r]]; auto.
  destruct M as [M|M]; [discriminate|]. cbn in M. lia.
Qed.

Lemma der_nat_unique z a b : der_nat z a -> der_nat z b -> a = b.
Proof.
  intros (O & N & V & M) (O' & N' & V' & M').
  assert (S : forall l, l <> [] -> bytes_ok l -> match l with x :: _ :: _ => x <> 0 | _ => True end -> l = [0] \/ 0 < hd 0 l).
  { intros [|x [|y r]] Nl Ol Ml; [contradiction| |]; apply bytes_ok_cons in Ol as [Bx _]; unfold byte_ok in Bx; cbn.
    - destruct (Z.eq_dec x 0); [left; congruence|right; lia].
    - right. lia. }
  destruct (shortest_be a b) as [L E]; auto; [congruence|].
  destruct (shortest_be b a) as [L' E']; auto; [congruence|]. symmetry. apply E. lia.
Qed.

(* ---- tables ---- *)
Lemma eqb_text_spec a b : eqb_text a b = true <-> a = b.
Proof. apply eqb_bytes_spec. Qed.

Lemma rev_get_sound m s z : rev_get m s = Some z -> In (z, s) m.
Proof.
  induction m as [|[i v] r IH]; cbn; [discriminate|]. destruct (rev_get r s) as [j|].
  - intros H. injection H as ->. auto.
  - destruct (eqb_text v s) eqn:E; [|discriminate]. intros H. injection H as ->. apply eqb_text_spec in E. subst. auto.
Qed.
Lemma rev_get_some m s : In s (map snd m) -> exists z, rev_get m s = Some z.
Proof.
  induction m as [|[i v] r IH]; cbn; [intros []|]. intros [H|H].
  - subst. destruct (rev_get r s); [eauto|]. replace (eqb_text s s) with true by (symmetry; now apply eqb_text_spec). eauto.
  - destruct (IH H) as (z & ->). eauto.
Qed.
Lemma rev_get_none m s : ~ In s (map snd m) -> rev_get m s = None.
Proof.
  intros H. destruct (rev_get m s) as [z|] eqn:E; auto. apply rev_get_sound in E. exfalso. apply H.
  apply in_map_iff. exists (z, s). auto.
Qed.
Lemma map_get_none m z : ~ In z (map fst m) -> map_get m z = None.
Proof.
  induction m as [|[i v] r IH]; cbn; auto. intros H. destruct (Z.eqb_spec i z); [exfalso; auto|auto].
Qed.
Lemma map_get_none_iff m z : map_get m z = None <-> ~ In z (map fst m).
Proof.
  split; [|apply map_get_none]. induction m as [|[i v] r IH]; cbn; auto.
  destruct (Z.eqb_spec i z); [discriminate|]. intros H [?|?]; [auto|]. now apply IH.
Qed.

Lemma tmap_rev_sound m s d : tmap_rev m s = Some d -> In (d, s) m.
Proof.
  induction m as [|[i v] r IH]; cbn; [discriminate|]. destruct (tmap_rev r s) as [j|].
  - intros H. injection H as ->. auto.
  - destruct (eqb_text v s) eqn:E; [|discriminate]. intros H. injection H as ->. apply eqb_text_spec in E. subst. auto.
Qed.
Lemma tmap_rev_some m s : In s (map snd m) -> exists z, tmap_rev m s = Some z.
Proof.
  induction m as [|[i v] r IH]; cbn; [intros []|]. intros [H|H].
  - subst. destruct (tmap_rev r s); [eauto|]. replace (eqb_text s s) with true by (symmetry; now apply eqb_text_spec). eauto.
  - destruct (IH H) as (z & ->). eauto.
Qed.
Lemma tmap_rev_none m s : ~ In s (map snd m) -> tmap_rev m s = None.
Proof.
  intros H. destruct (tmap_rev m s) as [z|] eqn:E; auto. apply tmap_rev_sound in E. exfalso. apply H.
  apply in_map_iff. exists (z, s). auto.
Qed.
Lemma tmap_get_none m s : ~ In s (map fst m) -> tmap_get m s = None.
Proof.
  induction m as [|[i v] r IH]; cbn; auto. intros H. destruct (eqb_text i s) eqn:E; [|auto].
  apply eqb_text_spec in E. exfalso; auto.
Qed.
Lemma tmap_get_in m s n : NoDup (map fst m) -> (tmap_get m s = Some n <-> In (s, n) m).
Proof.
  induction m as [|[i v] r IH]; cbn; intros N; [split; [discriminate|intros []]|].
  inversion N as [|? ? N1 N2]; subst. destruct (eqb_text i s) eqn:E.
  - apply eqb_text_spec in E. subst. split.
    + intros H. injection H as ->. auto.
    + intros [H|H]; [congruence|]. exfalso. apply N1. apply in_map_iff. exists (s, n). auto.
  - rewrite IH by auto. split; auto. intros [H|H]; auto. injection H as -> ->.
    replace (eqb_text s s) with true in E by (symmetry; now apply eqb_text_spec). discriminate.
Qed.

Lemma nodup_snd {A B} (m : list (A * B)) a a' b : NoDup (map snd m) -> In (a, b) m -> In (a', b) m -> a = a'.
Proof.
  induction m as [|[x y] r IH]; cbn; [intros _ []|]. intros N [H|H] [K|K]; inversion N as [|? ? N1 N2]; subst; try congruence.
  - injection H as -> ->. exfalso. apply N1. apply in_map_iff. exists (a', b). auto.
  - injection K as -> ->. exfalso. apply N1. apply in_map_iff. exists (a, b). auto.
  - auto.
Qed.
Lemma nodup_fst {A B} (m : list (A * B)) a b b' : NoDup (map fst m) -> In (a, b) m -> In (a, b') m -> b = b'.
Proof.
  induction m as [|[x y] r IH]; cbn; [intros _ []|]. intros N [H|H] [K|K]; inversion N as [|? ? N1 N2]; subst; try congruence.
  - injection H as -> ->. exfalso. apply N1. apply in_map_iff. exists (a, b'). auto.
  - injection K as -> ->. exfalso. apply N1. apply in_map_iff. exists (a, b). auto.
  - auto.
Qed.

(* ---- named bits ---- *)
Lemma nth_rstrip0 l i : nth i (rstrip0 l) false = nth i l false.
Proof.
  destruct (rstrip0_spec l) as (k & E). rewrite E at 2.
  destruct (Nat.lt_ge_cases i (length (rstrip0 l))) as [H|H].
  - now rewrite app_nth1.
  - rewrite app_nth2, nth_overflow by auto. symmetry. apply nth_repeat.
Qed.

Lemma bits_of_set_nth m s i : NoDup (map fst m) ->
  nth i (bits_of_set m s) false = true <-> exists n, In (Z.of_nat i, n) m /\ In (LName n) s.
Proof.
  intros N. unfold bits_of_set.
  destruct (Nat.lt_ge_cases i (Z.to_nat (map_size m))) as [H|H].
  - rewrite nth_map_zseq by auto. rewrite Z.add_0_l. destruct (map_get m (Z.of_nat i)) as [n|] eqn:E.
    + apply map_get_in in E; auto. rewrite label_in_spec. split; [eauto|].
      intros (n' & H1 & H2). now rewrite (nodup_fst m _ _ _ N E H1).
    + split; [discriminate|]. intros (n & H1 & H2). apply map_get_in in H1; auto. congruence.
  - rewrite nth_overflow by (rewrite map_length, zseq_length; auto). split; [discriminate|].
    intros (n & H1 & _). apply map_size_bound in H1. lia.
Qed.

Lemma named_bits_unique a b : no_trailing_zero a -> no_trailing_zero b ->
  (forall i, nth i a false = true <-> nth i b false = true) -> a = b.
Proof.
  assert (G : forall a b, no_trailing_zero a -> (forall i, nth i a false = true -> nth i b false = true) -> (length a <= length b)%nat).
  { clear. intros a b [->|H] E; [cbn; lia|]. destruct a as [|x a _] using rev_ind; [cbn; lia|].
    rewrite last_last in H. subst x. rewrite app_length. cbn. specialize (E (length a)).
    rewrite app_nth2, Nat.sub_diag in E by lia. cbn in E. specialize (E eq_refl).
    destruct (Nat.lt_ge_cases (length a) (length b)); [lia|]. rewrite nth_overflow in E by auto. discriminate. }
  intros H K E. apply nth_ext with (d := false) (d' := false).
  - pose proof (G a b H (fun i => proj1 (E i))). pose proof (G b a K (fun i => proj2 (E i))). lia.
  - intros i _. specialize (E i). destruct (nth i a false), (nth i b false); auto; [symmetry; tauto|tauto].
Qed.

Lemma named_set_encode m s : NoDup (map fst m) -> Forall (fun p => 0 <= fst p) m ->
  exists c, bitstring_encode (Some (map_size m)) (bits_of_set m s) = Ok c /\ bytes_ok c /\
    exists bits, der_bits bits c /\ no_trailing_zero bits /\
      forall i, nth i bits false = true <-> exists n, In (Z.of_nat i, n) m /\ In (LName n) s.
Proof.
  intros N P. rewrite bitstring_encode_some by (rewrite bits_of_set_len; pose proof (map_size_pos m P); lia).
  destruct (bitstring_roundtrip (rstrip0 (bits_of_set m s))) as (c & E & O & D & _).
  exists c. split; auto. split; auto. eexists. split; [exact D|]. split; [apply rstrip0_last|].
  intros i. rewrite nth_rstrip0. now apply bits_of_set_nth.
Qed.

Lemma der_bits_inj a b c : der_bits a c -> der_bits b c -> a = b.
Proof.
  intros H K. destruct (der_bits_decode _ _ H) as (u & E & _). destruct (der_bits_decode _ _ K) as (u' & E' & _). congruence.
Qed.

Lemma der_bits_octets b : bytes_ok b -> der_bits (octets_bits b) (0 :: b).
Proof. intros H. exists 0, b. repeat split; auto; try lia. cbn. now rewrite app_nil_r. Qed.

Lemma der_bits_ok l c : der_bits l c -> bytes_ok c.
Proof. intros (u & body & -> & H & Hu & _). apply bytes_ok_cons. split; auto. unfold byte_ok. lia. Qed.

(* ---- character strings ---- *)
Lemma encode_latin1 s : Forall (fun c => 0 <= c < 128) s -> encode Latin1 s = Ok s /\ bytes_ok s /\ text_ok s /\ Forall (representable Latin1) s.
Proof.
  induction 1 as [|c s H _ (E & B & T & R)]; [repeat split; constructor|].
  split; [|split; [|split]]; try (constructor; auto; cbn; unfold byte_ok; lia).
  cbn [encode]. cbn [encode_char]. unfold latin1_char. replace (c <? 256) with true by lia.
  change (encode Latin1) with (encode Latin1) in *. cbn [bind]. now rewrite E.
Qed.

Lemma utc_ascii f : Forall (fun c => 0 <= c < 128) (strftime_utc f).
Proof.
  rewrite (strftime_utc_text f : strftime_utc f = _).
  apply Forall_app; split; [apply dd_ascii|]. apply Forall_app; split; [apply time_ascii|].
  constructor; [lia|constructor].
Qed.

Lemma digits_ascii s : digits s -> Forall (fun c => 0 <= c < 128) s.
Proof. intros H. eapply Forall_impl; [|exact H]. cbn. intros; lia. Qed.

Lemma gen_ascii f s : gen_text f s -> Forall (fun c => 0 <= c < 128) s.
Proof.
  intros (fr & H & ->). apply Forall_app; split; [apply dd_ascii|]. apply Forall_app; split; [apply dd_ascii|].
  apply Forall_app; split; [apply time_ascii|]. apply Forall_app; split.
  - destruct H as [[_ ->]|[_ (fs & -> & D & _)]]; [constructor|]. constructor; [lia|]. now apply digits_ascii.
  - constructor; [lia|constructor].
Qed.
