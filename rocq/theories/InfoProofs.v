(* Proofs about the key structures. *)
Require Import Verif.Base Verif.BaseFacts Verif.IntModel Verif.IntSpec Verif.IntProofs Verif.Text Verif.PrimSpec Verif.MapModel Verif.MapSpec
  Verif.MapProofs Verif.KeyModel Verif.KeySpec Verif.KeyProofs Verif.InfoModel Verif.InfoSpec.
Require Coq.Strings.String.
Import Coq.Strings.String.StringSyntax.

(* ---- rounding ---- *)
Lemma half_even_near x d : 0 < d -> 2 * Z.abs (round_half_even x d * d - x) <= d.
Proof.
  intro D. unfold round_half_even. pose proof (Z.div_mod x d ltac:(lia)) as E. pose proof (Z.mod_pos_bound x d D) as M.
  set (q := x / d) in *. set (r := x mod d) in *.
  assert (A : 2 * r <= d -> 2 * Z.abs (q * d - x) <= d) by (intro; rewrite E; replace (q * d - (d * q + r)) with (- r) by ring; lia).
  assert (B : d <= 2 * r -> 2 * Z.abs ((q + 1) * d - x) <= d) by (intro; rewrite E; replace ((q + 1) * d - (d * q + r)) with (d - r) by ring; lia).
  destruct (2 * r <? d) eqn:L; [apply A; lia|]. destruct (d <? 2 * r) eqn:G; [apply B; lia|]. destruct (Z.even q); [apply A|apply B]; lia.
Qed.

Lemma double_near x k : 0 <= k -> 2 ^ k <= x < 2 ^ (k + 1) ->
  (k <= 52 /\ to_double x = x) \/ (53 <= k /\ 2 * Z.abs (to_double x - x) <= 2 ^ (k - 52)).
Proof.
  intros K B. assert (L : Z.log2 x = k) by (apply Z.log2_unique; [lia|]; replace (Z.succ k) with (k + 1) by lia; exact B).
  unfold to_double. rewrite L. destruct (k - 52 <=? 0) eqn:S; [left; lia|]. right. split; [lia|].
  apply half_even_near. apply Z.pow_pos_nonneg; lia.
Qed.

Lemma pow_split a b : 0 <= a -> 0 <= b -> 2 ^ (a + b) = 2 ^ a * 2 ^ b.
Proof. intros. now rewrite Z.pow_add_r. Qed.

Lemma clear_double x k : 30 <= k -> 2 ^ k + 2 ^ (k - 29) <= x <= 2 ^ (k + 1) - 2 ^ (k - 29) ->
  2 ^ k + 2 ^ (k - 30) <= to_double x <= 2 ^ (k + 1) - 2 ^ (k - 30).
Proof.
  intros K B.
  assert (E : 2 ^ (k - 29) = 2 * 2 ^ (k - 30)) by (replace (k - 29) with (1 + (k - 30)) by lia; rewrite pow_split by lia; reflexivity).
  assert (P : 0 < 2 ^ (k - 30)) by (apply Z.pow_pos_nonneg; lia).
  destruct (double_near x k ltac:(lia) ltac:(lia)) as [[_ ->]|[G N]]; [lia|].
  assert (Q : 2 ^ (k - 52) <= 2 ^ (k - 30)) by (apply Z.pow_le_mono_r; lia). lia.
Qed.
Lemma clear_log clog x : accurate clog -> clear x -> 0 < x /\ log_bits clog x = Ok (Z.log2 x + 1).
Proof.
  intros A (k & K & B). assert (P : 0 < 2 ^ (k - 29)) by (apply Z.pow_pos_nonneg; lia).
  assert (P' : 0 < 2 ^ k) by (apply Z.pow_pos_nonneg; lia). split; [lia|].
  unfold log_bits. destruct (x <=? 0) eqn:E; [lia|]. rewrite (A k); [|lia|now apply clear_double; try lia].
  rewrite (Z.log2_unique x k); [reflexivity|lia|]. replace (Z.succ k) with (k + 1) by lia. lia.
Qed.
Lemma whole_octets n : 0 <= n -> whole (n + 1) = 8 * (n / 8 + 1).
Proof. intro N. unfold whole. destruct ((n + 1) mod 8 =? 0) eqn:E; lia. Qed.
Lemma clear_octets oct x : accurate_octets oct -> clear x -> 0 < x /\ oct (to_double x) = octets x.
Proof.
  intros A (k & K & B). assert (P : 0 < 2 ^ (k - 29)) by (apply Z.pow_pos_nonneg; lia).
  assert (P' : 0 < 2 ^ k) by (apply Z.pow_pos_nonneg; lia). split; [lia|].
  rewrite (A k); [|lia|now apply clear_double; try lia]. unfold octets. rewrite (Z.log2_unique x k); [lia|lia|].
  replace (Z.succ k) with (k + 1) by lia. lia.
Qed.

(* ---- sizes ---- *)
Ltac names := repeat match goal with |- context [is_name ?a ?b] =>
  let v := eval vm_compute in (is_name a b) in change (is_name a b) with v end; cbn [orb]; cbv iota;
  cbn [modulus_of p_of q_of private_of point_of bind fst snd].
Section Sizes.
  Variable clog : Z -> Z.
  Variable log_small : Z -> bool.

  (* the accessors, as reads *)
  Inductive reading := RAlgorithm | RBits | ROctets | RHash | RCurve.
  Definition read_private (k : keyinfo) (r : reading) : keyinfo :=
    match r with
    | RAlgorithm => fst (algorithm k) | RBits => fst (private_bits clog k) | ROctets => fst (to_octets (private_bits clog k))
    | RHash => fst (private_hash log_small k) | RCurve => fst (curve k)
    end.
  Definition read_public (k : keyinfo) (r : reading) : keyinfo :=
    match r with
    | RAlgorithm => fst (algorithm k) | RBits => fst (public_bits clog k) | ROctets => fst (to_octets (public_bits clog k))
    | RHash => fst (public_hash log_small k) | RCurve => fst (curve k)
    end.

  (* what a key that is only read looks like *)
  Definition seen (bits : keyinfo -> keyinfo * res Z) (n : text) (p : kparams) (x : kkey) (k : keyinfo) : Prop :=
    q_name k = n /\ q_params k = p /\ q_key k = x /\ (q_algorithm k = None \/ q_algorithm k = Some n) /\
    (q_bits k = None \/ exists b, q_bits k = Some b /\ snd (bits (new_info n p x)) = Ok b).
  Lemma seen_new bits n p x : seen bits n p x (new_info n p x).
  Proof. unfold seen, new_info; cbn. auto 6. Qed.
  Lemma seen_algorithm bits n p x k : seen bits n p x k -> snd (algorithm k) = n /\ seen bits n p x (fst (algorithm k)) /\
    q_params (fst (algorithm k)) = p /\ q_key (fst (algorithm k)) = x.
  Proof.
    intros (A & B & C & D & E). unfold algorithm. destruct D as [D|D]; rewrite D; cbn [fst snd q_params q_key].
    - rewrite A. split; [reflexivity|]. split; [|auto]. unfold seen. cbn. auto 6.
    - split; [reflexivity|]. split; [|auto]. unfold seen. auto 6.
  Qed.
  Lemma seen_parts bits n p x k : seen bits n p x k -> let '(k', m) := algorithm k in m = n /\ seen bits n p x k' /\ q_params k' = p /\ q_key k' = x.
  Proof. intro S. pose proof (seen_algorithm _ _ _ _ _ S) as H. destruct (algorithm k) as [k' m]. exact H. Qed.

  Lemma seen_private_bits n p x k : seen (private_bits clog) n p x k ->
    snd (private_bits clog k) = snd (private_bits clog (new_info n p x)) /\ seen (private_bits clog) n p x (fst (private_bits clog k)).
  Proof.
    intro S. pose proof S as (A & B & C & D & E).
    enough (R : forall r, private_bits clog k = r ->
      snd r = snd (private_bits clog (new_info n p x)) /\ seen (private_bits clog) n p x (fst r)) by exact (R _ eq_refl).
    intro r. unfold private_bits at 1. destruct E as [E|(b & E & F)]; rewrite E; [|intros <-; split; [now rewrite F|exact S]].
    pose proof (seen_parts _ _ _ _ _ S) as H. destruct (algorithm k) as [k' m]. destruct H as (-> & S' & P & X). rewrite P, X. intros <-.
    unfold private_bits at 1, new_info. cbn [q_bits algorithm q_algorithm q_name q_params q_key].
    match goal with |- context [match ?e with Ok _ => _ | Err _ => _ end] => destruct e as [b|?] eqn:R end; cbn [fst snd]; [|auto].
    split; [reflexivity|]. destruct S' as (A' & B' & C' & D' & _). unfold seen. cbn [q_name q_params q_key q_algorithm q_bits].
    split; [assumption|]. split; [congruence|]. split; [congruence|]. split; [assumption|]. right. exists (whole b). split; [reflexivity|].
    unfold private_bits, new_info. cbn [q_bits algorithm q_algorithm q_name q_params q_key]. rewrite R. reflexivity.
  Qed.
  Lemma seen_public_bits n p x k : seen (public_bits clog) n p x k ->
    snd (public_bits clog k) = snd (public_bits clog (new_info n p x)) /\ seen (public_bits clog) n p x (fst (public_bits clog k)).
  Proof.
    intro S. pose proof S as (A & B & C & D & E).
    enough (R : forall r, public_bits clog k = r ->
      snd r = snd (public_bits clog (new_info n p x)) /\ seen (public_bits clog) n p x (fst r)) by exact (R _ eq_refl).
    intro r. unfold public_bits at 1. destruct E as [E|(b & E & F)]; rewrite E; [|intros <-; split; [now rewrite F|exact S]].
    pose proof (seen_parts _ _ _ _ _ S) as H. destruct (algorithm k) as [k' m]. destruct H as (-> & S' & P & X). rewrite P, X. intros <-.
    unfold public_bits at 1, new_info. cbn [q_bits algorithm q_algorithm q_name q_params q_key].
    match goal with |- context [match ?e with Ok _ => _ | Err _ => _ end] => destruct e as [b|?] eqn:R end; cbn [fst snd]; [|auto].
    split; [reflexivity|]. destruct S' as (A' & B' & C' & D' & _). unfold seen. cbn [q_name q_params q_key q_algorithm q_bits].
    split; [assumption|]. split; [congruence|]. split; [congruence|]. split; [assumption|]. right. exists b. split; [reflexivity|].
    unfold public_bits, new_info. cbn [q_bits algorithm q_algorithm q_name q_params q_key]. rewrite R. reflexivity.
  Qed.
  Lemma seen_curve bits n p x k : seen bits n p x k -> seen bits n p x (fst (curve k)) /\ snd (curve k) = snd (curve (new_info n p x)).
  Proof.
    intro S. unfold curve at 1 2. pose proof (seen_parts _ _ _ _ _ S) as H. destruct (algorithm k) as [k' m].
    destruct H as (-> & S' & P & X). cbn [fst snd]. split; [exact S'|]. rewrite P. reflexivity.
  Qed.
  Lemma seen_private_hash bits n p x k : seen bits n p x k -> seen bits n p x (fst (private_hash log_small k)) /\
    snd (private_hash log_small k) = snd (private_hash log_small (new_info n p x)).
  Proof.
    intro S. unfold private_hash at 1 2. pose proof (seen_parts _ _ _ _ _ S) as H. destruct (algorithm k) as [k' m].
    destruct H as (-> & S' & P & X). cbn [fst snd]. split; [exact S'|]. rewrite P. reflexivity.
  Qed.
  Lemma seen_public_hash bits n p x k : seen bits n p x k -> seen bits n p x (fst (public_hash log_small k)) /\
    snd (public_hash log_small k) = snd (public_hash log_small (new_info n p x)).
  Proof.
    intro S. unfold public_hash at 1 2. pose proof (seen_parts _ _ _ _ _ S) as H. destruct (algorithm k) as [k' m].
    destruct H as (-> & S' & P & X). cbn [fst snd]. split; [exact S'|]. rewrite P. reflexivity.
  Qed.
  Lemma private_reads n p x l : seen (private_bits clog) n p x (fold_left read_private l (new_info n p x)).
  Proof.
    assert (G : forall l k, seen (private_bits clog) n p x k -> seen (private_bits clog) n p x (fold_left read_private l k)).
    { clear l. induction l as [|r l IH]; intros k S; [exact S|]. cbn [fold_left]. apply IH.
      destruct r; cbn [read_private to_octets fst].
      - now apply seen_algorithm. - now apply seen_private_bits. - now apply seen_private_bits.
      - now apply seen_private_hash. - now apply seen_curve. }
    apply G, seen_new.
  Qed.
  Lemma public_reads n p x l : seen (public_bits clog) n p x (fold_left read_public l (new_info n p x)).
  Proof.
    assert (G : forall l k, seen (public_bits clog) n p x k -> seen (public_bits clog) n p x (fold_left read_public l k)).
    { clear l. induction l as [|r l IH]; intros k S; [exact S|]. cbn [fold_left]. apply IH.
      destruct r; cbn [read_public to_octets fst].
      - now apply seen_algorithm. - now apply seen_public_bits. - now apply seen_public_bits.
      - now apply seen_public_hash. - now apply seen_curve. }
    apply G, seen_new.
  Qed.

  Definition rsa_name (n : text) : Prop := n = tx "rsa" \/ n = tx "rsassa_pss".
  (* the numbers: a clear modulus or prime *)
  Lemma octets_of_whole z : ((8 * z) + 7) / 8 = z.
  Proof. lia. Qed.
  Lemma bits_clear z : accurate clog -> clear z -> exists b, log_bits clog z = Ok b /\ whole b = whole_bits z.
  Proof.
    intros A C. destruct (clear_log clog z A C) as [P ->]. exists (Z.log2 z + 1). split; [reflexivity|].
    rewrite whole_octets by apply Z.log2_nonneg. reflexivity.
  Qed.
  Lemma new_rsa_private n m p : accurate clog -> rsa_name n -> clear m ->
    snd (private_bits clog (new_info n p (Rsa m))) = Ok (whole_bits m).
  Proof.
    intros A N C. destruct (bits_clear m A C) as (b & E & W).
    destruct N as [-> | ->]; unfold private_bits, new_info; cbn [q_bits algorithm q_algorithm q_name q_params q_key]; names; rewrite E; cbn [bind snd]; now rewrite W.
  Qed.
  Lemma new_rsa_public n m p : accurate clog -> rsa_name n -> clear m ->
    snd (public_bits clog (new_info n p (Rsa m))) = Ok (whole_bits m).
  Proof.
    intros A N C. destruct (bits_clear m A C) as (b & E & W).
    destruct N as [-> | ->]; unfold public_bits, new_info; cbn [q_bits algorithm q_algorithm q_name q_params q_key]; names; rewrite E; cbn [bind snd]; now rewrite W.
  Qed.
  Lemma new_dsa_private p q x : accurate clog -> clear p ->
    snd (private_bits clog (new_info (tx "dsa") (Dsa p q) x)) = Ok (whole_bits p).
  Proof.
    intros A C. destruct (bits_clear p A C) as (b & E & W).
    unfold private_bits, new_info; cbn [q_bits algorithm q_algorithm q_name q_params q_key]; names; rewrite E; cbn [bind snd]; now rewrite W.
  Qed.
  Lemma new_dsa_public p q x : accurate clog -> clear p ->
    snd (public_bits clog (new_info (tx "dsa") (Dsa p q) x)) = Ok (whole_bits p).
  Proof.
    intros A C. destruct (bits_clear p A C) as (b & E & W).
    unfold public_bits, new_info; cbn [q_bits algorithm q_algorithm q_name q_params q_key]; names; rewrite E; cbn [bind snd]; now rewrite W.
  Qed.
  Lemma new_point n b p : uncompressed n b -> snd (public_bits clog (new_info (tx "ec") p (Point b))) = Ok (8 * n).
  Proof.
    intros (x & y & -> & X & Y). unfold public_bits, new_info; cbn [q_bits algorithm q_algorithm q_name q_params q_key].
    names.
    rewrite len_cons, len_app. f_equal. lia.
  Qed.
End Sizes.

Definition bits_and_octets (r : keyinfo -> keyinfo * res Z) (k : keyinfo) (bits : Z) : Prop :=
  snd (r k) = Ok (8 * bits) /\ snd (to_octets (r k)) = Ok bits.
Lemma octets_from r k n : snd (r k) = Ok (8 * n) -> bits_and_octets r k n.
Proof. intro H. split; [exact H|]. unfold to_octets. cbn [snd]. rewrite H. cbn. f_equal. lia. Qed.

Lemma rsa_sizes clog small n m p l : accurate clog -> rsa_name n -> clear m ->
  bits_and_octets (private_bits clog) (fold_left (read_private clog small) l (new_info n p (Rsa m))) (octets m) /\
  bits_and_octets (public_bits clog) (fold_left (read_public clog small) l (new_info n p (Rsa m))) (octets m).
Proof.
  intros A N C. split; apply octets_from.
  - rewrite (proj1 (seen_private_bits clog _ _ _ _ (private_reads clog small n p (Rsa m) l))). now apply new_rsa_private.
  - rewrite (proj1 (seen_public_bits clog _ _ _ _ (public_reads clog small n p (Rsa m) l))). now apply new_rsa_public.
Qed.
Lemma dsa_sizes clog small p q x l : accurate clog -> clear p ->
  bits_and_octets (private_bits clog) (fold_left (read_private clog small) l (new_info (tx "dsa") (Dsa p q) x)) (octets p) /\
  bits_and_octets (public_bits clog) (fold_left (read_public clog small) l (new_info (tx "dsa") (Dsa p q) x)) (octets p).
Proof.
  intros A C. split; apply octets_from.
  - rewrite (proj1 (seen_private_bits clog _ _ _ _ (private_reads clog small _ _ x l))). now apply new_dsa_private.
  - rewrite (proj1 (seen_public_bits clog _ _ _ _ (public_reads clog small _ _ x l))). now apply new_dsa_public.
Qed.
Lemma point_sizes clog small n b p l : uncompressed n b ->
  bits_and_octets (public_bits clog) (fold_left (read_public clog small) l (new_info (tx "ec") p (Point b))) n.
Proof.
  intro U. apply octets_from. rewrite (proj1 (seen_public_bits clog _ _ _ _ (public_reads clog small _ _ _ l))). now apply new_point.
Qed.

(* ---- hash_algo ---- *)
Lemma hash_clear small q bits h : accurate_small small -> q_digest bits h ->
  2 ^ (bits - 1) <= q <= 2 ^ bits - 2 ^ (bits - 29) -> hash_of small q = Ok h.
Proof.
  intros A D B. assert (K : 160 <= bits <= 256) by (destruct D as [[-> _]|[[-> _]|[-> _]]]; lia).
  assert (P : 0 < 2 ^ (bits - 1)) by (apply Z.pow_pos_nonneg; lia).
  unfold hash_of. destruct (q <=? 0) eqn:E; [lia|].
  assert (N : 2 * Z.abs (to_double q - q) <= 2 ^ (bits - 53)).
  { destruct (double_near q (bits - 1) ltac:(lia)) as [[F _]|[_ N]]; [|lia|].
    - replace (bits - 1 + 1) with bits by lia. assert (0 < 2 ^ (bits - 29)) by (apply Z.pow_pos_nonneg; lia). lia.
    - replace (bits - 53) with (bits - 1 - 52) by lia. exact N. }
  assert (R : 0 < to_double q < 2 ^ 20000).
  { assert (2 ^ (bits - 53) <= 2 ^ (bits - 1)) by (apply Z.pow_le_mono_r; lia).
    assert (2 ^ (bits - 1) <= 2 ^ 255) by (apply Z.pow_le_mono_r; lia). assert (2 ^ bits <= 2 ^ 256) by (apply Z.pow_le_mono_r; lia).
    assert (0 < 2 ^ (bits - 29)) by (apply Z.pow_pos_nonneg; lia).
    assert (2 ^ 256 + 2 ^ 255 < 2 ^ 258) by (vm_compute; reflexivity). assert (2 ^ 258 < 2 ^ 20000) by (apply Z.pow_lt_mono_r; lia). lia. }
  destruct (A _ R) as [S L].
  destruct D as [[-> ->]|[[-> ->]|[-> ->]]].
  - rewrite S; [reflexivity|]. assert (2 ^ (160 - 29) = 2 * 2 ^ 130) by (vm_compute; reflexivity).
    assert (2 ^ (160 - 53) <= 2 ^ 130) by (vm_compute; discriminate). lia.
  - rewrite L; [reflexivity|]. assert (2 ^ (224 - 53) + 2 ^ 160 + 2 ^ 130 <= 2 ^ (224 - 1)) by (vm_compute; discriminate). lia.
  - rewrite L; [reflexivity|]. assert (2 ^ (256 - 53) + 2 ^ 160 + 2 ^ 130 <= 2 ^ (256 - 1)) by (vm_compute; discriminate). lia.
Qed.
Lemma dsa_hash clog small p q x l bits h : accurate_small small -> q_digest bits h ->
  2 ^ (bits - 1) <= q <= 2 ^ bits - 2 ^ (bits - 29) ->
  snd (private_hash small (fold_left (read_private clog small) l (new_info (tx "dsa") (Dsa p q) x))) = Ok (Some h) /\
  snd (public_hash small (fold_left (read_public clog small) l (new_info (tx "dsa") (Dsa p q) x))) = Ok (Some h).
Proof.
  intros A D B. pose proof (hash_clear small q bits h A D B) as H. split.
  - rewrite (proj2 (seen_private_hash small _ _ _ _ _ (private_reads clog small _ _ x l))).
    unfold private_hash, new_info. cbn [algorithm q_algorithm q_name q_params]. names. now rewrite H.
  - rewrite (proj2 (seen_public_hash small _ _ _ _ _ (public_reads clog small _ _ x l))).
    unfold public_hash, new_info. cbn [algorithm q_algorithm q_name q_params]. names. now rewrite H.
Qed.
Lemma name_neq n s : n <> tx s -> is_name n s = false.
Proof. intro N. unfold is_name. destruct (eqb_text n (tx s)) eqn:E; [|reflexivity]. apply text_ok in E. contradiction. Qed.
Lemma other_accessors clog small n p x l :
  (n <> tx "dsa" ->
    snd (private_hash small (fold_left (read_private clog small) l (new_info n p x))) = Err ValueError /\
    snd (public_hash small (fold_left (read_public clog small) l (new_info n p x))) = Err ValueError) /\
  (n <> tx "ec" ->
    snd (curve (fold_left (read_private clog small) l (new_info n p x))) = Err ValueError /\
    snd (curve (fold_left (read_public clog small) l (new_info n p x))) = Err ValueError) /\
  (n = tx "ec" -> forall d, p = Curve d ->
    snd (curve (fold_left (read_private clog small) l (new_info n p x))) = Ok d /\
    snd (curve (fold_left (read_public clog small) l (new_info n p x))) = Ok d) /\
  (snd (algorithm (fold_left (read_private clog small) l (new_info n p x))) = n /\
   snd (algorithm (fold_left (read_public clog small) l (new_info n p x))) = n).
Proof.
  pose proof (private_reads clog small n p x l) as S. pose proof (public_reads clog small n p x l) as U.
  split; [|split; [|split]].
  - intro N. rewrite (proj2 (seen_private_hash small _ _ _ _ _ S)), (proj2 (seen_public_hash small _ _ _ _ _ U)).
    unfold private_hash, public_hash, new_info. cbn [algorithm q_algorithm q_name q_params snd]. rewrite (name_neq n "dsa" N). auto.
  - intro N. rewrite (proj2 (seen_curve _ _ _ _ _ S)), (proj2 (seen_curve _ _ _ _ _ U)).
    unfold curve, new_info. cbn [algorithm q_algorithm q_name q_params snd]. rewrite (name_neq n "ec" N). auto.
  - intros -> d ->. rewrite (proj2 (seen_curve _ _ _ _ _ S)), (proj2 (seen_curve _ _ _ _ _ U)). auto.
  - split; [apply (seen_algorithm _ _ _ _ _ S)|apply (seen_algorithm _ _ _ _ _ U)].
Qed.

(* ---- q_byte_size ---- *)
Lemma byte_size q c : 0 < q -> der_int q c -> q_byte_size c = octets q.
Proof.
  intros Q (B & N & T & M). destruct c as [|a c]; [contradiction|]. inversion B as [|? ? Ba Bc]; subst. unfold byte_ok in Ba.
  unfold q_byte_size. change (slice (a :: c) 0 1) with [a]. cbn [eqb_bytes].
  cbn [twos_value] in *. pose proof (be_value_bound _ Bc) as V.
  assert (W : 0 < 256 ^ len c) by (apply Z.pow_pos_nonneg; [lia|apply len_nonneg]).
  assert (A : a < 128) by (destruct (a <? 128) eqn:E; [lia|nia]).
  replace (a <? 128) with true in * by lia.
  destruct (a =? 0) eqn:E; cbn [andb].
  - apply Z.eqb_eq in E. subst a. rewrite slice_len by (rewrite ?len_cons; pose proof (len_nonneg c); lia). rewrite len_cons.
    replace (1 + len c - 1) with (len c) by lia. symmetry. apply octets_bounds.
    + destruct c; [cbn in *; lia|]. rewrite len_cons. pose proof (len_nonneg c). lia.
    + destruct c as [|b c]; [cbn in *; lia|]. inversion Bc as [|? ? Bb Bc']; subst. unfold byte_ok in Bb.
      destruct M as [M _]. assert (128 <= b) by lia. right. rewrite len_cons. replace (1 + len c - 1) with (len c) by lia.
      cbn [be_value] in *. pose proof (be_value_bound _ Bc'). assert (0 < 256 ^ len c) by (apply Z.pow_pos_nonneg; [lia|apply len_nonneg]). nia.
    + lia.
  - rewrite len_cons. symmetry. apply octets_bounds.
    + pose proof (len_nonneg c). lia.
    + right. replace (1 + len c - 1) with (len c) by lia. nia.
    + rewrite Z.pow_add_r by (try apply len_nonneg; lia). nia.
Qed.

(* ---- the type of the key ---- *)
Section Structure.
  Variable V : Type.
  Variable fields : list field.
  Variable build : option text -> part -> res V.
  Variable algorithm_of : V -> res text.
  Variable absent : V.
  Variable encode : V -> res bytes.
  Notation fill := (fill V build algorithm_of absent).
  Notation children := (children V fields build algorithm_of absent).
  Notation get := (get V fields build algorithm_of absent).
  Notation size := (size V fields build algorithm_of absent).
  Notation dump_info := (dump_info V fields build algorithm_of absent encode).
  Notation looks := (looks V fields build algorithm_of absent encode).
  Notation all_there := (all_there).

  Variable st : stream.
  Variable b : bytes.
  Definition settled (i : info) : Prop := i_stream i = st /\ i_octets i = b /\
    (i_children i = None \/ exists cs, fill fields st [] = (cs, Ok tt) /\ i_children i = Some cs).
  Definition fails_well : Prop := forall cs e, fill fields st [] = (cs, Err e) -> caught e = true.

  Lemma settled_children i : fails_well -> settled i -> settled (fst (children i)) /\
    snd (children i) = match fill fields st [] with (cs, Ok tt) => Ok cs | (_, Err e) => Err e end.
  Proof.
    intros W S. pose proof S as (A & B & C). unfold InfoModel.children. destruct C as [C|(cs & F & C)]; rewrite C.
    - unfold parse_children. rewrite A. destruct (fill fields st []) as [cs [[]|e]] eqn:F; cbn [fst snd].
      + cbn [i_children]. split; [|reflexivity]. unfold settled. cbn [i_stream i_octets i_children]. rewrite F. eauto 6.
      + rewrite (W _ _ F). cbn. split; [|reflexivity]. unfold settled. cbn. auto.
    - rewrite F. cbn. auto.
  Qed.
  Lemma settled_looks l : fails_well -> settled (looks (loaded_info st b) l).
  Proof.
    intro W. assert (G : forall l i, settled i -> settled (looks i l)).
    { clear l. induction l as [|x l IH]; intros i S; [exact S|]. unfold InfoModel.looks. cbn [fold_left]. apply IH.
      destruct (settled_children i W S) as [T _]. destruct x; cbn [looked].
      - unfold InfoModel.get. destruct (children i) as [i' [cs|e]]; exact T.
      - unfold InfoModel.size. destruct (children i) as [i' [cs|e]]; exact T.
      - unfold InfoModel.dump_info. exact S. }
    apply G. unfold settled, loaded_info. cbn. auto.
  Qed.
  Lemma reads_agree l : (forall e, snd (size (loaded_info st b)) = Err e -> caught e = true) ->
    (forall n, snd (get (looks (loaded_info st b) l) n) = snd (get (loaded_info st b) n)) /\
    snd (size (looks (loaded_info st b) l)) = snd (size (loaded_info st b)).
  Proof.
    intro W'. assert (W : fails_well).
    { intros cs e F. apply W'. unfold InfoModel.size, InfoModel.children, parse_children, loaded_info. cbn [i_children i_stream i_octets].
      rewrite F. reflexivity. }
    destruct (settled_children _ W (settled_looks l W)) as [_ E].
    assert (S0 : settled (loaded_info st b)) by (unfold settled, loaded_info; cbn; auto).
    destruct (settled_children _ W S0) as [_ E0]. split.
    - intro n. unfold InfoModel.get. destruct (children (looks (loaded_info st b) l)) as [i r], (children (loaded_info st b)) as [i0 r0].
      cbn [snd] in *. subst r r0. destruct (fill fields st []) as [cs [[]|e]]; reflexivity.
    - unfold InfoModel.size. destruct (children (looks (loaded_info st b) l)) as [i r], (children (loaded_info st b)) as [i0 r0].
      cbn [snd] in *. subst r r0. destruct (fill fields st []) as [cs [[]|e]]; reflexivity.
  Qed.
  Lemma known_reads cs l : fill fields st [] = (cs, Ok tt) ->
    (forall n, snd (get (looks (loaded_info st b) l) n) = nth_child V build absent cs n) /\
    snd (size (looks (loaded_info st b) l)) = Ok (len cs) /\
    (InfoModel.all_there 0 fields cs = Ok tt -> snd (dump_info (looks (loaded_info st b) l) false) = Ok b) /\
    snd (dump_info (looks (loaded_info st b) l) true) =
      (do e <- encode_all V build absent encode 0 (length fields) cs; do _ <- InfoModel.all_there 0 fields cs; Ok e).
  Proof.
    intro F. assert (W : fails_well) by (intros c e F'; rewrite F in F'; discriminate).
    pose proof (settled_looks l W) as S. destruct (settled_children _ W S) as [T E]. rewrite F in E.
    split; [|split; [|split]].
    - intro n. unfold InfoModel.get. destruct (children (looks (loaded_info st b) l)) as [i r]. cbn [snd] in *. now subst r.
    - unfold InfoModel.size. destruct (children (looks (loaded_info st b) l)) as [i r]. cbn [snd] in *. now subst r.
    - intro A. unfold InfoModel.dump_info. cbn [snd]. destruct S as (_ & B & [C|(cs' & F' & C)]); rewrite C, B; [reflexivity|].
      assert (cs' = cs) by congruence. subst. now rewrite A.
    - unfold InfoModel.dump_info. destruct (children (looks (loaded_info st b) l)) as [i r] eqn:R. cbn [fst snd] in *. subst r.
      destruct T as (X & Y & Z0). destruct (encode_all V build absent encode 0 (length fields) cs) as [e|e]; [|reflexivity].
      cbn [snd i_children i_octets bind].
      unfold InfoModel.children in R. destruct Z0 as [C|(cs' & F' & C)]; rewrite C.
      + exfalso. destruct (i_children (looks (loaded_info st b) l)) eqn:Q.
        * injection R as <- <-. congruence.
        * unfold parse_children in R. destruct S as (S1 & _). rewrite S1, F in R. cbn in R. injection R as <-. discriminate.
      + assert (cs' = cs) by congruence. subst. reflexivity.
  Qed.
End Structure.

Lemma dget_in' (m : list (text * text)) k v : is_dict m -> In (k, v) m -> dget eqb_text m k = Some v.
Proof. intros D I. exact (in_dget eqb_text text_ok m k v D I). Qed.

Lemma public_known V build algorithm_of absent encode a k b v n s l :
  build (Some (tx "PublicKeyAlgorithm")) a = Ok v -> algorithm_of v = Ok n -> dget eqb_text public_specs n = Some s ->
  let i := looks V public_fields build algorithm_of absent encode (loaded_info (Part a (Part k End)) b) l in
  snd (get V public_fields build algorithm_of absent i 0) = Ok v /\
  snd (get V public_fields build algorithm_of absent i 1) = build (Some s) k /\
  snd (size V public_fields build algorithm_of absent i) = Ok 2 /\
  snd (dump_info V public_fields build algorithm_of absent encode i false) = Ok b.
Proof.
  intros B N S i. assert (F : fill V build algorithm_of absent public_fields (Part a (Part k End)) [] =
    ([Child a (Some (tx "PublicKeyAlgorithm")); Child k (Some s)], Ok tt)).
  { unfold public_fields. cbn [fill determine f_spec f_optional app nth_child nth_error]. unfold nth_child. cbn [nth_error app].
    rewrite B. cbn [bind]. rewrite N. cbn [bind]. rewrite S. reflexivity. }
  destruct (known_reads V public_fields build algorithm_of absent encode _ b _ l F) as (G & Z0 & D & _).
  fold i in G, Z0, D. rewrite !G, Z0. cbn [nth_child nth_error]. unfold nth_child. cbn [nth_error].
  repeat split; auto.
Qed.
Lemma private_known V build algorithm_of absent encode x a k b v n s l rest t :
  build (Some (tx "PrivateKeyAlgorithm")) a = Ok v -> algorithm_of v = Ok n -> dget eqb_text private_specs n = Some s ->
  (rest = End /\ t = None \/ exists p, rest = Part p End /\ p_class p = 2 /\ p_tag p = 0 /\ t = Some p) ->
  let i := looks V private_fields build algorithm_of absent encode (loaded_info (Part x (Part a (Part k rest))) b) l in
  let get := get V private_fields build algorithm_of absent in
  snd (get i 0%nat) = build (Some (tx "Integer")) x /\ snd (get i 1%nat) = Ok v /\ snd (get i 2%nat) = build (Some s) k /\
  snd (get i 3%nat) = match t with Some p => build (Some (tx "Attributes")) p | None => Ok absent end /\
  snd (dump_info V private_fields build algorithm_of absent encode i false) = Ok b.
Proof.
  intros B N S T i.
  assert (F : fill V build algorithm_of absent private_fields (Part x (Part a (Part k rest))) [] =
    ([Child x (Some (tx "Integer")); Child a (Some (tx "PrivateKeyAlgorithm")); Child k (Some s);
      match t with Some p => Child p (Some (tx "Attributes")) | None => Void end], Ok tt)).
  { unfold private_fields. cbn [fill determine f_spec f_optional app]. unfold nth_child. cbn [nth_error app].
    rewrite B. cbn [bind]. rewrite N. cbn [bind]. rewrite S.
    destruct T as [[-> ->]|(p & -> & C & D & ->)]; [reflexivity|]. cbn [fill determine f_spec f_optional app]. rewrite C, D. reflexivity. }
  destruct (known_reads V private_fields build algorithm_of absent encode _ b _ l F) as (G & Z0 & D & _).
  fold i in G, Z0, D. cbv zeta. rewrite !G. unfold nth_child. cbn [nth_error].
  split; [reflexivity|]. split; [exact B|]. split; [reflexivity|]. split; [destruct t; reflexivity|].
  apply D. destruct t; reflexivity.
Qed.

(* ---- which contents are accepted ---- *)
Section Accepts.
  Variable V : Type.
  Variable build : option text -> part -> res V.
  Variable algorithm_of : V -> res text.
  Variable absent : V.
  Notation fill := (fill V build algorithm_of absent).
  Notation size := (fun fields => size V fields build algorithm_of absent).
  Notation get := (fun fields => get V fields build algorithm_of absent).

  Lemma extra_of st l w : found st l w -> forall cs,
    extra st cs = if w then (cs ++ map (fun p => Child p None) l, Ok tt) else (cs ++ map (fun p => Child p None) l, Err ValueError).
  Proof.
    induction 1; intro cs; cbn [extra map]; rewrite ?app_nil_r; try reflexivity.
    rewrite IHfound. destruct b; rewrite <- app_assoc; reflexivity.
  Qed.
  Lemma size_of fields st b cs : fill fields st [] = (cs, Ok tt) -> snd (size fields (loaded_info st b)) = Ok (len cs).
  Proof. intro F. unfold InfoModel.size, children, parse_children. cbn [loaded_info i_children i_stream]. rewrite F. reflexivity. Qed.
  Lemma size_err fields st b cs e : fill fields st [] = (cs, Err e) -> snd (size fields (loaded_info st b)) = Err e.
  Proof. intro F. unfold InfoModel.size, children, parse_children. cbn [loaded_info i_children i_stream]. rewrite F. reflexivity. Qed.
  Lemma get_of fields st b cs n : fill fields st [] = (cs, Ok tt) -> snd (get fields (loaded_info st b) n) = nth_child V build absent cs n.
  Proof. intro F. unfold InfoModel.get, children, parse_children. cbn [loaded_info i_children i_stream]. rewrite F. reflexivity. Qed.
  Lemma len_extra (cs : list child) (l : list part) : len (cs ++ map (fun p => Child p None) l) = len cs + len l.
  Proof. unfold len. rewrite app_length, map_length. lia. Qed.

  Lemma public_accepts st l w b v n s : found st l w ->
    (forall a k r, l = a :: k :: r -> build (Some (tx "PublicKeyAlgorithm")) a = Ok v /\ algorithm_of v = Ok n /\ dget eqb_text public_specs n = Some s) ->
    snd (size public_fields (loaded_info st b)) = if w && (2 <=? len l) then Ok (len l) else Err ValueError.
  Proof.
    intros W K. inversion W as [|  |a l1 b1 st1 W1]; subst; [reflexivity|rewrite andb_false_l; reflexivity|].
    inversion W1 as [| |k l2 b2 st2 W2]; subst; [reflexivity|reflexivity|].
    destruct (K a k l2 eq_refl) as (B & N & S). pose proof (extra_of _ _ _ W2) as E.
    assert (F : fill public_fields (Part a (Part k st2)) [] = extra st2 [Child a (Some (tx "PublicKeyAlgorithm")); Child k (Some s)]).
    { unfold public_fields. cbn [InfoModel.fill determine f_spec f_optional app nth_child nth_error]. unfold nth_child. cbn [nth_error app].
      rewrite B. cbn [bind]. rewrite N. cbn [bind]. rewrite S. reflexivity. }
    rewrite E in F. destruct w.
    - rewrite (size_of _ _ _ _ F), len_extra. replace (2 <=? len (a :: k :: l2)) with true by (unfold len; cbn [length]; symmetry; apply Z.leb_le; lia).
      cbn [andb]. f_equal. unfold len. cbn [length]. lia.
    - rewrite (size_err _ _ _ _ _ F). reflexivity.
  Qed.
  Lemma private_accepts st l w b v n s : found st l w ->
    (forall x a k r, l = x :: a :: k :: r -> build (Some (tx "PrivateKeyAlgorithm")) a = Ok v /\ algorithm_of v = Ok n /\ dget eqb_text private_specs n = Some s) ->
    snd (size private_fields (loaded_info st b)) =
      if w && (3 <=? len l) then Ok (match l with
        | _ :: _ :: _ :: p :: _ => if (p_class p =? 2) && (p_tag p =? 0) then len l else len l + 1
        | _ => 4 end) else Err ValueError.
  Proof.
    intros W K. inversion W as [| |x l0 b0 st0 W0]; subst; [reflexivity|reflexivity|].
    inversion W0 as [| |a l1 b1 st1 W1]; subst; [reflexivity|reflexivity|].
    inversion W1 as [| |k l2 b2 st2 W2]; subst; [reflexivity|reflexivity|].
    destruct (K x a k l2 eq_refl) as (B & N & S).
    set (c3 := [Child x (Some (tx "Integer")); Child a (Some (tx "PrivateKeyAlgorithm")); Child k (Some s)]).
    assert (F : fill private_fields (Part x (Part a (Part k st2))) [] = fill [F (Fixed (tx "Attributes")) (Some (2, 0))] st2 c3).
    { unfold private_fields. cbn [InfoModel.fill determine f_spec f_optional app nth_child nth_error]. unfold nth_child. cbn [nth_error app].
      rewrite B. cbn [bind]. rewrite N. cbn [bind]. rewrite S. reflexivity. }
    replace (3 <=? len (x :: a :: k :: l2)) with true by (unfold len; cbn [length]; symmetry; apply Z.leb_le; lia). rewrite andb_true_r.
    inversion W2 as [| |p l3 b3 st3 W3]; subst.
    - cbn [InfoModel.fill missing f_optional] in F. rewrite (size_of _ _ _ _ F). reflexivity.
    - cbn [InfoModel.fill] in F. rewrite (size_err _ _ _ _ _ F). reflexivity.
    - cbn [InfoModel.fill determine f_spec f_optional] in F. rewrite (Z.eqb_sym 2), (Z.eqb_sym 0) in F.
      destruct ((p_class p =? 2) && (p_tag p =? 0)).
      + rewrite (extra_of _ _ _ W3) in F. destruct w; [rewrite (size_of _ _ _ _ F), len_extra|rewrite (size_err _ _ _ _ _ F); reflexivity].
        f_equal. unfold len. cbn [length app c3]. lia.
      + rewrite (extra_of _ _ _ W2) in F. destruct w; [rewrite (size_of _ _ _ _ F), len_extra|rewrite (size_err _ _ _ _ _ F); reflexivity].
        f_equal. unfold len. cbn [length app c3]. lia.
  Qed.
  (* a fourth part that is not the attributes is no field *)
  Lemma private_other st l b v n s x a k p : found st (x :: a :: k :: p :: l) true ->
    build (Some (tx "PrivateKeyAlgorithm")) a = Ok v -> algorithm_of v = Ok n -> dget eqb_text private_specs n = Some s ->
    (p_class p <> 2 \/ p_tag p <> 0) ->
    snd (get private_fields (loaded_info st b) 2%nat) = build (Some s) k /\
    snd (get private_fields (loaded_info st b) 3%nat) = Ok absent /\
    snd (get private_fields (loaded_info st b) 4%nat) = build None p.
  Proof.
    intros W B N S T. inversion W as [| |x' l0 b0 st0 W0]; subst. inversion W0 as [| |a' l1 b1 st1 W1]; subst.
    inversion W1 as [| |k' l2 b2 st2 W2]; subst.
    inversion W2 as [| |p' l3 b3 st3 W3]; subst.
    assert (F : fill private_fields (Part x (Part a (Part k (Part p st3)))) [] =
      extra (Part p st3) [Child x (Some (tx "Integer")); Child a (Some (tx "PrivateKeyAlgorithm")); Child k (Some s); Void]).
    { unfold private_fields. cbn [InfoModel.fill determine f_spec f_optional app nth_child nth_error]. unfold nth_child. cbn [nth_error app].
      rewrite B. cbn [bind]. rewrite N. cbn [bind]. rewrite S.
      assert (E : (2 =? p_class p) && (0 =? p_tag p) = false) by (apply andb_false_iff; rewrite !Z.eqb_neq; intuition congruence).
      rewrite E. reflexivity. }
    rewrite (extra_of _ _ _ W2) in F. rewrite !(get_of _ _ _ _ _ F). repeat split; reflexivity.
  Qed.
End Accepts.
