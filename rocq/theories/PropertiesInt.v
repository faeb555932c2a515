(* C01, C02: integer <-> byte string helpers (asn1crypto.util, _int). *)
Require Import Verif.Base Verif.IntModel Verif.IntSpec Verif.IntProofs.

(* C01 *)
Theorem C01_signed_codec_exact_and_shortest (v : Z) : exists l,
  int_to_bytes v true None = Ok l /\ bytes_ok l /\ l <> [] /\ int_from_bytes l true = v /\
  (forall l', bytes_ok l' -> l' <> [] -> int_from_bytes l' true = v ->
     (length l <= length l')%nat /\ (length l' = length l -> l' = l)).
Proof. exact (int_signed_roundtrip v). Qed.
Print Assumptions C01_signed_codec_exact_and_shortest.

(* the decoder is the two's complement value of X.690 8.3.3 *)
Theorem C01_signed_decoder_is_twos_complement (l : bytes) : bytes_ok l ->
  int_from_bytes l true = twos_value l.
Proof. exact (int_from_bytes_signed l). Qed.
Print Assumptions C01_signed_decoder_is_twos_complement.

Example C01_ex : int_to_bytes (-129) true None = Ok [255; 127] /\ int_to_bytes 128 true None = Ok [0; 128]
  /\ int_to_bytes (-128) true None = Ok [128] /\ int_from_bytes [255; 127] true = -129.
Proof. vm_compute. auto. Qed.

(* C01 for the Python 2 branch of util.int_to_bytes is false. *)
Theorem C01_py2_signed_codec_refuted : exists v l,
  int_to_bytes_py2 v true None = Ok l /\ int_from_bytes_py2 l true <> v.
Proof. exists (-65535), [255; 1]. vm_compute. split; [reflexivity|discriminate]. Qed.
Print Assumptions C01_py2_signed_codec_refuted.

Theorem C01_py2_decoder_agrees (l : bytes) (s : bool) : int_from_bytes_py2 l s = int_from_bytes l s.
Proof. exact (py2_from_agrees l s). Qed.
Print Assumptions C01_py2_decoder_agrees.

(* C02 *)
Theorem C02_fixed_width (v w : Z) : 0 <= v -> 0 <= w ->
  (v < 256 ^ w -> exists l, int_to_bytes v false (Some w) = Ok l /\ bytes_ok l /\ len l = w /\ be_value l = v) /\
  (256 ^ w <= v -> int_to_bytes v false (Some w) = Err OverflowError).
Proof. exact (int_to_bytes_width v w). Qed.
Print Assumptions C02_fixed_width.

Theorem C02_unsigned_shortest (v : Z) : 0 <= v -> exists l,
  int_to_bytes v false None = Ok l /\ bytes_ok l /\ l <> [] /\ int_from_bytes l false = v /\
  (forall l', bytes_ok l' -> l' <> [] -> int_from_bytes l' false = v ->
     (length l <= length l')%nat /\ (length l' = length l -> l' = l)).
Proof. exact (int_unsigned_roundtrip v). Qed.
Print Assumptions C02_unsigned_shortest.

Theorem C02_negative_unsigned_overflows (v : Z) (w : option Z) : v < 0 ->
  (match w with Some w => 0 <= w | None => True end) -> int_to_bytes v false w = Err OverflowError.
Proof. exact (int_to_bytes_negative v w). Qed.
Print Assumptions C02_negative_unsigned_overflows.

Theorem C02_signed_fixed_width (v w : Z) : 1 <= w ->
  (- 2 ^ (8 * w - 1) <= v < 2 ^ (8 * w - 1) ->
     exists l, int_to_bytes v true (Some w) = Ok l /\ bytes_ok l /\ len l = w /\ twos_value l = v) /\
  (~ (- 2 ^ (8 * w - 1) <= v < 2 ^ (8 * w - 1)) -> int_to_bytes v true (Some w) = Err OverflowError).
Proof. exact (int_to_bytes_signed_width v w). Qed.
Print Assumptions C02_signed_fixed_width.

Theorem C02_py2_unsigned_agrees (v : Z) (w : option Z) : 0 <= v ->
  (match w with Some w => 0 <= w | None => True end) ->
  int_to_bytes_py2 v false w = int_to_bytes v false w.
Proof. exact (py2_unsigned_agrees v w). Qed.
Print Assumptions C02_py2_unsigned_agrees.

(* the Python 2 branch does not check the range of negative values *)
Theorem C02_py2_signed_fixed_width_refuted : exists v w l,
  1 <= w /\ ~ (- 2 ^ (8 * w - 1) <= v < 2 ^ (8 * w - 1)) /\ int_to_bytes_py2 v true (Some w) = Ok l.
Proof. exists (-129), 1, [127]. vm_compute. repeat split; intuition discriminate. Qed.
Print Assumptions C02_py2_signed_fixed_width_refuted.

Theorem C02_fill_width (l : bytes) (w : Z) : bytes_ok l ->
  bytes_ok (fill_width l w) /\ be_value (fill_width l w) = be_value l /\ len (fill_width l w) = Z.max w (len l).
Proof. exact (fill_width_props l w). Qed.
Print Assumptions C02_fill_width.

Example C02_ex : int_to_bytes 65535 false (Some 3) = Ok [0; 255; 255]
  /\ int_to_bytes 65536 false (Some 2) = Err OverflowError
  /\ int_to_bytes 0 false None = Ok [0] /\ fill_width [7] 3 = [0; 0; 7].
Proof. vm_compute. auto. Qed.
