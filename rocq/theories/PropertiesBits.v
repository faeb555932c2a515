(* C14, C15, C16: bit strings and the octet / integer views. *)
Require Import Verif.Base Verif.BaseFacts Verif.Text Verif.IntSpec Verif.BitModel Verif.BitSpec Verif.BitProofs.

(* C14 *)
Theorem C14_bitstring_roundtrip (bits : list bool) : exists c,
  bitstring_encode None bits = Ok c /\ bytes_ok c /\ der_bits bits c /\
  exists ub, bitstring_decode c = Ok (bits, ub) /\ Forall (fun b => b = false) ub.
Proof. exact (bitstring_roundtrip bits). Qed.
Print Assumptions C14_bitstring_roundtrip.

Theorem C14_bitstring_injective (a b : list bool) (c : bytes) :
  bitstring_encode None a = Ok c -> bitstring_encode None b = Ok c -> a = b.
Proof. exact (bitstring_encode_inj a b c). Qed.
Print Assumptions C14_bitstring_injective.

(* which content octets load, and to which bits *)
Theorem C14_bitstring_decode_total (c : bytes) : bytes_ok c ->
  match c with
  | [] => bitstring_decode c = Err IndexError
  | u :: body =>
      if (u <=? 7) && ((u =? 0) || negb (len body =? 0)) then
        exists a b, octets_bits body = a ++ b /\ len b = u /\ bitstring_decode c = Ok (a, b)
      else bitstring_decode c = Err ValueError
  end.
Proof. exact (bit_decode_total c). Qed.
Print Assumptions C14_bitstring_decode_total.

Example C14_ex : bitstring_encode None [true; false; true; true; false; true; true; true; false; true]
    = Ok [6; 183; 64] /\
  bitstring_decode [6; 183; 64] = Ok ([true; false; true; true; false; true; true; true; false; true], repeat false 6)
  /\ bitstring_encode None [false; false] = Ok [6; 0] /\ bitstring_decode [8; 0] = Err ValueError.
Proof. vm_compute. repeat split. Qed.

(* C15 *)
Theorem C15_named_roundtrip (m : list (Z * text)) (s : list label) :
  NoDup (map fst m) -> Forall (fun p => 0 <= fst p) m ->
  (forall x, In x s -> exists i k, In (i, k) m /\ x = LName k) ->
  exists c s', named_encode m s = Ok c /\ named_decode m c = Ok s' /\ (forall x, In x s' <-> In x s) /\
    exists bits, der_bits bits c /\ no_trailing_zero bits.
Proof. exact (named_roundtrip m s). Qed.
Print Assumptions C15_named_roundtrip.

Theorem C15_depends_only_on_the_set (m : list (Z * text)) (s s' : list label) :
  (forall x, In x s <-> In x s') -> named_encode m s = named_encode m s'.
Proof. exact (named_encode_set m s s'). Qed.
Print Assumptions C15_depends_only_on_the_set.

Definition key_usage : list (Z * text) :=
  [(0, tx "digital_signature"); (1, tx "non_repudiation"); (5, tx "key_cert_sign"); (6, tx "crl_sign")].
Example C15_ex : NoDup (map fst key_usage) /\
  named_encode key_usage [LName (tx "crl_sign"); LName (tx "key_cert_sign")] = Ok [1; 6] /\
  named_decode key_usage [1; 6] = Ok [LName (tx "key_cert_sign"); LName (tx "crl_sign")] /\
  named_encode key_usage [] = Ok [0].
Proof. split; [repeat constructor; cbn; lia|]. vm_compute. repeat split. Qed.

(* C51: false, names that are not in the map are dropped without an error *)
Theorem C51_unknown_names_silently_dropped_refuted : exists m x c s',
  named_encode m [x] = Ok c /\ named_decode m c = Ok s' /\ ~ In x s'.
Proof.
  exists key_usage, (LName (tx "typo")), [0], []. vm_compute. repeat split. auto.
Qed.
Print Assumptions C51_unknown_names_silently_dropped_refuted.

(* C16 *)
Theorem C16_octet_bit_string_roundtrip (v : bytes) : octetbits_chunk (octetbits_encode v) = Ok (v, []).
Proof. exact (octetbits_roundtrip v). Qed.
Print Assumptions C16_octet_bit_string_roundtrip.

Theorem C16_integer_bit_string_roundtrip (v : Z) : 0 <= v -> exists c,
  intbits_encode v = Ok c /\ bytes_ok c /\ intbits_decode c = Ok v.
Proof. exact (intbits_roundtrip v). Qed.
Print Assumptions C16_integer_bit_string_roundtrip.

Theorem C16_negative_rejected (v : Z) (w : option Z) : v < 0 ->
  intbits_encode v = Err ValueError /\ intoctets_encode w v = Err ValueError.
Proof. exact (fun H => conj (intbits_negative v H) (intoctets_negative w v H)). Qed.
Print Assumptions C16_negative_rejected.

Theorem C16_integer_octet_string_roundtrip (w : option Z) (v : Z) : 0 <= v ->
  match w with
  | None => exists c, intoctets_encode w v = Ok c /\ bytes_ok c /\ intoctets_decode c = v
  | Some n => 0 <= n ->
      (v < 256 ^ n -> exists c, intoctets_encode w v = Ok c /\ bytes_ok c /\ len c = n /\ intoctets_decode c = v) /\
      (256 ^ n <= v -> intoctets_encode w v = Err OverflowError)
  end.
Proof. exact (intoctets_roundtrip w v). Qed.
Print Assumptions C16_integer_octet_string_roundtrip.

Example C16_ex : intbits_encode 200 = Ok [0; 0; 200] /\ intbits_decode [0; 0; 200] = Ok 200 /\
  intoctets_encode (Some 4) 258 = Ok [0; 0; 1; 2] /\ intoctets_decode [0; 0; 1; 2] = 258 /\
  intoctets_encode (Some 1) 258 = Err OverflowError /\ intbits_encode (-1) = Err ValueError /\
  octetbits_encode [1; 2] = [0; 1; 2].
Proof. vm_compute. repeat split. Qed.
