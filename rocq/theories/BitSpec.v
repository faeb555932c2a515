(* BIT STRING contents after X.690 section 8.6. *)
Require Import Verif.Base Verif.Text Verif.BitModel.

(* bits of an octet, most significant first *)
Definition octet_bits (b : Z) : list bool :=
  [Z.testbit b 7; Z.testbit b 6; Z.testbit b 5; Z.testbit b 4;
   Z.testbit b 3; Z.testbit b 2; Z.testbit b 1; Z.testbit b 0].

Definition octets_bits (l : bytes) : list bool := flat_map octet_bits l.

(* DER contents octets of a bit string: count of padding bits, then the bits
   followed by zero padding *)
Definition der_bits (bits : list bool) (c : bytes) : Prop :=
  exists u body, c = u :: body /\ bytes_ok body /\ 0 <= u <= 7 /\
    octets_bits body = bits ++ repeat false (Z.to_nat u).

(* X.690 11.2.2: no trailing zero bit *)
Definition no_trailing_zero (bits : list bool) : Prop := bits = [] \/ last bits false = true.
