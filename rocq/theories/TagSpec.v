(* DER encodings of tagged values, after X.690 8.1, 8.14 and 10.1. *)
Require Import Verif.Base Verif.IntSpec Verif.ParserSpec.

(* X.690 10.1: definite length octets, fewest possible *)
Inductive der_length (n : Z) : bytes -> Prop :=
| der_short : 0 <= n < 128 -> der_length n [n]
| der_long b l : 128 <= n -> bytes_ok (b :: l) -> b <> 0 -> len (b :: l) <= 126 -> be_value (b :: l) = n ->
    der_length n ((128 + len (b :: l)) :: b :: l).

(* one value: identifier octets, length octets, contents octets *)
Definition der_tlv (c m t : Z) (x d : bytes) : Prop :=
  exists i l, ident c m t i /\ der_length (len x) l /\ d = i ++ l ++ x.

(* X.690 8.14.2: explicit tags around an encoding, innermost first *)
Fixpoint der_wrapped (ex : list (Z * Z)) (inner d : bytes) : Prop :=
  match ex with
  | [] => d = inner
  | (c, t) :: r => exists mid, der_tlv c 1 t inner mid /\ der_wrapped r mid d
  end.

(* a primitive encoding with class c, tag t and the given contents in its wrappers *)
Definition der_tagged (c t : Z) (ex : list (Z * Z)) (x d : bytes) : Prop :=
  exists inner, der_tlv c 0 t x inner /\ der_wrapped ex inner d.

(* an encoding whose n outermost layers each hold one encoding and nothing else; b
   bounds the nesting of indefinite lengths *)
Inductive exact_ber (b : nat) : nat -> bytes -> Prop :=
| exact_plain c m t h x tr : ber b c m t h x tr -> exact_ber b 0 (h ++ x ++ tr)
| exact_wrap n c t h x tr : ber b c 1 t h x tr -> exact_ber b n x -> exact_ber b (S n) (h ++ x ++ tr).
