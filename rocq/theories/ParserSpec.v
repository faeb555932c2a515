(* Independent specification of BER encodings, after ITU-T X.690 section 8.1:
   a grammar of (identifier octets, length octets, contents, end-of-contents). *)
Require Import Verif.Base Verif.IntSpec.

(* value of base-128 digits, most significant first *)
Fixpoint b128_value (l : list Z) : Z :=
  match l with
  | [] => 0
  | d :: t => d * 128 ^ len t + b128_value t
  end.

(* X.690 8.1.2.4.2: subsequent identifier octets of a tag number *)
Definition b128_octets (t : Z) (l : bytes) : Prop :=
  exists hi lo,
    l = map (fun d => 128 + d) hi ++ [lo] /\
    Forall (fun d => 0 <= d < 128) (hi ++ [lo]) /\
    (match hi with [] => True | d :: _ => d <> 0 end) /\
    b128_value (hi ++ [lo]) = t.

(* X.690 8.1.2: identifier octets *)
Inductive ident (c m t : Z) : bytes -> Prop :=
| ident_low : 0 <= c <= 3 -> 0 <= m <= 1 -> 0 <= t < 31 ->
    ident c m t [64 * c + 32 * m + t]
| ident_high l : 0 <= c <= 3 -> 0 <= m <= 1 -> 31 <= t -> b128_octets t l ->
    ident c m t ((64 * c + 32 * m + 31) :: l).

(* X.690 8.1.3.4, 8.1.3.5: definite length octets for n *)
Inductive def_length (n : Z) : bytes -> Prop :=
| short_len : 0 <= n < 128 -> def_length n [n]
| long_len l : bytes_ok l -> 1 <= len l <= 127 -> be_value l = n ->
    def_length n ((128 + len l) :: l).

(* One encoding, and a series of encodings none of which is the
   end-of-contents marker.  The index bounds the nesting of indefinite
   lengths. *)
Inductive ber : nat -> Z -> Z -> Z -> bytes -> bytes -> bytes -> Prop :=
| ber_definite n c m t i l x :
    ident c m t i -> def_length (len x) l ->
    ber (S n) c m t (i ++ l) x []
| ber_indefinite n c t i x :
    ident c 1 t i -> ber_series n x ->
    ber (S n) c 1 t (i ++ [128]) x [0; 0]
with ber_series : nat -> bytes -> Prop :=
| ber_nil n : ber_series n []
| ber_cons n c m t h x tr rest :
    ber n c m t h x tr -> h <> [0; 0] -> ber_series n rest ->
    ber_series n ((h ++ x ++ tr) ++ rest).

Scheme ber_mind := Induction for ber Sort Prop
with ber_series_mind := Induction for ber_series Sort Prop.
Combined Scheme ber_mutind from ber_mind, ber_series_mind.
