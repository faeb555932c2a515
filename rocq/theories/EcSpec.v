(* What EC point encodings (SEC 1, 2.3.3) and P1363 signatures are. *)
Require Import Verif.Base Verif.IntSpec.

(* the octets of z in a field of n octets *)
Definition field_octets (n z : Z) (l : bytes) : Prop := bytes_ok l /\ len l = n /\ be_value l = z.

(* two fields of n octets, one after the other *)
Definition two_fields (n a b : Z) (d : bytes) : Prop :=
  exists x y, d = x ++ y /\ field_octets n a x /\ field_octets n b y.

(* an uncompressed point with field elements of n octets *)
Definition uncompressed (n x y : Z) (d : bytes) : Prop := exists t, d = 4 :: t /\ two_fields n x y t.
