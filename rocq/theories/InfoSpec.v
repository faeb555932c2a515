(* What the key structures should answer. *)
Require Import Verif.Base Verif.Text Verif.KeySpec Verif.InfoModel.
Require Coq.Strings.String.
Import Coq.Strings.String.StringSyntax.

(* the size of a number in bits, up to whole octets *)
Definition whole_bits (x : Z) : Z := 8 * octets x.

(* numbers that are not next to a power of two, as far as a logarithm can tell; those with
   30 up to 20000 bits *)
Definition clear (x : Z) : Prop :=
  exists k, 30 <= k <= 20000 /\ 2 ^ k + 2 ^ (k - 29) <= x <= 2 ^ (k + 1) - 2 ^ (k - 29).
(* what a logarithm in double precision gives for them, rounded up *)
Definition accurate (clog : Z -> Z) : Prop := forall k y, 30 <= k <= 20000 ->
  2 ^ k + 2 ^ (k - 30) <= y <= 2 ^ (k + 1) - 2 ^ (k - 30) -> clog y = k + 1.
(* the same divided by eight *)
Definition accurate_octets (oct : Z -> Z) : Prop := forall k y, 30 <= k <= 20000 ->
  2 ^ k + 2 ^ (k - 30) <= y <= 2 ^ (k + 1) - 2 ^ (k - 30) -> oct y = (k + 8) / 8.
(* and compared with 160 *)
Definition accurate_small (small : Z -> bool) : Prop := forall y, 0 < y < 2 ^ 20000 ->
  (y <= 2 ^ 160 - 2 ^ 130 -> small y = true) /\ (2 ^ 160 + 2 ^ 130 <= y -> small y = false).

(* FIPS 186-4, 4.2: 160 bits go with SHA-1, 224 and 256 with SHA-2 *)
Definition q_digest (bits : Z) (h : text) : Prop :=
  (bits = 160 /\ h = tx "sha1") \/ (bits = 224 /\ h = tx "sha2") \/ (bits = 256 /\ h = tx "sha2").

(* an uncompressed point (SEC 1, 2.3.3) of a field of n octets *)
Definition uncompressed (n : Z) (b : bytes) : Prop := exists x y, b = 4 :: x ++ y /\ len x = n /\ len y = n.
Definition compressed (n : Z) (b : bytes) : Prop := exists s x, b = s :: x /\ (s = 2 \/ s = 3) /\ len x = n.

(* the type of a key in each structure, by the identifier of its algorithm: RFC 3279 2.3,
   RFC 4055 1.2, RFC 5480 2.2, RFC 8410 4; RFC 5958 2, RFC 5915 3, RFC 8410 7 *)
Definition public_types : list (String.string * String.string) :=
  [("1.2.840.113549.1.1.1", "RSAPublicKey"); ("1.2.840.113549.1.1.7", "RSAPublicKey"); ("1.2.840.113549.1.1.10", "RSAPublicKey");
   ("1.2.840.10040.4.1", "Integer"); ("1.2.840.10046.2.1", "Integer"); ("1.2.840.10045.2.1", "ECPointBitString");
   ("1.3.101.110", "OctetBitString"); ("1.3.101.111", "OctetBitString"); ("1.3.101.112", "OctetBitString"); ("1.3.101.113", "OctetBitString")]%string.
Definition private_types : list (String.string * String.string) :=
  [("1.2.840.113549.1.1.1", "RSAPrivateKey"); ("1.2.840.113549.1.1.10", "RSAPrivateKey");
   ("1.2.840.10040.4.1", "Integer"); ("1.2.840.10045.2.1", "ECPrivateKey");
   ("1.3.101.110", "OctetString"); ("1.3.101.111", "OctetString"); ("1.3.101.112", "OctetString"); ("1.3.101.113", "OctetString")]%string.

(* the parts of a structure, and whether they reach the end of its contents *)
Inductive found : stream -> list part -> bool -> Prop :=
| found_end : found End [] true
| found_bad : found Bad [] false
| found_part p l b st : found st l b -> found (Part p st) (p :: l) b.
