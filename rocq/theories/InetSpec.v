(* Text forms of IP addresses, after RFC 4291 (2.2) and RFC 5952. *)
Require Import Verif.Base Verif.Text Verif.IntSpec.

(* the eight 16-bit groups of an IPv6 address *)
Definition group_of (p : bytes) (i : nat) : Z := be_value (firstn 2 (skipn (2 * i) p)).
Definition groups_of (p : bytes) : list Z := map (group_of p) (seq 0 8).

(* a lower-case hexadecimal number without leading zeros *)
Definition hexc (c : Z) : Prop := 48 <= c <= 57 \/ 97 <= c <= 102.
Definition hexv (c : Z) : Z := if c <? 58 then c - 48 else c - 87.
Definition hex_value (s : text) : Z := fold_left (fun a c => a * 16 + hexv c) s 0.
Definition hex_of (s : text) (n : Z) : Prop :=
  Forall hexc s /\ s <> [] /\ hex_value s = n /\ (hd 0 s = 48 -> s = [48]).

(* numbers separated by colons *)
Definition colons (s : text) (g : list Z) : Prop := exists w, Forall2 hex_of w g /\ s = join_with 58 w.

(* a run of n zero groups from group z on *)
Definition zeros_at (g : list Z) (z n : nat) : Prop :=
  (z + n <= length g)%nat /\ firstn n (skipn z g) = repeat 0 n.
(* text form of eight groups: written out, or with one run of zero groups shown as :: *)
Definition ipv6_text (s : text) (g : list Z) : Prop :=
  length g = 8%nat /\
  (colons s g
   \/ exists z n a b, (1 <= n)%nat /\ zeros_at g z n /\ colons a (firstn z g) /\ colons b (skipn (z + n) g)
        /\ s = a ++ [58; 58] ++ b).
(* RFC 5952: the longest run of at least two, the first of them if there are several *)
Definition ipv6_canonical (s : text) (g : list Z) : Prop :=
  length g = 8%nat /\
  ((forall z, ~ zeros_at g z 2) /\ colons s g
   \/ exists z n a b, (2 <= n)%nat /\ zeros_at g z n
        /\ (forall z' n', zeros_at g z' n' -> (n' < n)%nat \/ n' = n /\ (z <= z')%nat)
        /\ colons a (firstn z g) /\ colons b (skipn (z + n) g) /\ s = a ++ [58; 58] ++ b).

(* :: neither at the start nor at the end *)
Definition inner_double (s : text) : Prop := firstn 2 s <> [58; 58] /\ forall t, s <> t ++ [58; 58].

(* the dotted form of four octets *)
Definition ipv4_text (s : text) (p : bytes) : Prop := len p = 4 /\ s = join_with 46 (map dec p).

(* the octets of a network mask: n one bits, then zero bits *)
Definition mask_of (n : Z) (m : bytes) : Prop :=
  bytes_ok m /\ be_value m = (2 ^ n - 1) * 2 ^ (8 * len m - n).

(* functions of a platform that write an address in a form they read back *)
Definition size_of (v6 : bool) : Z := if v6 then 16 else 4.
Definition platform (pton : bool -> text -> res bytes) (ntop : bool -> bytes -> res text) : Prop :=
  forall v6 p, bytes_ok p -> len p = size_of v6 ->
    exists s, ntop v6 p = Ok s /\ pton v6 s = Ok p /\ ~ In 47 s /\ (In 58 s <-> v6 = true).

(* an address, or an address and the length of its prefix, as text *)
Definition address_text (value addr : text) (prefix : option Z) : Prop :=
  ~ In 47 addr /\
  match prefix with
  | None => value = addr
  | Some n => exists t, value = addr ++ 47 :: t /\ py_int t = Ok n
  end.
(* the octets of RFC 5280 (4.2.1.6, 4.2.1.10): address, then mask *)
Definition address_octets (a : bytes) (prefix : option Z) (c : bytes) : Prop :=
  match prefix with
  | None => c = a
  | Some n => exists m, c = a ++ m /\ len m = len a /\ mask_of n m
  end.
