(* Names and addresses as RFC 5280 7.2 and 7.5 compares them. *)
Require Import Verif.Base Verif.Text.

Definition ascii_text (s : text) : Prop := Forall (fun c => 0 <= c < 128) s.
(* letters that differ in case only *)
Inductive same_letter : Z -> Z -> Prop :=
| same_itself c : same_letter c c
| same_upper c : 65 <= c <= 90 -> same_letter c (c + 32)
| same_lower c : 65 <= c <= 90 -> same_letter (c + 32) c.
Definition same_name (a b : text) : Prop := Forall2 same_letter a b.
(* mailbox: the part before the last @ as it is, the host without regard to case *)
Definition same_mailbox (a b : text) : Prop :=
  (exists m h h', a = m ++ 64 :: h /\ b = m ++ 64 :: h' /\ ~ In 64 h /\ ~ In 64 h' /\ same_name h h') \/
  (~ In 64 a /\ a = b).

(* a name without labels in the ASCII form of IDNA *)
Definition no_ace (s : text) : Prop := forall a b, s <> a ++ tx "xn--" ++ b.
Definition plain_name (s : text) : Prop := ascii_text s /\ no_ace s.
(* labels of 1 to 63 characters; the last may be empty *)
Definition label (w : text) : Prop := 0 < len w < 64 /\ ~ In 46 w.
Inductive host : text -> Prop :=
| host_last w : len w < 64 -> ~ In 46 w -> host w
| host_more w r : label w -> host r -> host (w ++ 46 :: r).
(* an address that a certificate may hold: ASCII, the host a plain name *)
Definition plain_mail (s : text) : Prop :=
  ascii_text s /\ forall m h, s = m ++ 64 :: h -> ~ In 64 h -> plain_name h /\ host h.

(* Windows-1252: octets and the characters they stand for; 0x81, 0x8d, 0x8f, 0x90 and 0x9d
   stand for none *)
Definition windows_list : list (Z * Z) :=
  [(0x80, 0x20ac); (0x82, 0x201a); (0x83, 0x0192); (0x84, 0x201e); (0x85, 0x2026); (0x86, 0x2020); (0x87, 0x2021);
   (0x88, 0x02c6); (0x89, 0x2030); (0x8a, 0x0160); (0x8b, 0x2039); (0x8c, 0x0152); (0x8e, 0x017d);
   (0x91, 0x2018); (0x92, 0x2019); (0x93, 0x201c); (0x94, 0x201d); (0x95, 0x2022); (0x96, 0x2013); (0x97, 0x2014);
   (0x98, 0x02dc); (0x99, 0x2122); (0x9a, 0x0161); (0x9b, 0x203a); (0x9c, 0x0153); (0x9e, 0x017e); (0x9f, 0x0178)].
Inductive windows : Z -> Z -> Prop :=
| windows_same b : 0 <= b < 128 \/ 160 <= b < 256 -> windows b b
| windows_listed b c : In (b, c) windows_list -> windows b c.
