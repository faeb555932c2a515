(* Object identifiers after X.660 / X.690 section 8.19. *)
Require Import Verif.Base Verif.ParserSpec Verif.Text.

Definition legal_oid (arcs : list Z) : Prop :=
  match arcs with
  | a0 :: a1 :: rest => 0 <= a0 <= 2 /\ 0 <= a1 /\ (a0 < 2 -> a1 < 40) /\ Forall (fun a => 0 <= a) rest
  | _ => False
  end.

(* X.690 8.19.4: the first two arcs are combined *)
Definition subidentifiers (arcs : list Z) : list Z :=
  match arcs with
  | a0 :: a1 :: rest => 40 * a0 + a1 :: rest
  | _ => []
  end.

(* X.690 8.19.2: each sub-identifier in base 128, fewest octets *)
Inductive oid_octets : list Z -> bytes -> Prop :=
| oid_nil : oid_octets [] []
| oid_cons s l r c : b128_octets s l -> oid_octets r c -> oid_octets (s :: r) (l ++ c).

(* the dotted decimal notation *)
Definition dotted_text (arcs : list Z) : text := join_with 46 (map dec arcs).
