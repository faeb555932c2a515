(* Independent specification of positional notation. *)
Require Import Verif.Base.

(* big-endian value: the first byte weighs 256^(n-1) *)
Fixpoint be_value (l : bytes) : Z :=
  match l with
  | [] => 0
  | b :: t => b * 256 ^ len t + be_value t
  end.

(* two's complement: the first byte is weighed as a signed byte *)
Definition twos_value (l : bytes) : Z :=
  match l with
  | [] => 0
  | b :: t => (if b <? 128 then b else b - 256) * 256 ^ len t + be_value t
  end.
