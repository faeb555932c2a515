(* C60: unused_bits of the bit string classes. *)
Require Import Verif.Base Verif.BitSpec Verif.TagSpec Verif.PrimModel Verif.PrimUnused.

Theorem C60_unused_bits (k : kind) (cls : pcls) (p : params) (d : bytes) (s : bool) (o : obj) (u : Z) (body : bytes) (n : nat) :
  bit_kind k -> bytes_ok d -> load k cls p d s = Ok o -> contents o = Some (u :: body) -> e_indef (o_enc o) = false ->
  u <= 7 -> (u <> 0 -> body <> []) ->
  exists a b, octets_bits body = a ++ b /\ len b = u /\ snd (get_unused k cls (read_times n k cls o)) = Ok b.
Proof. exact (unused_loaded k cls p d s o u body n). Qed.
Print Assumptions C60_unused_bits.

Example C60_ex : exists o, load KOctetBits (Cls 0 3 [] []) no_params [3; 3; 3; 255; 133] true = Ok o /\ contents o = Some [3; 255; 133] /\
  e_indef (o_enc o) = false /\ snd (get_unused KOctetBits (Cls 0 3 [] []) o) = Ok [true; false; true].
Proof. eexists. split; [vm_compute; reflexivity|]. repeat split; vm_compute; reflexivity. Qed.
