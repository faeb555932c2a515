(* Strings sent in segments: the constructed, indefinite-length form of X.690 8.6.4
   and 8.7.3, and what a reader must make of it. *)
Require Import Verif.Base Verif.ParserSpec Verif.BitSpec Verif.PrimModel.

(* The octets of a series of segments of class c with a tag satisfying ok, nested at
   most n deep, and the contents octets of its primitive segments from left to right.
   With e = false no constructed segment is empty. *)
Inductive segments (c : Z) (ok : Z -> Prop) (e : bool) : nat -> bytes -> list bytes -> Prop :=
| seg_nil n : segments c ok e n [] []
| seg_prim n t i l x rest xs :
    ok t -> ident c 0 t i -> def_length (len x) l -> i ++ l <> [0; 0] ->
    segments c ok e n rest xs -> segments c ok e n (((i ++ l) ++ x) ++ rest) (x :: xs)
| seg_nested n t i x rest ys xs :
    ok t -> ident c 1 t i -> e = true \/ ys <> [] ->
    segments c ok e n x ys -> segments c ok e (S n) rest xs ->
    segments c ok e (S n) (((i ++ [128]) ++ x ++ [0; 0]) ++ rest) (ys ++ xs).

(* what the segments stand for: the contents octets of the same value in one piece;
   in a bit string only the last segment may leave bits unused *)
Definition joined (k : kind) (xs : list bytes) (c : bytes) : Prop :=
  match k with
  | KBits _ | KIntBits | KOctetBits =>
      (xs = [] /\ c = [0]) \/
      exists bodies u last, xs = map (cons 0) bodies ++ [u :: last] /\ 0 <= u <= 7 /\ (u <> 0 -> last <> []) /\
        c = u :: concat bodies ++ last
  | _ => c = concat xs
  end.
