(* Values one after the other: how the octets are cut, and what happens to each value. *)
Require Import Verif.Base Verif.PrimModel Verif.ContModel Verif.ContPath Verif.ContHistSpec Verif.ConcatModel.

Section Spec.
  Variable cls : nat -> spec.

  (* each class takes one piece, from the left; when the pieces are used up, the remaining
     children are objects without a value *)
  Inductive cut : list nat -> list bytes -> list child -> Prop :=
  | cut_none : cut [] [] []
  | cut_piece n p v l ps cs : p <> [] -> cload (cls n) no_params p true = Ok v -> cut l ps cs -> cut (n :: l) (p :: ps) ((n, v) :: cs)
  | cut_missing n v l cs : x_make (methods (cls n)) no_params None ANone = Ok v -> cut l [] cs -> cut (n :: l) [] ((n, v) :: cs).

  (* what becomes of the child at position k *)
  Fixpoint share (k : nat) (h : list kdeed) (c : child) : child :=
    match h with
    | [] => c
    | KSet key (IObj c') :: r => share k r (if key =? Z.of_nat k then c' else c)
    | KSet _ IOther :: r => share k r c
    | KOn j l :: r => share k r (if Nat.eqb j k then (fst c, after (cls (fst c)) l (snd c)) else c)
    | KDump f :: r => share k r (fst c, after (cls (fst c)) [([], ADump f)] (snd c))
    end.
  (* no dump on the way raises an exception *)
  Definition dumps_fine (specs : list nat) (h : list kdeed) (o : concat_obj) : Prop :=
    forall g f r, h = g ++ KDump f :: r -> exists b, snd (co_dump cls f (kafter cls specs g o)) = Ok b.
End Spec.
