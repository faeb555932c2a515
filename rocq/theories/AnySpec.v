(* What is expected of an Any: it stands for the object inside it. *)
Require Import Verif.Base Verif.ParserModel Verif.ParserSpec Verif.ParserProofs Verif.TagSpec Verif.PrimModel Verif.PrimSpec Verif.ContModel Verif.ContSpec
  Verif.ContPath Verif.ContHistSpec Verif.BerSpec Verif.AnyModel.

(* d is the encoding of something inside explicit tags *)
Definition something (ex : list (Z * Z)) (d : bytes) : Prop :=
  exists i, ber_info max_budget i /\ d = encoding_of i /\ within (rev ex) (fun _ => True) i.

(* what an operation on the Any is for the object inside *)
Definition inside (d : adeed) : list deed :=
  match d with
  | YParse _ _ | YParsed => []
  | YNative => [([], ARead)]
  | YDump f => [([], ADump f)]
  | YInner l => l
  end.
Definition insides (h : list adeed) : list deed := flat_map inside h.
(* operations that keep the object inside *)
Definition keeps (d : adeed) : bool := match d with YParse _ _ => false | _ => true end.
(* operations that change nothing *)
Definition watching (d : adeed) : bool := match d with YInner l => forallb (fun x => reading (snd x)) l | _ => true end.

(* the Any stands for the value a of class n: what is read from it after any history agrees
   with the value the history leads to *)
Definition any_follows (cls : nat -> spec) (guess : option params -> bytes -> res (nat * value)) (q : trust) (n : nat) (t : tagging) (a : aval) (y : aobj) : Prop :=
  forall h, forallb keeps h = true -> safe (cls n) (insides h) a ->
    exists b, leads (cls n) (insides h) a b /\
      (exists x, snd (any_native cls guess (aafter cls guess h y)) = Ok x /\ (stores_below (insides h) = false -> shows (cls n) b x)) /\
      forall f, exists d, snd (any_dump cls guess f (aafter cls guess h y)) = Ok d /\
        (f = true \/ trusted (cls n) (insides h) q <> Lost -> len d < 2 ^ 1008 -> der (cls n) t b d).
