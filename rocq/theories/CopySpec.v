(* What is expected of copies of objects that were worked with. *)
Require Import Verif.Base Verif.TagSpec Verif.PrimModel Verif.PrimSpec Verif.ContModel Verif.ContSpec Verif.ContPath Verif.ContHistSpec.

(* follows of ContHistSpec, natives being promised or not *)
Definition tracks (natives : bool) (s : spec) (t : tagging) (a : aval) (v : value) : Prop :=
  forall h, safe s h a -> exists b, leads s h a b /\
    (forall p x, reading x = false -> (exists c, becomes p x s b c) -> snd (through p x s (after s h v)) = Ok RNone) /\
    forall p s' t' c, sits p s t b s' t' c ->
      (exists x, snd (through p ARead s (after s h v)) = Ok (RNat x) /\ (natives = true -> stores_below h = false -> shows s' c x)) /\
      (forall f, exists d, snd (through p (ADump f) s (after s h v)) = Ok (RDump d) /\
         (f = true \/ trusted s h Clean <> Lost -> len d < 2 ^ 1008 -> der s' t' c d)) /\
      match c with
      | AList l => snd (through p ALen s (after s h v)) = Ok (RLen (len l))
      | ADict l => snd (through p ALen s (after s h v)) = Ok (RLen (len l))
      | _ => True
      end /\
      (forall e l x, list_class s' e -> c = AList l -> past x (length l) -> snd (through p x s (after s h v)) = Err IndexError).

(* the native value of the object was not read; that of a choice is the one of what it holds *)
Definition unread (s : spec) (h : list deed) : bool :=
  forallb (fun d => match d with
                    | ([], ARead) => false
                    | (_ :: _, ARead) => negb (is_choice s)
                    | _ => true
                    end) h.

(* after any history whose contents can be relied upon, a copy with the same or with other
   tags stands for the value the history led to.  Its native values are right if those of
   the object copied were never read *)
Definition copies_from (q : trust) (s : spec) (t : tagging) (a : aval) (v : value) : Prop :=
  forall h, safe s h a -> trusted s h q <> Lost -> exists b, leads s h a b /\ forall d, der s t b d ->
    (exists w c, x_copy (methods s) (after s h v) = Ok w /\ sim s b c /\ tracks (unread s h) s t c w) /\
    (forall p, taggable s p -> exists w c, x_retag (methods s) p (after s h v) = Ok w /\ sim s b c /\ tracks (unread s h) s (stags s p) c w).
