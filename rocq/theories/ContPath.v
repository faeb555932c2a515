(* Operations of a program on a structured object and on the objects inside it.  An inner
   object is reached by a path: obj[i][j]... for sequences and lists, .chosen for choices
   (the index is not used).  The path is followed anew for every operation, so references
   to inner objects that were replaced since are not covered. *)
Require Import Verif.Base Verif.PrimModel Verif.ContModel.

Inductive act :=
  | ARead                            (* .native *)
  | ADump (force : bool)             (* .dump(force) *)
  | AContents                        (* .contents *)
  | ALen                             (* len(obj) *)
  | AGet (i : nat)                   (* obj[i] *)
  | ASet (i : nat) (x : aval)        (* obj[i] = x *)
  | ADel (i : nat)                   (* del obj[i] *)
  | AAppend (x : aval)               (* obj.append(x) *)
  | AStore (v : native).             (* obj.set(v), of primitive classes *)

Inductive answer := RNat (a : aval) | RDump (b : bytes) | RCont (x : option bytes) | RLen (n : Z) | RNone.

Definition reply {A} (g : A -> answer) (r : value * res A) : value * res answer :=
  (fst r, do x <- snd r; Ok (g x)).

(* one operation on an object; Void is core.py:818-869 *)
Definition perform (s : spec) (x : act) (v : value) : value * res answer :=
  match v with
  | VVoid =>
      (v, match x with
          | ARead => Ok (RNat ANone)
          | ADump _ => Ok (RDump [])
          | AContents => Ok (RCont (Some []))
          | ALen => Ok (RLen 0)
          | AGet _ | ASet _ _ | ADel _ => Err TypeError
          | AAppend _ | AStore _ => Err AttributeError
          end)
  | _ =>
      match x with
      | ARead => reply RNat (x_native (methods s) v)
      | ADump f => reply RDump (x_dump (methods s) f v)
      | AContents => reply RCont (x_contents (methods s) v)
      | ALen => reply RLen (x_len (methods s) v)
      | AGet i => reply (fun _ => RNone) (x_get (methods s) i v)
      | ASet i a => reply (fun _ => RNone) (x_set (methods s) i a v)
      | ADel i => reply (fun _ => RNone) (x_del (methods s) i v)
      | AAppend a => reply (fun _ => RNone) (x_append (methods s) a v)
      | AStore u =>
          match s, v with
          | SPrim k _, VPrim o => reply (fun _ => RNone) (let '(o', r) := set_value k o u in (VPrim o', r))
          | _, _ => (v, Err AttributeError)
          end
      end
  end.

(* the object obj[i] or obj.chosen, once x_get was called, and its class *)
Definition inner (s : spec) (i : nat) (v : value) : option (spec * value) :=
  match s, v with
  | SSeq _ fs, VSeq _ _ (Some l) _ _ | SSet _ fs, VSeq _ _ (Some l) _ _ =>
      match nth_error fs i, nth_error l i with Some f, Some w => Some (snd f, w) | _, _ => None end
  | SSeqOf _ s', VList _ _ (Some l) _ _ | SSetOf _ s', VList _ _ (Some l) _ _ =>
      match nth_error l i with Some w => Some (s', w) | None => None end
  | SChoice _ alts, VChoice _ _ (Some k) (Some w) =>
      match nth_error alts k with Some f => Some (snd f, w) | None => None end
  | _, _ => None
  end.
(* the inner object is changed in place *)
Definition put_inner (i : nat) (w : value) (v : value) : value :=
  match v with
  | VSeq t e (Some l) m nc => VSeq t e (Some (update l i w)) m nc
  | VList t e (Some l) m nc => VList t e (Some (update l i w)) m nc
  | VChoice t e k (Some _) => VChoice t e k (Some w)
  | _ => v
  end.

Fixpoint through (p : list nat) (x : act) (s : spec) (v : value) : value * res answer :=
  match p with
  | [] => perform s x v
  | i :: r =>
      match v with
      | VVoid => (v, Err TypeError)
      | _ =>
          match x_get (methods s) i v with
          | (v1, Err y) => (v1, Err y)
          | (v1, Ok tt) =>
              match inner s i v1 with
              | Some (s', w) => let '(w', y) := through r x s' w in (put_inner i w' v1, y)
              | None => (v1, Err TypeError)
              end
          end
      end
  end.

Definition deed : Type := list nat * act.
Fixpoint after (s : spec) (h : list deed) (v : value) : value :=
  match h with [] => v | (p, x) :: r => after s r (fst (through p x s v)) end.
