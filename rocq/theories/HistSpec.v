(* Sequences of operations on one primitive object, and what their results must be:
   every result is a function of the value last assigned. *)
Require Import Verif.Base Verif.TagSpec Verif.PrimModel Verif.PrimSpec.

Inductive op := ORead | ODump (force : bool) | OSet (v : native).
Inductive outcome := RNative (r : res native) | RBytes (r : res bytes) | RSet (r : res unit).

(* one operation on an object *)
Definition step (k : kind) (cls : pcls) (o : obj) (x : op) : obj * outcome :=
  match x with
  | ORead => let '(o', r) := get_native k cls o in (o', RNative r)
  | ODump f => let '(o', r) := dump k cls o f in (o', RBytes r)
  | OSet v => let '(o', r) := set_value k o v in (o', RSet r)
  end.

Fixpoint run (k : kind) (cls : pcls) (o : obj) (l : list op) : obj :=
  match l with [] => o | x :: r => run k cls (fst (step k cls o x)) r end.

Fixpoint trace (k : kind) (cls : pcls) (o : obj) (l : list op) : list (op * outcome) :=
  match l with
  | [] => []
  | x :: r => let '(o', y) := step k cls o x in (x, y) :: trace k cls o' r
  end.

(* d is the encoding of the value v under the tagging t; the length condition is the
   format's own limit on a length field (126 octets would be 2^1008) *)
Definition encodes (k : kind) (w : option Z) (t : tagging) (v : native) (d : bytes) : Prop :=
  exists c, der_value k w v c /\ (len d < 2 ^ 1008 -> der_object t c d).

(* the results agree with the value v, then with the values assigned on the way *)
Fixpoint agrees (k : kind) (w : option Z) (t : tagging) (v : native) (l : list (op * outcome)) : Prop :=
  match l with
  | [] => True
  | (ORead, RNative (Ok v')) :: r => same_value k v v' /\ agrees k w t v r
  | (ODump _, RBytes (Ok d)) :: r => encodes k w t v d /\ agrees k w t v r
  | (OSet v', RSet (Ok tt)) :: r => agrees k w t v' r
  | _ => False
  end.

(* assignments of values of the class *)
Definition legal_op (k : kind) (w : option Z) (x : op) : Prop :=
  match x with OSet v => holds k w v | _ => True end.

(* every object the library can hand out for the class: new, constructed from a value,
   or loaded, and then any operations, failing ones included *)
Inductive reachable (k : kind) (cls : pcls) : obj -> Prop :=
  | reach_new p o : new_obj k cls p = Ok o -> tagging_ok (o_tagging o) -> reachable k cls o
  | reach_make p v o : make k cls p v = Ok o -> tagging_ok (o_tagging o) -> reachable k cls o
  | reach_load p d s o : bytes_ok d -> load k cls p d s = Ok o -> tagging_ok (o_tagging o) -> reachable k cls o
  | reach_step o x : reachable k cls o -> reachable k cls (fst (step k cls o x))
  | reach_width o n : k = KIntOctets -> reachable k cls o -> reachable k cls (fst (set_width cls o n)).

(* the value held after some operations *)
Fixpoint last_value (v : native) (l : list op) : native :=
  match l with [] => v | OSet u :: r => last_value u r | _ :: r => last_value v r end.
