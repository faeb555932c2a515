(* Model of SequenceOf and SetOf objects as Python containers: __len__, __getitem__, __iter__,
   __contains__, append, __setitem__ and __delitem__ (/repo/asn1crypto/core.py 4263-4472), with
   the identity of the children, and of how Python finds the == and hash() of the classes of
   the library.

   Children are objects made when they are first asked for; making an object gives it the next
   free number, which stands for its identity (id()).  What the children hold, how they are
   made from the parsed tuples, compared and retagged are parameters; ContModel and PrimModel
   have them for classes.  native, dump and the cache _native are in ContModel and left out. *)
Require Import Verif.Base Verif.ParserModel Verif.LibModel.
Require Coq.Strings.String.
Require Verif.ShapeModel Verif.Shapes.
Import Coq.Strings.String.StringSyntax.

Record object (V : Type) := Object { o_id : Z; o_val : V }.
Arguments Object {V} _ _. Arguments o_id {V} _. Arguments o_val {V} _.
Inductive slot (V R : Type) := SRaw (r : R) | SObj (o : object V).
Arguments SRaw {V R} _. Arguments SObj {V R} _.
(* _contents, children, _mutated; l_next is the next free number *)
Record lst (V R : Type) := Lst { l_contents : option bytes; l_children : option (list (slot V R)); l_mutated : bool; l_next : Z }.
Arguments Lst {V R} _ _ _ _. Arguments l_contents {V R} _. Arguments l_children {V R} _.
Arguments l_mutated {V R} _. Arguments l_next {V R} _.

(* a list index: counted from the end when negative *)
Definition place {A} (l : list A) (i : Z) : option nat :=
  if (0 <=? i) && (i <? len l) then Some (Z.to_nat i)
  else if (i <? 0) && (0 <=? i + len l) then Some (Z.to_nat (i + len l)) else None.
Fixpoint put {A} (l : list A) (n : nat) (x : A) : list A :=
  match l, n with
  | [], _ => []
  | _ :: r, O => x :: r
  | y :: r, S n => y :: put r n x
  end.
Fixpoint drop_at {A} (l : list A) (n : nat) : list A :=
  match l, n with
  | [], _ => []
  | _ :: r, O => r
  | y :: r, S n => y :: drop_at r n
  end.

(* what is given to [in], append and []=: None or VOID, an object of the class _child_spec,
   something else *)
Inductive arg (V : Type) := ANothing | AItem (o : object V) | AOther.
Arguments ANothing {V}. Arguments AItem {V} _. Arguments AOther {V}.

(* 4508-4522 the loop of _parse_children; 4515-4518, without the class the tuple ends with *)
Fixpoint elements_from (fuel : nat) (cont : bytes) (pointer : Z) : res (list info) :=
  match fuel with
  | O => Err OutOfFuel
  | S n =>
      if pointer <? len cont then
        do (i, pointer) <- parse_ cont (len cont) pointer;
        do r <- elements_from n cont pointer;
        Ok (i :: r)
      else Ok []
  end.
Definition elements (cont : bytes) : res (list info) := elements_from (S (length cont)) cont 0.

Section Lists.
  Context {V R : Type}.
  Variable split : bytes -> res (list R).      (* the elements of the contents *)
  Variable build : R -> res V.                 (* _build *)
  Variable value_eq : option (V -> V -> res bool).  (* __eq__ of the class; None: that of object *)
  Variable retag : V -> option (res V).        (* 5297-5343 _fix_tagging: None returns the object itself *)

  Notation object := (object V).
  Notation slot := (slot V R).
  Notation lst := (lst V R).
  Definition with_children (q : lst) (l : list slot) : lst := Lst (l_contents q) (Some l) (l_mutated q) (l_next q).

  (* "if self.children is None: self._parse_children()", 4495-4529 *)
  Definition ensure (q : lst) : lst * res (list slot) :=
    match l_children q with
    | Some l => (q, Ok l)
    | None =>
        match l_contents q with
        | None => (with_children q [], Ok [])
        | Some c => match split c with
                    | Ok rs => (with_children q (map SRaw rs), Ok (map SRaw rs))
                    | Err e => (q, Err e)
                    end
        end
    end.

  (* 4263-4272 _lazy_child with the index found *)
  Definition lazy_child (q : lst) (l : list slot) (n : nat) : lst * res object :=
    match nth_error l n with
    | None => (q, Err IndexError)
    | Some (SObj o) => (q, Ok o)
    | Some (SRaw r) =>
        match build r with
        | Err e => (q, Err e)
        | Ok v => let o := Object (l_next q) v in
                  (Lst (l_contents q) (Some (put l n (SObj o))) (l_mutated q) (l_next q + 1), Ok o)
        end
    end.

  (* 4338-4347 __len__ *)
  Definition length_ (q : lst) : lst * res Z :=
    let (q, r) := ensure q in (q, do l <- r; Ok (len l)).

  (* 4349-4361 __getitem__ *)
  Definition get (q : lst) (i : Z) : lst * res object :=
    match ensure q with
    | (q, Err e) => (q, Err e)
    | (q, Ok l) => match place l i with Some n => lazy_child q l n | None => (q, Err IndexError) end
    end.
  (* the same for a slice a:b, 0 <= a: children[a:b] is a list, no tuple, and returned as it is *)
  Definition get_slice (q : lst) (a b : Z) : lst * res (list slot) :=
    let (q, r) := ensure q in (q, do l <- r; Ok (slice l a b)).

  (* the next value of the generator 4412-4423 *)
  Definition next_child (q : lst) (n : nat) : lst * res object :=
    match l_children q with
    | Some l => lazy_child q l n
    | None => (q, Err TypeError)
    end.
  (* 4421-4423, list(self), for the indexes ns *)
  Fixpoint iter_from (ns : list nat) (q : lst) : lst * res (list object) :=
    match ns with
    | [] => (q, Ok [])
    | n :: ns =>
        match next_child q n with
        | (q, Err e) => (q, Err e)
        | (q, Ok o) => let (q, r) := iter_from ns q in (q, do os <- r; Ok (o :: os))
        end
    end.
  Definition iter (q : lst) : lst * res (list object) :=
    match ensure q with
    | (q, Err e) => (q, Err e)
    | (q, Ok l) => iter_from (seq 0 (length l)) q
    end.

  (* child == item: object.__eq__ says whether they are the same object *)
  Definition equal (a b : object) : res bool :=
    match value_eq with Some f => f (o_val a) (o_val b) | None => Ok (o_id a =? o_id b) end.

  (* 4448-4452 *)
  Fixpoint seek (ns : list nat) (x : object) (q : lst) : lst * res bool :=
    match ns with
    | [] => (q, Ok false)
    | n :: ns =>
        match next_child q n with
        | (q, Err e) => (q, Err e)
        | (q, Ok o) => match equal o x with
                       | Err e => (q, Err e)
                       | Ok true => (q, Ok true)
                       | Ok false => seek ns x q
                       end
        end
    end.
  (* 4425-4452 __contains__ *)
  Definition contains (q : lst) (a : arg V) : lst * res bool :=
    match a with
    | ANothing => (q, Ok false)
    | AOther => (q, Err TypeError)
    | AItem x => match ensure q with
                 | (q, Err e) => (q, Err e)
                 | (q, Ok l) => seek (seq 0 (length l)) x q
                 end
    end.

  (* 4274-4336 _make_value for an object of the class _child_spec *)
  Definition make_value (q : lst) (x : object) : lst * res object :=
    match retag (o_val x) with
    | None => (q, Ok x)
    | Some (Ok v) => (Lst (l_contents q) (l_children q) (l_mutated q) (l_next q + 1), Ok (Object (l_next q) v))
    | Some (Err e) => (q, Err e)
    end.
  Definition changed (q : lst) (l : list slot) : lst := Lst (l_contents q) (Some l) true (l_next q).

  (* 4454-4472 append *)
  Definition append (q : lst) (x : object) : lst * res unit :=
    match ensure q with
    | (q, Err e) => (q, Err e)
    | (q, Ok l) =>
        match make_value q x with
        | (q, Err e) => (q, Err e)
        | (q, Ok y) => (changed q (l ++ [SObj y]), Ok tt)
        end
    end.
  (* 4363-4391 __setitem__ *)
  Definition set_item (q : lst) (i : Z) (x : object) : lst * res unit :=
    match ensure q with
    | (q, Err e) => (q, Err e)
    | (q, Ok l) =>
        match make_value q x with
        | (q, Err e) => (q, Err e)
        | (q, Ok y) =>
            if i =? len l then (changed q (l ++ [SObj y]), Ok tt)
            else match place l i with
                 | Some n => (changed q (put l n (SObj y)), Ok tt)
                 | None => (q, Err IndexError)
                 end
        end
    end.
  (* 4393-4410 __delitem__: list.pop *)
  Definition del_item (q : lst) (i : Z) : lst * res unit :=
    match ensure q with
    | (q, Err e) => (q, Err e)
    | (q, Ok l) =>
        match place l i with
        | Some n => (changed q (drop_at l n), Ok tt)
        | None => (q, Err IndexError)
        end
    end.
End Lists.

Local Open Scope string_scope.
(* the class through which a class gets the method m: type.__mro__, see ShapeModel *)
Definition owner (m n : string) : option string := find (fun k => mem m (names_of k)) (ancestors n).
(* Python 3 sets __hash__ to None in the body of a class that defines __eq__ and no __hash__ *)
Definition hash_of (n : string) : option string :=
  match find (fun k => mem "__hash__" (names_of k) || mem "__eq__" (names_of k)) (ancestors n) with
  | Some k => if mem "__hash__" (names_of k) then Some k else None
  | None => Some "object"
  end.
(* the SequenceOf and SetOf classes with the class of their children *)
Definition list_classes : list (string * string) := Eval vm_compute in
  flat_map (fun c => let n := ShapeModel.c_name c in
    if mem "core.SequenceOf" (ancestors n) then
      match ShapeModel.attribute lib ShapeModel.c_child n with Some i => [(n, i)] | None => [] end
    else []) lib.
