(* Model of /repo/asn1crypto/_ordereddict.py:23-135, the OrderedDict for Python 2.6: a dict,
   and a doubly linked list of its keys made of Python lists [key, prev, next].

   Simplifications: the lists are cells of a memory that only grows, a cell is its
   position; what is unlinked is never reclaimed.  The dict underneath is a list of items,
   new keys in front, of which only lookup, removal and the number of items are used.
   Keys are compared by ==, hashes agree with it.  The functions of UserDict.DictMixin
   (setdefault, update, pop, items) are written as in Python 2.6.  Dictionaries are not
   changed while they are iterated.  Left out: keyword arguments, __repr__, attributes
   of instances of subclasses in __reduce__. *)
Require Import Verif.Base.

Section Ord.
  Variables K V : Type.
  Variable eqb : K -> K -> bool.
  Variable veqb : V -> V -> bool.

  (* ---- the dict underneath ---- *)
  Fixpoint bget {A} (d : list (K * A)) (k : K) : option A :=
    match d with [] => None | (a, v) :: r => if eqb a k then Some v else bget r k end.
  Fixpoint breplace {A} (d : list (K * A)) (k : K) (v : A) : list (K * A) :=
    match d with [] => [] | (a, w) :: r => if eqb a k then (a, v) :: r else (a, w) :: breplace r k v end.
  Definition bput {A} (d : list (K * A)) (k : K) (v : A) : list (K * A) :=
    match bget d k with Some _ => breplace d k v | None => (k, v) :: d end.
  Fixpoint bdrop {A} (d : list (K * A)) (k : K) : list (K * A) :=
    match d with [] => [] | (a, w) :: r => if eqb a k then r else (a, w) :: bdrop r k end.

  (* ---- cells ---- *)
  Record cell := C { c_key : option K; c_prev : nat; c_next : nat }.
  Definition memory := list cell.
  Fixpoint change (h : memory) (n : nat) (f : cell -> cell) : memory :=
    match h, n with
    | [], _ => []
    | c :: h, O => f c :: h
    | c :: h, S n => c :: change h n f
    end.
  Definition set_next (n : nat) (c : cell) : cell := C (c_key c) (c_prev c) n.   (* c[2] = n *)
  Definition set_prev (n : nat) (c : cell) : cell := C (c_key c) n (c_next c).   (* c[1] = n *)
  Definition cell_at (h : memory) (n : nat) : cell := nth n h (C None 0 0).

  (* the object: the memory, __end, __map, and the dict itself *)
  Record od := OD { o_mem : memory; o_end : nat; o_map : list (K * nat); o_items : list (K * V) }.

  (* _ordereddict.py:44-48 clear *)
  Definition clear (d : od) : od :=
    let e := length (o_mem d) in OD (o_mem d ++ [C None e e]) e [] [].
  (* _ordereddict.py:35-42 __init__ of a new object, without arguments *)
  Definition new_od : od := clear (OD [] 0 [] []).
  (* dict.__contains__, dict.__getitem__, dict.__len__ *)
  Definition has (d : od) (k : K) : bool := match bget (o_items d) k with Some _ => true | None => false end.
  Definition getitem (d : od) (k : K) : res V := match bget (o_items d) k with Some v => Ok v | None => Err KeyError end.
  Definition size (d : od) : Z := len (o_items d).
  (* _ordereddict.py:50-55 __setitem__; the targets are assigned from left to right *)
  Definition setitem (d : od) (k : K) (v : V) : od :=
    let d1 :=
      if has d k then d
      else let e := o_end d in
           let curr := c_prev (cell_at (o_mem d) e) in
           let n := length (o_mem d) in
           let m := o_mem d ++ [C (Some k) curr e] in
           let m := change m curr (set_next n) in
           let m := change m e (set_prev n) in
           OD m e (bput (o_map d) k n) (o_items d) in
    OD (o_mem d1) (o_end d1) (o_map d1) (bput (o_items d1) k v).
  (* _ordereddict.py:57-61 __delitem__ *)
  Definition delitem (d : od) (k : K) : od * res unit :=
    match bget (o_items d) k with
    | None => (d, Err KeyError)
    | Some _ =>
        let items := bdrop (o_items d) k in
        match bget (o_map d) k with
        | None => (OD (o_mem d) (o_end d) (o_map d) items, Err KeyError)
        | Some n =>
            let c := cell_at (o_mem d) n in
            let m := change (o_mem d) (c_prev c) (set_next (c_next c)) in
            let m := change m (c_next c) (set_prev (c_prev c)) in
            (OD m (o_end d) (bdrop (o_map d) k) items, Ok tt)
        end
    end.

  (* _ordereddict.py:63-75 __iter__, __reversed__: the keys until __end is met again *)
  Fixpoint walk (fuel : nat) (link : cell -> nat) (h : memory) (e c : nat) : res (list K) :=
    if Nat.eqb c e then Ok []
    else match fuel with
         | O => Err OutOfFuel
         | S f => let x := cell_at h c in
                  match c_key x with
                  | None => Err TypeError
                  | Some k => do r <- walk f link h e (link x); Ok (k :: r)
                  end
         end.
  Definition iter (d : od) : res (list K) :=
    walk (length (o_mem d)) c_next (o_mem d) (o_end d) (c_next (cell_at (o_mem d) (o_end d))).
  Definition reversed_iter (d : od) : res (list K) :=
    walk (length (o_mem d)) c_prev (o_mem d) (o_end d) (c_prev (cell_at (o_mem d) (o_end d))).
  (* _ordereddict.py:99-100 keys; DictMixin.items, values *)
  Definition keys (d : od) : res (list K) := iter d.
  Fixpoint with_values (d : od) (ks : list K) : res (list (K * V)) :=
    match ks with
    | [] => Ok []
    | k :: ks => do v <- getitem d k; do r <- with_values d ks; Ok ((k, v) :: r)
    end.
  Definition items (d : od) : res (list (K * V)) := do ks <- iter d; with_values d ks.
  Definition values (d : od) : res (list V) := do l <- items d; Ok (map snd l).

  (* DictMixin.pop *)
  Definition pop (d : od) (k : K) : od * res V :=
    match getitem d k with
    | Err e => (d, Err e)
    | Ok v => match delitem d k with (d', Ok tt) => (d', Ok v) | (d', Err e) => (d', Err e) end
    end.
  Definition pop_default (d : od) (k : K) (v : V) : od * res V :=
    match getitem d k with
    | Err KeyError => (d, Ok v)
    | Err e => (d, Err e)
    | Ok w => match delitem d k with (d', Ok tt) => (d', Ok w) | (d', Err e) => (d', Err e) end
    end.
  (* DictMixin.setdefault *)
  Definition setdefault (d : od) (k : K) (v : V) : od * res V :=
    match getitem d k with
    | Ok w => (d, Ok w)
    | Err KeyError => (setitem d k v, Ok v)
    | Err e => (d, Err e)
    end.
  (* DictMixin.update with pairs, or with the items of a dictionary *)
  Definition update (d : od) (l : list (K * V)) : od := fold_left (fun d kv => setitem d (fst kv) (snd kv)) l d.

  (* _ordereddict.py:77-87 popitem: the first key of one of the iterators *)
  Definition first_key (d : od) (c : nat) : res K :=
    if Nat.eqb c (o_end d) then Err IndexError      (* StopIteration *)
    else match c_key (cell_at (o_mem d) c) with Some k => Ok k | None => Err TypeError end.
  Definition popitem (d : od) (last : bool) : od * res (K * V) :=
    if size d =? 0 then (d, Err KeyError)
    else let e := cell_at (o_mem d) (o_end d) in
         match first_key d (if last then c_prev e else c_next e) with
         | Err x => (d, Err x)
         | Ok k => match pop d k with (d', Ok v) => (d', Ok (k, v)) | (d', Err x) => (d', Err x) end
         end.

  (* _ordereddict.py:114-115 copy, 117-122 fromkeys, 89-97 __reduce__ and what unpickling
     makes of it *)
  Definition of_items (l : list (K * V)) : od := update new_od l.
  Definition copy (d : od) : res od := do l <- items d; Ok (of_items l).
  Definition fromkeys (ks : list K) (v : V) : od := fold_left (fun d k => setitem d k v) ks new_od.

  (* _ordereddict.py:124-132 __eq__: with another OrderedDict, with a dict *)
  Fixpoint pairs_equal (a b : list (K * V)) : bool :=
    match a, b with
    | p :: a, q :: b => if eqb (fst p) (fst q) && veqb (snd p) (snd q) then pairs_equal a b else false
    | _, _ => true
    end.
  Definition equal (d o : od) : res bool :=
    if negb (size d =? size o) then Ok false
    else do a <- items d; do b <- items o; Ok (pairs_equal a b).
  Definition equal_dict (d : od) (o : list (K * V)) : bool :=
    (size d =? len o) &&
    forallb (fun p => match bget o (fst p) with Some w => veqb (snd p) w | None => false end) (o_items d).
  (* _ordereddict.py:134-135 __ne__ *)
  Definition unequal (d o : od) : res bool := do b <- equal d o; Ok (negb b).

  (* ---- histories ---- *)
  Inductive op :=
  | Set_ (k : K) (v : V) | Del (k : K) | Clear | Update (l : list (K * V)) | Init (l : list (K * V))
  | Pop (k : K) | PopDefault (k : K) (v : V) | SetDefault (k : K) (v : V) | PopItem (last : bool).
  Inductive answer := Done | Value (v : V) | Item (k : K) (v : V).
  Definition step (d : od) (o : op) : od * res answer :=
    match o with
    | Set_ k v => (setitem d k v, Ok Done)
    | Del k => match delitem d k with (d', Ok tt) => (d', Ok Done) | (d', Err e) => (d', Err e) end
    | Clear => (clear d, Ok Done)
    | Update l => (update d l, Ok Done)
    | Init l => (update d l, Ok Done)              (* 35-42: __end is there *)
    | Pop k => match pop d k with (d', Ok v) => (d', Ok (Value v)) | (d', Err e) => (d', Err e) end
    | PopDefault k v => match pop_default d k v with (d', Ok v) => (d', Ok (Value v)) | (d', Err e) => (d', Err e) end
    | SetDefault k v => match setdefault d k v with (d', Ok v) => (d', Ok (Value v)) | (d', Err e) => (d', Err e) end
    | PopItem l => match popitem d l with (d', Ok (k, v)) => (d', Ok (Item k v)) | (d', Err e) => (d', Err e) end
    end.
  Fixpoint run (d : od) (l : list op) : od * list (res answer) :=
    match l with
    | [] => (d, [])
    | o :: l => let '(d1, r) := step d o in let '(d2, rs) := run d1 l in (d2, r :: rs)
    end.
End Ord.
Arguments Set_ {K V}. Arguments Del {K V}. Arguments Clear {K V}. Arguments Update {K V}. Arguments Init {K V}.
Arguments Pop {K V}. Arguments PopDefault {K V}. Arguments SetDefault {K V}. Arguments PopItem {K V}.
Arguments Done {K V}. Arguments Value {K V}. Arguments Item {K V}.
