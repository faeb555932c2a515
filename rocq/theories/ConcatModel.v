(* Model of Concat (/repo/asn1crypto/core.py 1365-1653): values one after the other.

   Classes are numbered by [cls]; a child is an object with the number of its class.
   Simplifications: an object given to the constructor or to an assignment is new; the
   index of an assignment is an integer. *)
Require Import Verif.Base Verif.IntModel Verif.ParserModel Verif.Text Verif.PrimModel Verif.ContModel Verif.ContPath.

Definition child := (nat * value)%type.
(* _children: None as in the class, or a list in which places can be None *)
Definition concat_obj := option (list (option child)).
(* what is assigned: an Asn1Value object, or anything else *)
Inductive item := IObj (c : child) | IOther.

Section Concat.
  Variable cls : nat -> spec.
  Variable specs : list nat.           (* _child_specs *)

  (* 1418-1427; offset is where the next child starts *)
  Fixpoint read_children (d : bytes) (offset : Z) (l : list nat) : res (list (option child) * Z) :=
    match l with
    | [] => Ok ([], offset)
    | n :: r =>
        do (v, next) <- (if offset <? len d then
                           do (i, e) <- parse_ d (len d) offset;
                           do v <- x_build (methods (cls n)) no_params None i; Ok (v, e)
                         else do v <- x_make (methods (cls n)) no_params None ANone; Ok (v, offset));
        do (vs, e) <- read_children d next r;
        Ok (Some (n, v) :: vs, e)
    end.

  (* 1607-1644 __setitem__ *)
  Definition co_set (key : Z) (x : item) (o : concat_obj) : concat_obj * res unit :=
    if (key >? len specs - 1) || (key <? 0) then (o, Err KeyError)
    else match x with
         | IOther => (o, Err ValueError)
         | IObj c => match o with
                     | None => (o, Err TypeError)
                     | Some l => (Some (update l (Z.to_nat key) (Some c)), Ok tt)
                     end
         end.
  Fixpoint co_set_all (key : Z) (xs : list item) (o : concat_obj) : res concat_obj :=
    match xs with
    | [] => Ok o
    | x :: r => match co_set key x o with
                | (o', Ok tt) => co_set_all (key + 1) r o'
                | (_, Err e) => Err e
                end
    end.

  (* 1396-1445 __init__ *)
  Definition co_make (value : option (list item)) (data : option bytes) (strict : bool) : res concat_obj :=
    do o <- match data with
            | None => Ok None
            | Some d => do (vs, e) <- read_children d 0 specs;
                        if strict && negb (e =? len d) then Err ValueError else Ok (Some vs)
            end;
    match value with
    | None => Ok o
    | Some xs => co_set_all 0 xs (match o with None => Some (repeat None (length specs)) | _ => o end)
    end.
  (* 1379-1394 load *)
  Definition co_load (d : bytes) (strict : bool) : res concat_obj := co_make None (Some d) strict.

  (* 1549-1564 dump, 1566-1573 contents *)
  Fixpoint dump_children (force : bool) (l : list (option child)) : list (option child) * res bytes :=
    match l with
    | [] => ([], Ok [])
    | None :: _ => (l, Err AttributeError)
    | Some (n, v) :: r =>
        match x_dump (methods (cls n)) force v with
        | (v', Err e) => (Some (n, v') :: r, Err e)
        | (v', Ok b) => let '(r', x) := dump_children force r in (Some (n, v') :: r', do y <- x; Ok (b ++ y))
        end
    end.
  Definition co_dump (force : bool) (o : concat_obj) : concat_obj * res bytes :=
    match o with
    | None => (o, Err TypeError)
    | Some l => let '(l', r) := dump_children force l in (Some l', r)
    end.

  (* 1575-1581 __len__ *)
  Definition co_len (o : concat_obj) : res Z := match o with None => Err TypeError | Some l => Ok (len l) end.

  (* 1583-1605 __getitem__ *)
  Definition co_get (key : Z) (o : concat_obj) : res (option child) :=
    if (key >? len specs - 1) || (key <? 0) then Err KeyError
    else match o with
         | None => Err TypeError
         | Some l => match nth_error l (Z.to_nat key) with Some c => Ok c | None => Err IndexError end
         end.

  (* 1505-1540 copy *)
  Fixpoint copy_children (l : list (option child)) : res (list (option child)) :=
    match l with
    | [] => Ok []
    | None :: r => do r' <- copy_children r; Ok (None :: r')
    | Some (n, v) :: r => do v' <- x_copy (methods (cls n)) v; do r' <- copy_children r; Ok (Some (n, v') :: r')
    end.
  Definition co_copy (o : concat_obj) : res concat_obj :=
    match o with None => Ok None | Some l => do l' <- copy_children l; Ok (Some l') end.

  (* what a program does; KOn: operations on the child at a position and on what it holds *)
  Inductive kdeed := KSet (key : Z) (x : item) | KOn (key : nat) (d : list deed) | KDump (force : bool).
  Definition kstep (d : kdeed) (o : concat_obj) : concat_obj :=
    match d with
    | KSet key x => fst (co_set key x o)
    | KOn key l => match o with
                   | Some cs => match nth_error cs key with
                                | Some (Some (n, v)) => Some (update cs key (Some (n, after (cls n) l v)))
                                | _ => o
                                end
                   | None => o
                   end
    | KDump f => fst (co_dump f o)
    end.
  Fixpoint kafter (h : list kdeed) (o : concat_obj) : concat_obj :=
    match h with [] => o | d :: r => kafter r (kstep d o) end.
End Concat.
