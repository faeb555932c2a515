(* Model of sequences with a field of open type: _oid_pair and _oid_specs of Sequence
   (/repo/asn1crypto/core.py 3370-3379, 3711-3783, 3868-4010), where the class declared for
   the field is Any.  The object identifier in field i selects the class of field j.

   An object is one of ContModel with the number of the class its child j belongs to: a
   position in _oid_specs, or None for an Any.

   Simplifications: the object identifier comes before the value, and field j has no
   default (both hold for all classes of the library); what Any does as the class of a
   field is given by [any], and operations on objects inside such an Any are left out;
   errors of the object identifier are raised after those of the elements behind it. *)
Require Import Verif.Base Verif.IntModel Verif.ParserModel Verif.Text Verif.PrimModel Verif.ContModel Verif.ContPath.

(* _oid_specs: position of a key *)
Fixpoint key_index (l : list (text * spec)) (k : text) (n : nat) : option nat :=
  match l with
  | [] => None
  | (k', _) :: r => if eqb_text k' k then Some n else key_index r k (S n)
  end.

Record oobj := OObj { w_class : option nat; w_value : value }.

Section Open.
  Variable any : ops.
  Variable c : pcls.
  Variable fs : list (fld * spec).     (* _fields; the class at position j is not used *)
  Variables i j : nat.                 (* _oid_nums *)
  Variable tbl : list (text * spec).   (* _oid_specs *)

  Definition value_ops (k : option nat) : ops :=
    match k with
    | Some n => match nth_error tbl n with Some ks => methods (snd ks) | None => any end
    | None => any
    end.
  (* the classes of the children *)
  Definition fields_as (k : option nat) : list (fld * ops) :=
    match nth_error fs j with
    | Some f => update (map (fun f => (fst f, methods (snd f))) fs) j (fst f, value_ops k)
    | None => map (fun f => (fst f, methods (snd f))) fs
    end.

  (* 3774-3778: the class the object identifier selects.  It is built and read, the children
     afterwards are returned too *)
  Definition determine (l : list value) : list value * res (option nat) :=
    match nth_error l i, nth_error (fields_as None) i with
    | Some v, Some fo =>
        match built fo v with
        | Err x => (l, Err x)
        | Ok b => match child_native (snd fo) b with
                  | (b', Err x) => (update l i b', Err x)
                  | (b', Ok a) => (update l i b', Ok (match a with APrim (NText t) => key_index tbl t 0 | _ => None end))
                  end
        end
    | _, _ => (l, Err IndexError)
    end.

  (* 3909-4004: as seq_loop of ContModel; a field whose class is Any takes any element (3931) *)
  Fixpoint open_loop (fuel : nat) (cont : bytes) (l : list (fld * ops)) (pos : nat) (parts : option info) (pointer : Z)
    : res (list value) :=
    match fuel with
    | O => Err OutOfFuel
    | S n =>
        match parts with
        | None =>
            if pointer <? len cont then
              do (x, pointer') <- parse_ cont (len cont) pointer;
              open_loop n cont l pos (Some x) pointer'
            else absent_children l
        | Some x =>
            match l with
            | [] => do vs <- open_loop n cont [] pos None pointer; Ok (VLazy x :: vs)
            | fo :: r =>
                if Nat.eqb pos j || takes fo x then do vs <- open_loop n cont r (S pos) None pointer; Ok (VLazy x :: vs)
                else do v <- absent_child fo; do vs <- open_loop n cont r (S pos) (Some x) pointer; Ok (v :: vs)
            end
        end
    end.
  Definition open_children (cont : bytes) : res (list value) :=
    open_loop (S (2 * length cont + length fs)) cont (fields_as None) 0 None 0.

  (* 3868-4010 _parse_children *)
  Definition open_parse (recurse : bool) (o : oobj) : oobj * res unit :=
    match w_value o with
    | VSeq t e ch m nc =>
        match e_contents e with
        | None =>
            match fs with
            | [] => (o, Ok tt)
            | _ => match init_children (fields_as None) with
                   | Ok l => (OObj None (VSeq t e (Some l) m nc), Ok tt)
                   | Err x => (o, Err x)
                   end
            end
        | Some cont =>
            let failed x := (OObj None (VSeq t e None m nc), Err x) in
            match open_children cont with
            | Err x => failed x
            | Ok l =>
                let '(l1, r) := match nth_error l j with Some (VLazy _) => determine l | _ => (l, Ok None) end in
                match r with
                | Err x => failed x
                | Ok k =>
                    if recurse then
                      match build_all (fields_as k) l1 with
                      | Ok l2 => (OObj k (VSeq t e (Some l2) m nc), Ok tt)
                      | Err x => failed x
                      end
                    else (OObj k (VSeq t e (Some l1) m nc), Ok tt)
                end
            end
        end
    | _ => (o, Err TypeError)
    end.

  (* whether an operation calls _parse_children on an object without children, and how *)
  Definition parses (x : act) (v : value) : option bool :=
    match v with
    | VSeq t e None m nc =>
        match x with
        | ARead => match e_contents e, nc with Some _, None => Some true | _, _ => None end
        | ADump f => if (f || ends_80 (e_header e)) && match fs with [] => false | _ => true end then Some false else None
        | ALen | AGet _ | ASet _ _ | ADel _ => Some false
        | AContents | AAppend _ | AStore _ => None
        end
    | _ => None
    end.
  Definition prepared (x : act) (o : oobj) : oobj * res unit :=
    match parses x (w_value o) with Some r => open_parse r o | None => (o, Ok tt) end.

  Definition seq_act (F : list (fld * ops)) (x : act) (v : value) : value * res answer :=
    match x with
    | ARead => reply RNat (native_seq F false v)
    | ADump f => reply RDump (dump_seq F false f v)
    | AContents => reply RCont (contents_seq F false v)
    | ALen => reply RLen (len_seq F false v)
    | AGet n => reply (fun _ => RNone) (get_seq F false n v)
    | ASet n a => reply (fun _ => RNone) (set_seq F false n a v)
    | ADel n => reply (fun _ => RNone) (del_seq F false n v)
    | AAppend _ | AStore _ => (v, Err AttributeError)
    end.

  (* 3564-3617 __setitem__ of the value: the class is determined anew (3598) *)
  Definition open_set (a : aval) (o : oobj) : oobj * res answer :=
    match w_value o with
    | VSeq t e (Some l) m nc =>
        match determine l with
        | (l1, Err x) => (OObj (w_class o) (VSeq t e (Some l1) m nc), Err x)
        | (l1, Ok k) =>
            let '(v, r) := seq_act (fields_as k) (ASet j a) (VSeq t e (Some l1) m nc) in
            let stored := match nth_error (fields_as k) j with
                          | Some fo => match make_value fo a with
                                       | Ok nv => match child_contents (snd fo) nv with (_, Ok (Some _)) => true | _ => false end
                                       | Err _ => false
                                       end
                          | None => false
                          end in
            (OObj (if stored then k else w_class o) v, r)
        end
    | _ => (o, Err TypeError)
    end.

  (* one operation on the object *)
  Definition open_act (x : act) (o : oobj) : oobj * res answer :=
    match prepared x o with
    | (o1, Err y) => (o1, Err y)
    | (o1, Ok tt) =>
        match x with
        | ASet n a => if Nat.eqb n j then open_set a o1
                      else let '(v, r) := seq_act (fields_as (w_class o1)) x (w_value o1) in (OObj (w_class o1) v, r)
        | _ => let '(v, r) := seq_act (fields_as (w_class o1)) x (w_value o1) in (OObj (w_class o1) v, r)
        end
    end.

  (* the object obj[n] and its class *)
  Definition open_inner (n : nat) (o : oobj) : option (spec * value) :=
    match w_value o with
    | VSeq _ _ (Some l) _ _ =>
        match nth_error l n, nth_error fs n with
        | Some w, Some f =>
            if Nat.eqb n j then
              match w, w_class o with
              | VVoid, _ => Some (snd f, w)
              | _, Some k => match nth_error tbl k with Some ks => Some (snd ks, w) | None => None end
              | _, None => None
              end
            else Some (snd f, w)
        | _, _ => None
        end
    | _ => None
    end.

  (* an operation on the object or on one inside it *)
  Definition open_through (p : list nat) (x : act) (o : oobj) : oobj * res answer :=
    match p with
    | [] => open_act x o
    | n :: r =>
        match open_act (AGet n) o with
        | (o1, Err y) => (o1, Err y)
        | (o1, Ok _) =>
            match open_inner n o1 with
            | Some (s, w) => let '(w', y) := through r x s w in (OObj (w_class o1) (put_inner n w' (w_value o1)), y)
            | None => (o1, Err TypeError)
            end
        end
    end.
  Fixpoint open_after (h : list deed) (o : oobj) : oobj :=
    match h with [] => o | (p, x) :: r => open_after r (fst (open_through p x o)) end.

  (* 216-240 load; _build (5438-5668) does not look at the fields without a default *)
  Definition open_load (p : params) (data : bytes) (strict : bool) : res oobj :=
    do (x, e) <- parse_ data (len data) 0;
    if strict && negb (e =? len data) then Err ValueError
    else do v <- build_seq c (fields_as None) false p None x; Ok (OObj None v).

  (* 3382-3456 __init__ with a dict: the fields in their order *)
  Fixpoint open_keys (d : list (text * aval)) (l : list (fld * spec)) (n : nat) (o : oobj) : res oobj :=
    match l with
    | [] => Ok o
    | f :: r =>
        match dict_get d (f_name (fst f)) with
        | Some a => match open_act (ASet n a) o with
                    | (o', Ok _) => open_keys d r (S n) o'
                    | (_, Err x) => Err x
                    end
        | None => open_keys d r (S n) o
        end
    end.
  Definition open_make (p : params) (d : list (text * aval)) : res oobj :=
    do t <- init_tagging c p;
    do o <- open_keys d fs 0 (OObj None (VSeq t no_enc None false None));
    if known_keys (fields_as None) d then Ok o else Err ValueError.

  (* 542-585, 586-608 copy and retag: the children are not copied *)
  Definition open_copy (o : oobj) : res oobj :=
    do v <- copy_seq (fields_as (w_class o)) false (tagging_of (w_value o)) (w_value o); Ok (OObj None v).
  Definition open_retag (p : params) (o : oobj) : res oobj :=
    do t <- init_tagging c p;
    do v <- copy_seq (fields_as (w_class o)) false t (w_value o); Ok (OObj None v).
End Open.
