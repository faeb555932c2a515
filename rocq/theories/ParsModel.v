(* Model of ParsableOctetString and ParsableOctetBitString of /repo/asn1crypto/core.py
   (2729-2957): strings of octets that also hold the value encoded in those octets.

   The classes a program parses with are numbered by [cls]; two classes are the same when
   their numbers are.  [guess] stands for _parse_build without a spec (5610-5668 and the
   table of universal tags): the number of the class it chooses and the object.

   Simplifications: spec_params holds explicit and implicit only; an object given as
   parsed= is new, later changes of it go through the string like those of the object
   .parse() returned ([PInner]). *)
Require Import Verif.Base Verif.IntModel Verif.ParserModel Verif.Text Verif.PrimModel Verif.ContModel Verif.ContPath.

(* ---- the octets ---- *)
Definition pkind (bits : bool) : kind := if bits then KOctetBits else KOctets.

(* Constructable._as_chunk (773-783), ParsableOctetBitString._as_chunk (2940-2957) *)
Definition pchunk (bits indef : bool) (c : bytes) : res bytes :=
  if bits then match c with
               | [] => Err IndexError
               | u :: r => if u =? 0 then Ok r else Err ValueError
               end
  else Ok c.

Definition pmerged (bits : bool) (c : pcls) (indef : bool) (cont : bytes) : res bytes :=
  merge Z (pchunk bits) (pkind bits) c (S (length cont)) indef cont.

(* what .set() writes: 2761-2787, 2913-2938 *)
Definition pcontents (bits : bool) (b : bytes) : bytes := if bits then 0 :: b else b.

(* ---- objects ---- *)
(* _parsed: the object with its class, and the spec and spec_params it was parsed with *)
Record parsed := Parsed { q_class : nat; q_value : value; q_spec : option nat; q_params : option params }.
Record pobj := PObj { q_obj : obj; q_parsed : option parsed }.

(* _parsed[1:3] == (spec, spec_params) *)
Definition eqb_pairs (a b : list (Z * Z)) : bool :=
  (length a =? length b)%nat && forallb (fun xy => (fst (fst xy) =? fst (snd xy)) && (snd (fst xy) =? snd (snd xy))) (combine a b).
Definition eqb_opt {A} (f : A -> A -> bool) (a b : option A) : bool :=
  match a, b with Some x, Some y => f x y | None, None => true | _, _ => false end.
Definition eqb_params (a b : params) : bool :=
  eqb_pairs (p_explicit a) (p_explicit b)
  && eqb_opt (fun x y => (fst x =? fst y) && (snd x =? snd y)) (p_implicit a) (p_implicit b)
  && Bool.eqb (p_no_explicit a) (p_no_explicit b).
Definition same_key (q : parsed) (s : option nat) (p : option params) : bool :=
  eqb_opt Nat.eqb (q_spec q) s && eqb_opt eqb_params (q_params q) p.

Section Pars.
  Variable cls : nat -> spec.
  Variable guess : option params -> bytes -> res (nat * value).
  Variable bits : bool.
  Variable c : pcls.
  Notation k := (pkind bits).

  (* 2813-2825 __bytes__ *)
  Definition p_bytes (x : pobj) : pobj * res bytes :=
    let o := q_obj x in
    match contents o with
    | None => (x, Ok [])
    | Some cont =>
        match c_bytes (o_cache o) with
        | Some b => (x, Ok b)
        | None => match pmerged bits c (e_indef (o_enc o)) cont with
                  | Ok b => (PObj (set_bytes o (Some b)) (q_parsed x), Ok b)
                  | Err e => (x, Err e)
                  end
        end
    end.

  (* 2761-2787, 2913-2938 set; _parsed stays *)
  Definition p_set (x : pobj) (v : native) : pobj * res unit :=
    match v with
    | NBytes b => (PObj (store k (set_bytes (q_obj x) (Some b)) (pcontents bits b)) (q_parsed x), Ok tt)
    | _ => (x, Err TypeError)
    end.

  (* _parse_build(data, spec=spec, spec_params=spec_params)[0], 5671-5706 *)
  Definition parse_with (s : option nat) (p : option params) (b : bytes) : res (nat * value) :=
    match s with
    | Some n => do v <- cload (cls n) (match p with Some q => q | None => no_params end) b false; Ok (n, v)
    | None => guess p b
    end.

  (* 2788-2811 parse *)
  Definition p_parse (s : option nat) (p : option params) (x : pobj) : pobj * res (nat * value) :=
    let again :=
      match p_bytes x with
      | (x1, Err e) => (x1, Err e)
      | (x1, Ok b) => match parse_with s p b with
                      | Err e => (x1, Err e)
                      | Ok (n, v) => (PObj (q_obj x1) (Some (Parsed n v s p)), Ok (n, v))
                      end
      end in
    match q_parsed x with
    | Some q => if same_key q s p then (x, Ok (q_class q, q_value q)) else again
    | None => again
    end.

  (* 2866-2878 parsed *)
  Definition p_parsed (x : pobj) : pobj * res (nat * value) :=
    match q_parsed x with
    | Some q => (x, Ok (q_class q, q_value q))
    | None => p_parse None None x
    end.

  Definition with_value (q : parsed) (v : value) : parsed := Parsed (q_class q) v (q_spec q) (q_params q).

  (* 2850-2864 native *)
  Definition p_native (x : pobj) : pobj * res aval :=
    match contents (q_obj x) with
    | None => (x, Ok ANone)
    | Some _ =>
        match q_parsed x with
        | Some q => let '(v, r) := x_native (methods (cls (q_class q))) (q_value q) in
                    (PObj (q_obj x) (Some (with_value q v)), r)
        | None => match p_bytes x with
                  | (x1, Ok b) => (x1, Ok (APrim (NBytes b)))
                  | (x1, Err e) => (x1, Err e)
                  end
        end
    end.

  (* 2880-2905 dump *)
  Definition p_dump (force : bool) (x : pobj) : pobj * res bytes :=
    let finish x := let '(o, r) := base_dump k (q_obj x) in (PObj o (q_parsed x), r) in
    if e_indef (o_enc (q_obj x)) || force then
      let '(x1, r) :=
        match q_parsed x with
        | Some q => let '(v, r) := x_dump (methods (cls (q_class q))) true (q_value q) in
                    (PObj (q_obj x) (Some (with_value q v)), do b <- r; Ok (NBytes b))
        | None => match contents (q_obj x) with
                  | None => (x, Ok NNone)
                  | Some _ => match p_bytes x with (x1, r) => (x1, do b <- r; Ok (NBytes b)) end
                  end
        end in
      match r with
      | Err e => (x1, Err e)
      | Ok n => match p_set (PObj (set_contents (q_obj x1) None) (q_parsed x1)) n with
                | (x2, Err e) => (x2, Err e)
                | (x2, Ok tt) => finish x2
                end
      end
    else finish x.

  (* 2738-2759 __init__ with a value, and with parsed=: an object of class n *)
  Definition p_make (p : params) (v : native) : res pobj :=
    do o <- new_obj k c p;
    match v with
    | NNone => Ok (PObj o None)
    | _ => match p_set (PObj o None) v with (x, Ok tt) => Ok x | (_, Err e) => Err e end
    end.
  Definition p_make_parsed (p : params) (n : nat) (v : value) : res pobj :=
    let '(v', r) := x_dump (methods (cls n)) false v in
    do b <- r;
    do x <- p_make p (NBytes b);
    Ok (PObj (q_obj x) (Some (Parsed n v' (Some n) None))).

  (* .load(), 216-240 *)
  Definition p_load (p : params) (d : bytes) (strict : bool) : res pobj :=
    do o <- load k c p d strict; Ok (PObj o None).

  (* 542-550 copy, 586-608, 799-815 and 2837-2848 _copy; the source is the same after it but
     for the octets it remembers, which does not show *)
  Definition p_copy (x : pobj) : res pobj :=
    let o := q_obj x in
    let base := Obj (o_tagging o) (Enc 0 None (contents o) [] false) (Cache (c_native (o_cache o)) None None [] None) None in
    do (r, src) <- (if e_indef (o_enc o) then
                      match p_bytes x with
                      | (x1, Ok b) => match p_set (PObj base None) (NBytes b) with
                                      | (r, Ok tt) => Ok (q_obj r, q_obj x1)
                                      | (_, Err e) => Err e
                                      end
                      | (_, Err e) => Err e
                      end
                    else Ok (base, o));
    do q <- match q_parsed x with
            | None => Ok None
            | Some q => do v <- x_copy (methods (cls (q_class q))) (q_value q); Ok (Some (with_value q v))
            end;
    Ok (PObj (set_bytes r (c_bytes (o_cache src))) q).

  (* what a program does with a string *)
  Inductive pdeed :=
  | PSet (v : native)
  | PParse (s : option nat) (p : option params)
  | PParsed
  | PBytes
  | PNative
  | PDump (force : bool)
  | PInner (l : list deed).            (* operations on the object of _parsed and on what it holds *)

  Definition pstep (d : pdeed) (x : pobj) : pobj :=
    match d with
    | PSet v => fst (p_set x v)
    | PParse s p => fst (p_parse s p x)
    | PParsed => fst (p_parsed x)
    | PBytes => fst (p_bytes x)
    | PNative => fst (p_native x)
    | PDump f => fst (p_dump f x)
    | PInner l => match q_parsed x with
                  | Some q => PObj (q_obj x) (Some (with_value q (after (cls (q_class q)) l (q_value q))))
                  | None => x
                  end
    end.
  Fixpoint pafter (h : list pdeed) (x : pobj) : pobj :=
    match h with [] => x | d :: r => pafter r (pstep d x) end.
End Pars.
