(* Model of Any (/repo/asn1crypto/core.py 875-1023) and of _build for it (5484-5558).

   As in ParsModel.v the classes a program parses with are numbered by [cls], and [guess]
   stands for _parse_build without a spec.

   Simplifications: of spec_params only explicit and implicit are modelled, and explicit is
   a tag number or a tuple of (class, tag) pairs; class_, tag and implicit of the Any object
   itself are left out, no method of Any reads them. *)
Require Import Verif.Base Verif.IntModel Verif.ParserModel Verif.Text Verif.PrimModel Verif.ContModel Verif.ContPath Verif.ParsModel.

(* the dict spec_params, as the caller wrote it *)
Inductive given := GNone | GTag (n : Z) | GTags (l : list (Z * Z)).
Record dict := Dict { g_explicit : given; g_implicit : option (Z * Z) }.
Definition empty_dict : dict := Dict GNone None.
Definition is_empty (d : dict) : bool :=
  match g_explicit d, g_implicit d with GNone, None => true | _, _ => false end.
(* how Asn1Value.__init__ (300-361) reads it *)
Definition params_of (d : dict) : params :=
  Params (match g_explicit d with GNone => [] | GTag n => [(2, n)] | GTags l => l end) (g_implicit d) false.

Definition eqb_given (a b : given) : bool :=
  match a, b with
  | GNone, GNone => true
  | GTag x, GTag y => x =? y
  | GTags x, GTags y => eqb_pairs x y
  | _, _ => false
  end.
Definition eqb_dict (a b : dict) : bool :=
  eqb_given (g_explicit a) (g_explicit b)
  && eqb_opt (fun x y => (fst x =? fst y) && (snd x =? snd y)) (g_implicit a) (g_implicit b).

(* _parsed, and the object *)
Record aparsed := AParsed { h_class : nat; h_value : value; h_spec : option nat; h_dict : option dict }.
Record aobj := AnyObj { y_explicit : list (Z * Z); y_header : option bytes; y_contents : option bytes;
                        y_trailer : bytes; y_parsed : option aparsed }.

Definition same_dict (q : aparsed) (s : option nat) (p : option dict) : bool :=
  eqb_opt Nat.eqb (h_spec q) s && eqb_opt eqb_dict (h_dict q) p.

(* 965-972: the explicit tags of the Any are put before those passed.  The dict the caller
   passed is the one that is changed, unless it is empty *)
Definition put_explicit (ex : list (Z * Z)) (p : dict) : res dict :=
  match ex with
  | [] => Ok p
  | _ => match g_explicit p with
         | GNone => Ok (Dict (GTags ex) (g_implicit p))
         | GTags l => Ok (Dict (GTags (ex ++ l)) (g_implicit p))
         | GTag _ => Err TypeError
         end
  end.

Section Any.
  Variable cls : nat -> spec.
  Variable guess : option params -> bytes -> res (nat * value).

  (* 944-998 parse; the third component is the dict of the caller afterwards *)
  Definition any_parse (s : option nat) (p : option dict) (y : aobj) : aobj * res (nat * value) * option dict :=
    let again :=
      let passed := match p with Some d => d | None => empty_dict end in
      match put_explicit (y_explicit y) passed with
      | Err e => (y, Err e, p)
      | Ok passed' =>
          let p' := match p with Some d => if is_empty d then p else Some passed' | None => None end in
          match y_header y, y_contents y with
          | Some h, Some c =>
              let all := h ++ c ++ y_trailer y in
              match parse_with cls guess s (Some (params_of passed')) all with
              | Err e => (y, Err e, p')
              | Ok (n, v) => (AnyObj [] (Some []) (Some all) [] (Some (AParsed n v s p')), Ok (n, v), p')
              end
          | _, _ => (y, Err TypeError, p')
          end
      end in
    match y_parsed y with
    | Some q => if same_dict q s p then (y, Ok (h_class q, h_value q), p) else again
    | None => again
    end.

  (* 930-942 parsed *)
  Definition any_parsed (y : aobj) : aobj * res (nat * value) :=
    match y_parsed y with
    | Some q => (y, Ok (h_class q, h_value q))
    | None => fst (any_parse None None y)
    end.

  Definition with_inner (q : aparsed) (v : value) : aparsed := AParsed (h_class q) v (h_spec q) (h_dict q).
  Definition on_parsed {A} (f : nat -> value -> value * res A) (y : aobj) : aobj * res A :=
    match any_parsed y with
    | (y1, Err e) => (y1, Err e)
    | (y1, Ok _) =>
        match y_parsed y1 with
        | Some q => let '(v, r) := f (h_class q) (h_value q) in
                    (AnyObj (y_explicit y1) (y_header y1) (y_contents y1) (y_trailer y1) (Some (with_inner q v)), r)
        | None => (y1, Err TypeError)
        end
    end.

  (* 916-928 native, 1008-1023 dump *)
  Definition any_native (y : aobj) : aobj * res aval := on_parsed (fun n v => x_native (methods (cls n)) v) y.
  Definition any_dump (force : bool) (y : aobj) : aobj * res bytes := on_parsed (fun n v => x_dump (methods (cls n)) force v) y.

  (* 887-914 __init__ with explicit tags ex and an object of class n, or none *)
  Definition any_make (ex : list (Z * Z)) (x : option (nat * value)) : res aobj :=
    match x with
    | None => Ok (AnyObj ex None None [] None)
    | Some (n, v) =>
        let '(v', r) := x_dump (methods (cls n)) false v in
        do b <- r; Ok (AnyObj ex None (Some b) [] (Some (AParsed n v' (Some n) None)))
    end.

  (* 5484-5547 and 5548-5558, 5654-5657: no check of class, method or tag *)
  Definition any_build (ex : list (Z * Z)) (i : info) : res aobj :=
    do (j, hd, tl) <- peel (rev ex) i (i_header i) (i_trailer i);
    Ok (AnyObj ex (Some hd) (Some (i_contents j)) tl None).

  (* 216-240 load *)
  Definition any_load (ex : list (Z * Z)) (data : bytes) (strict : bool) : res aobj :=
    do (i, e) <- parse_ data (len data) 0;
    if strict && negb (e =? len data) then Err ValueError else any_build ex i.

  (* 542-585 copy, retag, untag with 586-608 and 1000-1006 _copy: header and trailer are those
     of a new object *)
  Definition any_retag (ex : list (Z * Z)) (y : aobj) : res aobj :=
    do q <- match y_parsed y with
            | None => Ok None
            | Some q => do v <- x_copy (methods (cls (h_class q))) (h_value q); Ok (Some (with_inner q v))
            end;
    Ok (AnyObj ex None (y_contents y) [] q).
  Definition any_copy (y : aobj) : res aobj := any_retag (y_explicit y) y.

  (* what a program does with an Any; the dict is a new one each time *)
  Inductive adeed :=
  | YParse (s : option nat) (p : option dict)
  | YParsed
  | YNative
  | YDump (force : bool)
  | YInner (l : list deed).            (* operations on the object of _parsed and on what it holds *)

  Definition astep (d : adeed) (y : aobj) : aobj :=
    match d with
    | YParse s p => fst (fst (any_parse s p y))
    | YParsed => fst (any_parsed y)
    | YNative => fst (any_native y)
    | YDump f => fst (any_dump f y)
    | YInner l => match y_parsed y with
                  | Some q => AnyObj (y_explicit y) (y_header y) (y_contents y) (y_trailer y)
                                (Some (with_inner q (after (cls (h_class q)) l (h_value q))))
                  | None => y
                  end
    end.
  Fixpoint aafter (h : list adeed) (y : aobj) : aobj :=
    match h with [] => y | d :: r => aafter r (astep d y) end.
End Any.
