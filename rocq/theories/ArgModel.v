(* The tagging arguments of constructors as users write them, old style and new style
   (core.py:242-446, Asn1Value.__init__), and the conversion of old style parameters of fields
   (core.py:5278-5294, _tag_type_to_explicit_implicit).
   Simplifications: booleans given as numbers, sequences other than tuples and classes that cannot
   be hashed are left out; the class attributes are those of PrimModel. *)
Require Import Verif.Base Verif.Text Verif.PrimModel.

(* a class: a number, a text, anything else *)
Inductive carg := CInt (z : Z) | CText (t : text) | COther.
(* a tag: a number, anything else; None is None *)
Inductive targ := TInt (z : Z) | TOther.
(* explicit: a number, a pair that is not known to be one, a tuple of pairs *)
Inductive earg := EInt (z : Z) | EPair (c : carg) (t : option targ) | EMany (l : list (carg * option targ)).
Inductive iarg := IInt (z : Z) | IPair (c : carg) (t : option targ).
Record tags := Tags { g_class : Z; g_tag : option targ; g_implicit : bool; g_explicit : list (Z * option targ) }.

(* core.py:88-97 CLASS_NAME_TO_NUM_MAP *)
Definition class_num (c : carg) : option Z :=
  match c with
  | CInt z => if (0 <=? z) && (z <=? 3) then Some z else None
  | CText t =>
      if eqb_text t (tx "universal") then Some 0
      else if eqb_text t (tx "application") then Some 1
      else if eqb_text t (tx "context") then Some 2
      else if eqb_text t (tx "private") then Some 3 else None
  | COther => None
  end.
Definition context : carg := CText (tx "context").
Definition or_context (c : option carg) : carg := match c with Some c => c | None => context end.

(* 349-377 the body of the loop; 358 looks the class up before 359 reports that it is unknown *)
Definition explicit_tag (ct : carg * option targ) : res (Z * option targ) :=
  do z <- match fst ct with
          | CInt _ => match class_num (fst ct) with Some z => Ok z | None => Err ValueError end
          | _ => match class_num (fst ct) with Some z => Ok z | None => Err KeyError end
          end;
  match snd ct with Some TOther => Err TypeError | t => Ok (z, t) end.
Fixpoint explicit_tags (l : list (carg * option targ)) : res (list (Z * option targ)) :=
  match l with
  | [] => Ok []
  | ct :: r => do x <- explicit_tag ct; do y <- explicit_tags r; Ok (x :: y)
  end.
(* "class_, tag = explicit[0]" when a pair without a number is taken for a tuple of pairs: a text
   of two characters gives two texts *)
Definition unpacked (c : carg) : res (Z * option targ) :=
  match c with
  | CText [a; b] => explicit_tag (CText [a], Some TOther)
  | CText _ => Err ValueError
  | _ => Err TypeError
  end.
Definition given_explicit (e : earg) : res (list (Z * option targ)) :=
  match e with
  | EInt z => explicit_tags []                                 (* not reached: 310-313 *)
  | EPair c (Some (TInt z)) => explicit_tags [(c, Some (TInt z))]
  | EPair c _ => do _ <- unpacked c; Err TypeError
  | EMany l => explicit_tags l
  end.

(* 309-417, 432-433 *)
Definition arguments (k : pcls) (explicit : option earg) (implicit : option iarg) (no_explicit : bool)
    (tag_type : option text) (class_ : option carg) (tag : option targ) : res tags :=
  (* 309-319 *)
  let '(explicit, class_) := match explicit with
                             | Some (EInt z) => (Some (EPair (or_context class_) (Some (TInt z))), Some (or_context class_))
                             | _ => (explicit, class_)
                             end in
  let is s := match tag_type with Some t => eqb_text t (tx s) | None => false end in
  let '(tag_type, tag) := match explicit with Some _ => if is "explicit"%string then (None, None) else (tag_type, tag) | None => (tag_type, tag) end in
  (* 320-328 *)
  let is s := match tag_type with Some t => eqb_text t (tx s) | None => false end in
  let '(implicit, class_) := match implicit with
                             | Some (IInt z) => (Some (IPair (or_context class_) (Some (TInt z))), Some (or_context class_))
                             | _ => (implicit, class_)
                             end in
  let '(tag_type, tag) := match implicit with Some _ => if is "implicit"%string then (None, None) else (tag_type, tag) | None => (tag_type, tag) end in
  (* 330-344 *)
  let is s := match tag_type with Some t => eqb_text t (tx s) | None => false end in
  do (explicit, implicit, class_) <-
    match tag_type with
    | None => Ok (explicit, implicit, class_)
    | Some _ =>
        let c := or_context class_ in
        if is "explicit"%string then Ok (Some (EPair c tag), implicit, Some c)
        else if is "implicit"%string then Ok (explicit, Some (IPair c tag), Some c)
        else Err ValueError
    end;
  do g <- match explicit, implicit with
          | Some e, _ => do l <- given_explicit e; Ok (Tags (k_class k) (Some (TInt (k_tag k))) false (map (fun ct => (fst ct, Some (TInt (snd ct)))) (k_explicit k) ++ l))
          | None, Some (IPair c t) =>
              (* 379-399 *)
              match class_num c with
              | None => Err ValueError
              | Some z => match t with
                          | Some TOther => Err TypeError
                          | _ => Ok (Tags z t true (map (fun ct => (fst ct, Some (TInt (snd ct)))) (k_explicit k)))
                          end
              end
          | None, Some (IInt _) => Err ValueError                (* not reached: 321-324 *)
          | None, None =>
              (* 400-416 *)
              do z <- match class_ with
                      | None => Ok (k_class k)
                      | Some c => match class_num c with Some z => Ok z | None => Err ValueError end
                      end;
              Ok (Tags z (match tag with Some t => Some t | None => Some (TInt (k_tag k)) end) false (map (fun ct => (fst ct, Some (TInt (snd ct)))) (k_explicit k)))
          end;
  Ok (if no_explicit then Tags (g_class g) (g_tag g) (g_implicit g) [] else g).

(* the parameters of a field as a dict; a key may be present with None as its tag *)
Record pdict := Dict { d_explicit : option earg; d_implicit : option iarg; d_tag_type : option text;
                       d_tag : option (option targ); d_class : option carg; d_class_ : option carg }.
(* 5278-5294 *)
Definition convert (d : pdict) : pdict * res unit :=
  match d_tag_type d with
  | None => (d, Ok tt)
  | Some t =>
      let c := match d_class d with Some c => c | None => CInt 2 end in
      let gone d := (* 5291-5294 *)
        let d := Dict (d_explicit d) (d_implicit d) None (d_tag d) (d_class d) (d_class_ d) in
        match d_tag d with
        | None => (d, Err KeyError)
        | Some _ => (Dict (d_explicit d) (d_implicit d) None None None (d_class_ d), Ok tt)
        end in
      if eqb_text t (tx "explicit") then
        match d_tag d with
        | None => (d, Err KeyError)
        | Some n => gone (Dict (Some (EPair c n)) (d_implicit d) (d_tag_type d) (d_tag d) (d_class d) (d_class_ d))
        end
      else if eqb_text t (tx "implicit") then
        match d_tag d with
        | None => (d, Err KeyError)
        | Some n => gone (Dict (d_explicit d) (Some (IPair c n)) (d_tag_type d) (d_tag d) (d_class d) (d_class_ d))
        end
      else gone d
  end.
(* Cls( **params ): "class" is no argument of constructors *)
Definition apply (k : pcls) (no_explicit : bool) (d : pdict) : res tags :=
  match d_class d with
  | Some _ => Err TypeError
  | None => arguments k (d_explicit d) (d_implicit d) no_explicit (d_tag_type d) (d_class_ d) (match d_tag d with Some t => t | None => None end)
  end.
