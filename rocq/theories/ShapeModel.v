(* Model of how class definitions of the library determine structures: attribute lookup
   through the bases of a class, the fields of Sequence and Set (/repo/asn1crypto/core.py
   3325-3380, _setup 3711-3736), the alternatives of Choice (1025-1096), _child_spec of
   SequenceOf and SetOf (4166-4187), the universal tags (the attribute tag of the classes of
   core.py).  The definitions themselves are copied to Shapes.v.

   Simplification: attributes are looked up depth first through the bases, which is Python's
   order wherever no base occurs twice. *)
Require Import ZArith List Bool.
Require Import Coq.Strings.String.
Import ListNotations.
Local Open Scope Z_scope.

(* the class of a field: a class, a SetOf or SequenceOf with the param 'spec', or None, when a
   method listed in _spec_callbacks chooses it *)
Inductive sref := RClass (c : string) | ROf (c item : string) | RCallback.
(* literals given as default *)
Inductive dval := DBool (b : bool) | DNum (z : Z) | DName (s : string) | DBytes (b : list Z) | DSet (l : list string)
  | DDict (l : list (string * dval)).
Record sfield := SField
  { f_name : string; f_ref : sref; f_explicit : option Z; f_implicit : option Z; f_optional : bool; f_default : option dval }.
Record sclass := SClass
  { c_name : string; c_bases : list string; c_class : option Z; c_tag : option Z;
    c_fields : option (list sfield); c_alternatives : option (list sfield); c_child : option string }.

Section Library.
Variable lib : list sclass.

Definition find_class (n : string) : option sclass := find (fun c => String.eqb (c_name c) n) lib.

(* the class and its bases, most derived first; the depth of the library is below the fuel *)
Fixpoint mro (fuel : nat) (n : string) : list sclass :=
  match fuel, find_class n with
  | S k, Some c => c :: flat_map (mro k) (c_bases c)
  | _, _ => []
  end.
Definition bases (n : string) : list sclass := mro 8 n.

(* getattr *)
Fixpoint first {A} (get : sclass -> option A) (l : list sclass) : option A :=
  match l with
  | [] => None
  | c :: r => match get c with Some x => Some x | None => first get r end
  end.
Definition attribute {A} (get : sclass -> option A) (n : string) : option A := first get (bases n).

(* issubclass *)
Definition subclass (n base : string) : bool := existsb (fun c => String.eqb (c_name c) base) (bases n).
Open Scope string_scope.

(* what an encoding is made of.  Types are universal ones, open ones (ANY), lists given in place, types
   chosen by a method, or named *)
Inductive ty := Universal (tag : Z) | Open | ListOf (tag : Z) (item : ty) | Chosen | Named (n : string).
Inductive tagging := Untagged | Explicit (n : Z) | Implicit (n : Z).
Inductive presence := Required | Optional | Default (d : dval).
Record component := Component { p_name : string; p_tag : tagging; p_type : ty; p_presence : presence }.
Inductive def :=
| Components (tag : Z) (l : list component)        (* SEQUENCE (16) and SET (17) *)
| Items (tag : Z) (item : ty)                      (* SEQUENCE OF (16) and SET OF (17) *)
| Alternatives (outer : option (Z * Z)) (l : list component)   (* CHOICE, under an explicit tag *)
| Simple (tag : Z).

Definition structured (n : string) : bool :=
  subclass n "core.Sequence" || subclass n "core.SequenceOf" || subclass n "core.Choice".

(* the type of a field of the class: primitives count as the universal type of their tag *)
Definition type_of (n : string) : option ty :=
  if subclass n "core.Any" then Some Open
  else if structured n then Some (Named n)
  else option_map Universal (attribute c_tag n).
Definition type_of_ref (r : sref) : option ty :=
  match r with
  | RCallback => Some Chosen
  | RClass n => type_of n
  | ROf n i => match attribute c_tag n, type_of i with Some t, Some i => Some (ListOf t i) | _, _ => None end
  end.

(* core.py:346-403 (explicit before implicit); 3925, 3998-4003: a field with a default may be missing *)
Definition component_of (f : sfield) : option component :=
  option_map (fun t => Component (f_name f)
    (match f_explicit f, f_implicit f with Some n, _ => Explicit n | None, Some n => Implicit n | None, None => Untagged end) t
    (match f_default f with Some d => Default d | None => if f_optional f then Optional else Required end)) (type_of_ref (f_ref f)).
Fixpoint all_some {A B} (f : A -> option B) (l : list A) : option (list B) :=
  match l with
  | [] => Some []
  | x :: r => match f x, all_some f r with Some y, Some r => Some (y :: r) | _, _ => None end
  end.

(* what objects of the class are encoded as.  The tag of a Choice is not written (1339-1362), so class_ and tag of a
   Choice play no part *)
Definition def_of (n : string) : option def :=
  if subclass n "core.Sequence" then
    match attribute c_tag n, attribute c_fields n with
    | Some t, Some l => option_map (Components t) (all_some component_of l)
    | _, _ => None
    end
  else if subclass n "core.SequenceOf" then
    match attribute c_tag n, attribute c_child n with
    | Some t, Some i => option_map (Items t) (type_of i)
    | _, _ => None
    end
  else if subclass n "core.Choice" then
    match attribute c_alternatives n with Some l => option_map (Alternatives None) (all_some component_of l) | None => None end
  else option_map Simple (attribute c_tag n).
End Library.
