(* The classes of the library as specs of ContModel: what the constructors, load, dump and
   native of a class work on is fixed by the class attributes copied to Shapes.v and Tables.v.

   spec_of gives a spec only to classes that the container model covers: no Any, no
   ParsableOctetString, no Set, no field whose class a method or an object identifier selects,
   and no class that redefines something core.py defines. *)
Require Import Verif.Base Verif.Text Verif.CodecModel Verif.PrimModel Verif.ContModel.
Require Verif.NameModel.
Require Coq.Strings.String.
Require Verif.ShapeModel Verif.Shapes Verif.Tables.
Import Coq.Strings.String.StringSyntax.
Local Open Scope string_scope.
Notation string := String.string.

Definition lib : list ShapeModel.sclass := Shapes.library.
Definition ancestors (n : string) : list string := map ShapeModel.c_name (ShapeModel.bases lib n).
Definition mem (n : string) (l : list string) : bool := existsb (String.eqb n) l.

(* ---- classes that only set the attributes the model knows ---- *)
(* attributes read into the spec, and operators the model does not have *)
Definition known_names : list string :=
  ["_fields"; "_alternatives"; "_child_spec"; "_map"; "class_"; "tag"; "__eq__"; "__ne__"; "__hash__"; "__str__"].
Definition in_core (n : string) : bool := String.prefix "core." n.
Definition core_names : list string := Eval vm_compute in
  filter (fun x => negb (mem x known_names)) (flat_map (fun d => if in_core (fst d) then snd d else []) Shapes.defines).
Definition names_of (n : string) : list string :=
  match find (fun d => String.eqb (fst d) n) Shapes.defines with Some d => snd d | None => [] end.
Definition plain (n : string) : bool :=
  forallb (fun k => in_core k || negb (existsb (fun x => mem x core_names) (names_of k))) (ancestors n).

(* ---- primitive classes ---- *)
(* _map, found through the bases *)
Fixpoint named_map {A} (tbl : list (string * list A)) (l : list string) : list A :=
  match l with
  | [] => []
  | n :: r => match find (fun p => String.eqb (fst p) n) tbl with Some p => snd p | None => named_map tbl r end
  end.
Definition numbers (m : list (Z * string)) : list (Z * text) := map (fun p => (fst p, tx (snd p))) m.
Definition dotted (m : list (string * string)) : list (text * text) := map (fun p => (tx (fst p), tx (snd p))) m.
Definition some_map {A} (m : list A) : option (list A) := match m with [] => None | _ => Some m end.

(* core.py:1862-3322, 4843-5180: the class whose methods are used; pad: see TimeModel *)
Definition kind_of (pad : bool) (l : list string) : option kind :=
  let is n := mem n l in
  if is "core.Boolean" then Some KBool
  else if is "core.Enumerated" then Some (KEnum (some_map (numbers (named_map Tables.enum_maps l))))
  else if is "core.Integer" then Some (KInt (numbers (named_map Tables.int_maps l)))
  else if is "core.BitString" then Some (KBits (some_map (numbers (named_map Tables.bit_maps l))))
  else if is "core.OctetBitString" then Some KOctetBits
  else if is "core.IntegerBitString" then Some KIntBits
  else if is "core.ParsableOctetString" then None
  else if is "core.OctetString" then Some KOctets
  else if is "core.IntegerOctetString" then Some KIntOctets
  else if is "core.Null" then Some KNull
  else if is "core.ObjectIdentifier" then Some (KOid (dotted (named_map Tables.oid_maps l)))
  else if is "core.UTF8String" then Some (KStr Utf8)
  else if is "core.NumericString" then Some (KStr Latin1)
  else if is "core.PrintableString" then Some (KStr Latin1)
  else if is "core.TeletexString" then Some (KStr Teletex)
  else if is "core.IA5String" then Some (KStr Ascii)
  else if is "core.VisibleString" then Some (KStr Latin1)
  else if is "core.GeneralString" then Some (KStr Latin1)
  else if is "core.UniversalString" then Some (KStr Utf32be)
  else if is "core.BMPString" then Some (KStr Utf16be)
  else if is "core.UTCTime" then Some KUtcTime
  else if is "core.GeneralizedTime" then Some (KGenTime pad)
  else None.

(* ---- fields ---- *)
Definition default_of (d : ShapeModel.dval) : option aval :=
  match d with
  | ShapeModel.DBool b => Some (APrim (NBool b))
  | ShapeModel.DNum z => Some (APrim (NInt z))
  | ShapeModel.DName s => Some (APrim (NText (tx s)))
  | ShapeModel.DBytes b => Some (APrim (NBytes b))
  | _ => None
  end.
Definition presence_of (f : ShapeModel.sfield) : option presence :=
  match ShapeModel.f_default f, ShapeModel.f_optional f with
  | None, true => Some Optional
  | None, false => Some Required
  | Some d, false => option_map Default (default_of d)
  | Some d, true => None
  end.
Definition params_of (f : ShapeModel.sfield) : params :=
  Params (match ShapeModel.f_explicit f with Some n => [(2, n)] | None => [] end)
    (match ShapeModel.f_explicit f, ShapeModel.f_implicit f with None, Some n => Some (2, n) | _, _ => None end) false.

Section Fields.
  Variable class : string -> option spec.
  Definition field_of (f : ShapeModel.sfield) : option (fld * spec) :=
    match ShapeModel.f_ref f, presence_of f with
    | ShapeModel.RClass n, Some p => option_map (fun s => (Fld (tx (ShapeModel.f_name f)) (params_of f) p, s)) (class n)
    | _, _ => None
    end.
End Fields.

(* the fuel bounds the nesting of classes; plain: the classes that may occur *)
Fixpoint class_spec (fuel : nat) (plain : string -> bool) (pad : bool) (n : string) : option spec :=
  match fuel with
  | O => None
  | S k =>
      let l := ancestors n in
      let c t := Cls 0 t [] [] in
      if negb (plain n) then None
      else if mem "core.Set" l then None
      else if mem "core.Sequence" l then
        match ShapeModel.attribute lib ShapeModel.c_tag n, ShapeModel.attribute lib ShapeModel.c_fields n with
        | Some t, Some fs => option_map (SSeq (c t)) (ShapeModel.all_some (field_of (class_spec k plain pad)) fs)
        | _, _ => None
        end
      else if mem "core.SequenceOf" l then
        match ShapeModel.attribute lib ShapeModel.c_tag n, ShapeModel.attribute lib ShapeModel.c_child n with
        | Some t, Some i => option_map (if mem "core.SetOf" l then SSetOf (c t) else SSeqOf (c t)) (class_spec k plain pad i)
        | _, _ => None
        end
      else if mem "core.Choice" l then
        match ShapeModel.attribute lib ShapeModel.c_tag n, ShapeModel.attribute lib ShapeModel.c_alternatives n with
        | None, Some fs => option_map (SChoice []) (ShapeModel.all_some (field_of (class_spec k plain pad)) fs)
        | _, _ => None
        end
      else match kind_of pad l, ShapeModel.attribute lib ShapeModel.c_tag n with
        | Some k, Some t => Some (SPrim k (c t))
        | _, _ => None
        end
  end.
(* x509.py:459-480 NotReallyTeletexString writes text as core.TeletexString does and reads it as cp1252 *)
Definition teletex_name_contents (t : text) : res bytes := encode Teletex t.
Definition teletex_name_native (b : bytes) : res text := NameModel.cp1252 b.
Definition spec_of (pad : bool) (n : string) : option spec := class_spec 8 plain pad n.
