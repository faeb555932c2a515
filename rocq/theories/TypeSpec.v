(* When a spec of ContModel, or a class of ReadModel, is that of an ASN.1 type as class definitions determine it (ShapeModel.def_of): the
   universal types by their tags (X.680 8.4), components with their names, tags, presence and defaults, lists and choices. *)
Require Import Verif.Base Verif.Text Verif.CodecModel Verif.PrimModel Verif.ContModel Verif.ContSpec Verif.ReadModel.
Require Coq.Strings.String.
Require Verif.ShapeModel.
Import Coq.Strings.String.StringSyntax.
Local Open Scope string_scope.
Notation string := String.string.

(* how values of a universal type are held, and strings encoded *)
Definition universal_kind (tag : Z) (k : kind) : Prop :=
  match k with
  | KBool => tag = 1 | KInt _ => tag = 2 | KBits _ | KOctetBits | KIntBits => tag = 3 | KOctets => tag = 4 \/ tag = 21 | KIntOctets => tag = 4
  | KNull => tag = 5 | KOid _ => tag = 6 \/ tag = 13 | KEnum _ => tag = 10
  | KStr Utf8 => tag = 12 | KStr Teletex => tag = 20 | KStr Ascii => tag = 22 | KStr Utf32be => tag = 28 | KStr Utf16be => tag = 30
  | KStr Latin1 => tag = 18 \/ tag = 19 \/ tag = 26 \/ tag = 27
  | KUtcTime => tag = 23 | KGenTime _ => tag = 24
  | _ => False
  end.
Definition integers (k : kind) : Prop := match k with KIntBits | KIntOctets => True | _ => False end.

Definition params_are (t : ShapeModel.tagging) (p : params) : Prop :=
  match t with
  | ShapeModel.Untagged => p = no_params
  | ShapeModel.Explicit n => p = Params [(2, n)] None false
  | ShapeModel.Implicit n => p = Params [] (Some (2, n)) false
  end.
Definition default_is (d : ShapeModel.dval) (a : aval) : Prop :=
  match d with
  | ShapeModel.DBool b => a = APrim (NBool b)
  | ShapeModel.DNum z => a = APrim (NInt z)
  | ShapeModel.DName s => a = APrim (NText (tx s))
  | ShapeModel.DBytes b => a = APrim (NBytes b)
  | _ => False
  end.
Definition presence_is (p : ShapeModel.presence) (q : presence) : Prop :=
  match p, q with
  | ShapeModel.Required, Required | ShapeModel.Optional, Optional => True
  | ShapeModel.Default d, Default a => default_is d a
  | _, _ => False
  end.

Section Library.
Variable lib : list ShapeModel.sclass.

(* the spec is that of the type; neither octets nor bits are held as integers *)
Fixpoint spec_is (s : spec) (t : ShapeModel.ty) {struct s} : Prop :=
  let component (f : fld * spec) (p : ShapeModel.component) :=
    f_name (fst f) = tx (ShapeModel.p_name p) /\ params_are (ShapeModel.p_tag p) (f_params (fst f)) /\
    presence_is (ShapeModel.p_presence p) (f_pres (fst f)) /\ spec_is (snd f) (ShapeModel.p_type p) in
  match s with
  | SPrim k c => exists n, t = ShapeModel.Universal n /\ c = Cls 0 n [] [] /\ universal_kind n k /\ ~ integers k
  | SSeq c fs => exists n l, t = ShapeModel.Named n /\ ShapeModel.def_of lib n = Some (ShapeModel.Components 16 l) /\ c = Cls 0 16 [] [] /\ all2 component fs l
  | SSet c fs => False
  | SSeqOf c s' => exists n u, t = ShapeModel.Named n /\ ShapeModel.def_of lib n = Some (ShapeModel.Items 16 u) /\ c = Cls 0 16 [] [] /\ spec_is s' u
  | SSetOf c s' => exists n u, t = ShapeModel.Named n /\ ShapeModel.def_of lib n = Some (ShapeModel.Items 17 u) /\ c = Cls 0 17 [] [] /\ spec_is s' u
  | SChoice ex fs => exists n l, t = ShapeModel.Named n /\ ShapeModel.def_of lib n = Some (ShapeModel.Alternatives None l) /\ ex = [] /\ all2 component fs l
  end.

(* ---- by reference ---- *)
Definition ref_is (r : option ref) (t : ShapeModel.ty) : Prop :=
  match r, t with
  | None, ShapeModel.Chosen => True
  | Some (CName n), _ => ShapeModel.type_of lib n = Some t
  | Some (COf n i), ShapeModel.ListOf k u => ShapeModel.attribute lib ShapeModel.c_tag n = Some k /\ ShapeModel.type_of lib i = Some u
  | _, _ => False
  end.
Definition rpresence_is (p : ShapeModel.presence) (q : gpres) : Prop :=
  match p, q with
  | ShapeModel.Required, GReq | ShapeModel.Optional, GOpt | ShapeModel.Default _, GDef _ => True
  | _, _ => False
  end.
Definition rfield_is (f : rfield) (p : ShapeModel.component) : Prop :=
  g_name f = tx (ShapeModel.p_name p) /\ params_are (ShapeModel.p_tag p) (g_params f) /\ rpresence_is (ShapeModel.p_presence p) (g_pres f) /\
  ref_is (g_class f) (ShapeModel.p_type p).
(* own_text: the class turns octets into text by itself *)
Definition class_is (n : string) (own_text : bool) (c : pcls) (d : rdef) : Prop :=
  let sub b := ShapeModel.subclass lib n b = true in
  match d with
  | DPrim k => ShapeModel.def_of lib n = Some (ShapeModel.Simple (k_tag c)) /\
      if own_text then k = KOctets
      else universal_kind (k_tag c) k /\ (k = KIntOctets <-> sub "core.IntegerOctetString") /\ (k = KIntBits <-> sub "core.IntegerBitString") /\ (k = KOctetBits <-> sub "core.OctetBitString")
  | DParse bits => ShapeModel.def_of lib n = Some (ShapeModel.Simple (k_tag c)) /\ k_tag c = if bits then 3 else 4
  | DAny => ShapeModel.type_of lib n = Some ShapeModel.Open
  | DSeq fs _ => exists l, ShapeModel.def_of lib n = Some (ShapeModel.Components (k_tag c) l) /\ (k_tag c = 16 \/ k_tag c = 11) /\ all2 rfield_is fs l
  | DOf None => ShapeModel.attribute lib ShapeModel.c_child n = None /\ ShapeModel.attribute lib ShapeModel.c_tag n = Some (k_tag c) /\ sub "core.SequenceOf"
  | DOf (Some r) => exists u, ShapeModel.def_of lib n = Some (ShapeModel.Items (k_tag c) u) /\ ref_is (Some r) u
  | DChoice fs _ => exists l, ShapeModel.def_of lib n = Some (ShapeModel.Alternatives None l) /\ all2 rfield_is fs l
  end.
End Library.
