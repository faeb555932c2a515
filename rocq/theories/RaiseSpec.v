(* Which exceptions the definition of a class allows for. *)
Require Import Verif.Base Verif.ParserModel Verif.PrimModel Verif.ReadModel.

(* ValueError and its subclass UnicodeError *)
Definition expected (e : exn) : Prop := e = ValueError \/ e = UnicodeError.

(* primitive values: bit strings of no octets, names of enumerated numbers, the last instant
   of year 9999, classes without a native *)
Definition own_error (k : kind) (e : exn) : Prop :=
  match k with
  | KBits _ | KIntBits | KOctetBits => e = IndexError
  | KEnum None => e = TypeError
  | KEnum (Some _) => e = KeyError
  | KGenTime _ => e = OverflowError
  | KRaw => e = AttributeError
  | _ => False
  end.
(* values read by their tag alone may be any of them, but no class of that kind has names *)
Definition untyped_error (e : exn) : Prop := e = TypeError \/ e = IndexError \/ e = OverflowError \/ e = AttributeError.

(* a sequence may be followed by further elements, which are read by their tags; a field may have
   a class chosen by a name for which there is no choice; a choice may look at what it is given *)
Definition here (d : rdef) (e : exn) : Prop :=
  match d with
  | DPrim k => own_error k e
  | DAny => untyped_error e
  | DParse bits => bits = true /\ e = IndexError
  | DSeq _ sel => untyped_error e \/ (e = KeyError /\ exists s, sel = Some s /\ s_else s = None)
  | DOf None => untyped_error e
  | DOf (Some _) => False
  | DChoice alts fix_at => fix_at <> None \/ (untyped_error e /\ exists f, In f alts /\ g_class f = None)
  end.
(* the classes it is read with *)
Definition points_to (p : pick) (r : ref) : Prop := p = As r \/ p = Inside r.
Definition uses (d : rdef) (r : ref) : Prop :=
  match d with
  | DSeq fs sel => (exists f, In f fs /\ g_class f = Some r) \/
      exists s p, sel = Some s /\ points_to p r /\ (s_else s = Some p \/ exists t, In (t, p) (s_table s))
  | DOf (Some r') => r = r'
  | DChoice alts _ => exists f, In f alts /\ g_class f = Some r
  | _ => False
  end.

Inductive can_raise (env : ref -> option rclass) (e : exn) (r : ref) : Prop :=
| raise_here (k : rclass) : env r = Some k -> here (r_def k) e -> can_raise env e r
| raise_inside (k : rclass) (r' : ref) : env r = Some k -> uses (r_def k) r' -> can_raise env e r' -> can_raise env e r.
