(* What native value an object made of a Python value has: relation [makes], between a Python value
   given to the constructor of a class and the native value, stated without reference to how the library
   writes or reads.  A dict names the fields, a tuple the alternative; what is left out, or given as None, is absent
   or the default; a set has its elements in some order. *)
Require Import Verif.Base Verif.ParserSpec Verif.Text Verif.TagSpec Verif.OidSpec Verif.PrimModel Verif.PrimSpec Verif.ContModel Verif.ContSpec Verif.GenModel Verif.ReadModel Verif.ReadSpec Verif.RecodeSpec.
Require Import Sorting.Permutation.

(* the native for a value of a primitive type: numbers and object identifiers may be given where there is a name for them *)
Definition means (kd : kind) (v w : native) : Prop :=
  v <> NNone /\
  match kd, v, w with
  | KOid m, NText s, NText t =>
      (s = t /\ ~ In s (map fst m) /\ exists x, der_contents kd w x) \/
      (preferred m s t /\ ~ In s (map snd m) /\ exists arcs, legal_oid arcs /\ s = dotted_text arcs)
  | KOid _, _, _ => False
  | KInt m, NInt z, NText t | KEnum (Some m), NInt z, NText t => In (z, t) m
  | _, _, _ => v = w /\ holds kd None v
  end.
(* octets with a meaning of their own *)
Definition plain_contents (kd : kind) (x : bytes) (v : native) : Prop :=
  match kd with
  | KOctets => bytes_ok x /\ v = NBytes x
  | KNull => x = [] /\ v = NNone
  | _ => False
  end.

Section Makes.
Variable env : ref -> option rclass.
(* classes that turn values into octets of their own; and their octets into those in DER *)
Variable own : ref -> option (native -> res bytes).
Variable redo : ref -> option (bytes -> res bytes).
(* fields that follow from others *)
Variable fill : ref -> list (text * aval) -> list (text * aval).
(* classes left out *)
Variable special : ref -> bool.

Definition choice_type (r : ref) : Prop := exists k alts fx, env r = Some k /\ r_def k = DChoice alts fx.

Section One.
  Variable mk : ref -> option ref -> aval -> aval -> Prop.

  (* a value, or an object made of it; where an object is needed for a choice, a tuple is not enough *)
  Definition given_for (r : ref) (tuple : bool) (x a : aval) : Prop :=
    match x with
    | AObj _ y => mk r None y a
    | AChoice _ _ => tuple = true /\ mk r None x a
    | _ => ~ choice_type r /\ mk r None x a
    end.
  Definition element_made (f : rfield) (pk : pick) (x a : aval) : Prop :=
    match pk, g_class f with
    | Keep, Some r => given_for r true x a
    | As r, _ => given_for r true x a
    | Inside r, Some k => mk k (Some r) x a
    | _, None => False
    end.
  (* a value that is the default is shown as the default *)
  Definition field_made (li : list (text * aval)) (ft : rfield * pick) (na : text * aval) : Prop :=
    let f := fst ft in
    fst na = g_name f /\
    match dict_get li (g_name f), g_pres f with
    | None, GReq => False
    | (None | Some ANone), GOpt => snd na = ANone
    | (None | Some ANone), GDef d => snd na = d
    | Some x, GDef d => element_made f (snd ft) x (snd na) \/ (snd na = d /\ exists a, element_made f (snd ft) x a /\ alike a d)
    | Some x, _ => element_made f (snd ft) x (snd na)
    end.
  Definition fields_made (fs : list rfield) (sel : option selector) (li li' : list (text * aval)) (a : aval) : Prop :=
    exists la ts, a = ADict la /\ li <> [] /\ (forall n x, In (n, x) li -> exists f, In f fs /\ g_name f = n) /\
      field_types sel fs la ts /\ all2 (field_made li') ts la.
  Definition items_made (set : bool) (r : ref) (li : list aval) (a : aval) : Prop :=
    exists la lb, a = AList lb /\ all2 (given_for r false) li la /\ (if set then Permutation la lb else la = lb).
  Definition alternative_made (alts : list rfield) (fix_at : option nat) (name : text) (x a : aval) : Prop :=
    exists n f r, nth_error alts n = Some f /\ fix_at <> Some n /\ g_name f = name /\ g_class f = Some r /\
      mk r None (match x with AObj _ y => y | _ => x end) a.

  (* b: the native, before a native method of the class *)
  Definition body (r : ref) (k : rclass) (inside : option ref) (i b : aval) : Prop :=
    match r_def k, inside with
    | DPrim kd, None =>
        match own r, i with
        | _, ANone => kd = KNull /\ b = ANone /\ redo r = None
        | None, APrim v => exists w, means kd v w /\ b = APrim w /\ redo r = None
        | Some f, APrim v => exists x w, f v = Ok x /\ plain_contents kd x w /\ b = prim_value w /\
            match redo r with Some g => g x = Ok x | None => True end
        | _, _ => False
        end
    | DAny, None => False
    | DParse bits, None => exists x, i = APrim (NBytes x) /\ bytes_ok x /\ b = APrim (NBytes x)
    | DParse bits, Some r' =>
        match i with
        | AObj p y => p = no_params /\ mk r' None y b
        | _ => mk r' None i b
        end
    | DSeq fs sel, None => exists li, i = ADict li /\ fields_made fs sel li (fill r li) b
    | DOf item, None => exists r' li, item = Some r' /\ i = AList li /\ items_made (k_tag (r_cls k) =? 17) r' li b
    | DChoice alts fix_at, None => exists name x, i = AChoice name x /\ alternative_made alts fix_at name x b
    | _, Some _ => False
    end.
End One.

Fixpoint makes (n : nat) (r : ref) (inside : option ref) (i a : aval) : Prop :=
  match n with
  | O => False
  | S m => exists k b, env r = Some k /\ special r = false /\ body (makes m) r k inside i b /\ r_out k b = Ok a
  end.
End Makes.
