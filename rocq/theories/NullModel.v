(* Model of /repo/asn1crypto/algos.py:50-104 _ForceNullParameters with the parts of Sequence
   it works on: an algorithm identifier whose parameters follow the algorithm.

   Simplifications: parameters are told apart by their class only; an object of another
   class that happens to have the tag of an alternative of a Choice is taken to be refused. *)
Require Import Verif.Base Verif.Text Verif.OidModel Verif.MapModel Verif.Tables Verif.KeyModel.
Require Coq.Strings.String.
Import Coq.Strings.String.StringSyntax.

(* the parameters: VOID, Null, an object of a class *)
Inductive pval := Absent | NullValue | Value (ty : text).
(* the contents of the identifier, if it is set, and the parameters *)
Record algid := A { a_oid : option bytes; a_params : pval }.
Definition new_algid : algid := A None Absent.

(* what is assigned to the parameters: None, Null(), an object of a class *)
Inductive given := GNone | GNull | GValue (ty : text).
Inductive op :=
| SetAlgorithm (w : access) (v : text)       (* a name or dotted text *)
| SetParameters (g : given)
| DelParameters.                             (* del a['parameters'] *)

Definition null_oid (b : bytes) : bool := existsb (fun s => eqb_text (oid_dotted b) (tx s)) null_algos.

Section Algid.
  Variable c : ocls.                              (* the class of the identifier *)
  Variable specs : option (list (text * text)).   (* _oid_specs, None without _oid_pair *)

  (* algos.py:74-83 _parameters_spec; before the algorithm is set, self['algorithm'] is VOID,
     which has no attribute dotted *)
  Definition parameters_spec (a : algid) : res (option text) :=
    match a_oid a with
    | None => Err AttributeError
    | Some b =>
        match match specs with Some s => dget eqb_text s (snd (oid_read c b)) | None => None end with
        | Some ty => Ok (Some ty)
        | None => Ok (if null_oid b then Some (tx "Null") else None)
        end
    end.

  (* core.py:3778-3879 _make_value for a field of type Any; ECDomainParameters is the only
     Choice: its alternatives, one of them NULL, are wrapped *)
  Definition make_value (s : option text) (g : given) : res pval :=
    match g with
    | GNone => Ok Absent
    | GNull =>
        match s with
        | None => Ok NullValue
        | Some ty => if eqb_text ty (tx "Null") then Ok NullValue
                     else if eqb_text ty (tx "ECDomainParameters") then Ok (Value ty)
                     else Err TypeError
        end
    | GValue t =>
        match s with
        | None => Ok (Value t)
        | Some ty => if eqb_text t ty then Ok (Value t)
                     else if eqb_text ty (tx "ECDomainParameters") then
                       if eqb_text t (tx "NamedCurve") || eqb_text t (tx "SpecifiedECDomain") then Ok (Value ty) else Err ValueError
                     else Err TypeError
        end
    end.
  (* core.py:3563-3616 __setitem__('parameters', g) *)
  Definition set_parameters (a : algid) (g : given) : algid * res unit :=
    match (do s <- parameters_spec a; make_value s g) with
    | Ok p => (A (a_oid a) p, Ok tt)
    | Err e => (a, Err e)
    end.

  (* algos.py:95-104 __setitem__('algorithm', v); with an index nothing follows *)
  Definition set_algorithm (a : algid) (w : access) (v : text) : algid * res unit :=
    match snd (oid_make c v) with
    | Err e => (a, Err e)
    | Ok b =>
        let a := A (Some b) (a_params a) in
        match w, a_params a with
        | ByName, Absent => if null_oid b then set_parameters a GNull else (a, Ok tt)
        | _, _ => (a, Ok tt)
        end
    end.

  Definition step (a : algid) (o : op) : algid * res unit :=
    match o with
    | SetAlgorithm w v => set_algorithm a w v
    | SetParameters g => set_parameters a g
    | DelParameters => (A (a_oid a) Absent, Ok tt)            (* core.py:3618-3661 *)
    end.
  (* errors leave the object as it is *)
  Definition run (a : algid) (l : list op) : algid := fold_left (fun a o => fst (step a o)) l a.
End Algid.

(* keys.py:745-790, 1112-1146: the algorithm identifier that wrap makes for RSA keys *)
Definition wrap_rsa (c : ocls) (specs : option (list (text * text))) (v : text) : algid * res unit :=
  match set_algorithm c specs new_algid ByName v with
  | (a, Ok tt) => set_parameters c specs a GNull
  | r => r
  end.

(* the octets of the parameters, for NULL *)
Definition null_octets (p : pval) : option bytes :=
  match p with Absent => Some [] | NullValue => Some [5; 0] | Value _ => None end.
