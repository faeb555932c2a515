(* What a list of the library holds, read off its octets and the objects made so far, and what
   reading it may change. *)
Require Import Verif.Base Verif.MemModel.

Section Spec.
  Context {V R : Type}.
  Variable split : bytes -> res (list R).
  Variable build : R -> res V.

  (* a position: the identity of the object there, when there is one, and its value *)
  Definition item : Type := option Z * res V.
  Definition item_of (s : slot V R) : item :=
    match s with SRaw r => (None, build r) | SObj o => (Some (o_id o), Ok (o_val o)) end.
  Definition items (q : lst V R) : res (list item) :=
    match l_children q, l_contents q with
    | Some l, _ => Ok (map item_of l)
    | None, None => Ok []
    | None, Some c => do rs <- split c; Ok (map (fun r => (None, build r)) rs)
    end.

  (* numbers are given out in order, so that no object has the next one *)
  Definition fresh (q : lst V R) : Prop :=
    forall l i x, items q = Ok l -> In (Some i, x) l -> i < l_next q.
  (* no object stands at two positions *)
  Definition distinct (q : lst V R) : Prop :=
    forall l n m i x y, items q = Ok l -> nth_error l n = Some (Some i, x) -> nth_error l m = Some (Some i, y) -> n = m.

  (* the same values, and every object made stays *)
  Definition keeps (a b : list item) : Prop :=
    Forall2 (fun x y => snd x = snd y /\ (fst x = None \/ fst x = fst y)) a b.
  Definition only_read (q q' : lst V R) : Prop :=
    l_contents q = l_contents q' /\ l_mutated q = l_mutated q' /\ l_next q <= l_next q' /\
    match items q, items q' with
    | Ok a, Ok b => keeps a b
    | Err e, Err e' => e = e'
    | _, _ => False
    end.

  (* position n, counted from the end when negative *)
  Definition nth_item (l : list item) (i : Z) : option item :=
    if i <? 0 then (if i + len l <? 0 then None else nth_error l (Z.to_nat (i + len l))) else nth_error l (Z.to_nat i).
  (* what comparing a position with an object says; an object made later is another one *)
  Definition judge (value_eq : option (V -> V -> res bool)) (x : object V) (i : item) : res bool :=
    do v <- snd i;
    match value_eq with
    | Some f => f v (o_val x)
    | None => Ok (match fst i with Some k => k =? o_id x | None => false end)
    end.
  Definition all_made (l : list item) : Prop := Forall (fun x => exists v, snd x = Ok v) l.
End Spec.
Arguments item V : clear implicits.

(* reading *)
Inductive read (V : Type) := DLen | DGet (i : Z) | DSlice (a b : Z) | DIter | DIn (a : arg V).
Arguments DLen {V}. Arguments DGet {V} _. Arguments DSlice {V} _ _. Arguments DIter {V}. Arguments DIn {V} _.
Definition read_list {V R} split build value_eq (d : read V) (q : lst V R) : lst V R :=
  match d with
  | DLen => fst (length_ split q)
  | DGet i => fst (get split build q i)
  | DSlice a b => fst (get_slice split q a b)
  | DIter => fst (iter split build q)
  | DIn a => fst (contains split build value_eq q a)
  end.
Definition reads {V R} split build value_eq (ds : list (read V)) (q : lst V R) : lst V R :=
  fold_left (fun q d => read_list split build value_eq d q) ds q.

(* the lists of the library whose children are compared by value *)
Require Coq.Strings.String.
Import Coq.Strings.String.StringSyntax.
Open Scope string_scope.
Definition compared_by_value : list String.string :=
  ["x509.OrganizationalUnitNames"; "x509.TeletexOrganizationalUnitNames"; "x509.PrintableAddress"; "x509.NAddresses";
   "x509.NoticeNumbers"; "x509.ExtKeyUsageSyntax"; "x509.Features"; "x509.SetOfGeneralizedTime";
   "x509.SetOfPrintableString"; "x509.KeyPurposeIdentifiers"; "ocsp.AcceptableResponses"; "cms.SetOfContentType";
   "cms.SetOfOctetString"; "pkcs12.SetOfBMPString"; "pkcs12.SetOfOctetString"; "pkcs12.SetOfKeyPurposeId";
   "tsp.PKIFreeText"; "tsp.PartialHashtree"].
Definition compared_by_rule : list String.string :=
  ["x509.RelativeDistinguishedName"; "x509.RDNSequence"; "x509.GeneralNames"].
