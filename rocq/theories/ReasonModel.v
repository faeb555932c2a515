(* crl.py:110-131, CRLReason.human_friendly: a dict of texts looked up with the native value. *)
Require Import Verif.Base Verif.Text Verif.PrimModel Verif.ContModel.
Require Coq.Strings.String.
Import Coq.Strings.String.StringSyntax.
Notation string := String.string.

Definition reason_texts : list (string * string) :=
  [("unspecified", "an unspecified reason"); ("key_compromise", "a compromised key");
   ("ca_compromise", "the CA being compromised"); ("affiliation_changed", "an affiliation change");
   ("superseded", "certificate supersession"); ("cessation_of_operation", "a cessation of operation");
   ("certificate_hold", "a certificate hold"); ("remove_from_crl", "removal from the CRL");
   ("privilege_withdrawn", "privilege withdrawl"); ("aa_compromise", "the AA being compromised")]%string.
Definition human_friendly (native : aval) : res text :=
  match native with
  | APrim (NText t) =>
      match find (fun x => eqb_text (tx (fst x)) t) reason_texts with
      | Some x => Ok (tx (snd x))
      | None => Err KeyError
      end
  | _ => Err KeyError
  end.
