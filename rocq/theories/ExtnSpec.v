(* Extensions by RFC 5280 section 4.2: an identifier, a criticality and a value. *)
Require Import Verif.Base Verif.Text Verif.ExtnModel.
Require Coq.Strings.String.

Section Spec.
Variable V : Type.
Variable known : text -> Prop.   (* identifiers with an accessor *)
(* every element can be read, and the value of those with an accessor can be parsed *)
Definition readable (l : list (res (extension V))) (xs : list (extension V)) : Prop :=
  l = map Ok xs /\ forall x, In x xs -> known (e_name x) -> exists v, e_value x = Ok v.
(* the first element at which reading stops *)
Definition stops (l : list (res (extension V))) (e : exn) : Prop :=
  exists a b xs, readable a xs /\
    ((l = a ++ Err e :: b) \/ exists x, l = a ++ Ok x :: b /\ known (e_name x) /\ e_value x = Err e).
(* the value of the last extension with an identifier *)
Definition last_value (xs : list (extension V)) (n : text) (r : option V) : Prop :=
  match r with
  | Some v => exists a x b, xs = a ++ x :: b /\ e_name x = n /\ e_value x = Ok v /\ forall y, In y b -> e_name y <> n
  | None => forall y, In y xs -> e_name y <> n
  end.
Definition marked_critical (xs : list (extension V)) (n : text) : Prop :=
  exists x, In x xs /\ e_name x = n /\ e_critical x = true.
End Spec.
Arguments readable {V}. Arguments stops {V}. Arguments last_value {V}. Arguments marked_critical {V}.

(* the class of the extensions the loop of each class runs over: the field of _fields and
   its _child_spec (x509.py:2158, crl.py:167, 282, ocsp.py:88, 199, 438, 587) *)
Definition extension_of : list (String.string * String.string) :=
  [("x509.Certificate", "x509.Extension"); ("crl.RevokedCertificate", "crl.CRLEntryExtension");
   ("crl.CertificateList", "crl.TBSCertListExtension"); ("ocsp.Request", "ocsp.RequestExtension");
   ("ocsp.OCSPRequest", "ocsp.TBSRequestExtension"); ("ocsp.SingleResponse", "ocsp.SingleResponseExtension");
   ("ocsp.OCSPResponse", "ocsp.ResponseDataExtension")]%string.

(* a class has a property <id>_value *)
Definition has_accessor (accessors : list (String.string * String.string)) (n : text) : Prop :=
  exists id, n = tx id /\ In (String.append id "_value"%string) (map fst accessors).
