(* Which algorithms have NULL as their parameters and which have none. *)
Require Import Verif.Base.
Require Coq.Strings.String.
Import Coq.Strings.String.StringSyntax.
Local Open Scope string_scope.
Local Open Scope list_scope.
Local Open Scope Z_scope.

(* RFC 3279 2.2.1 and 2.3.1, RFC 4055 5: RSA keys and the PKCS #1 v1.5 signatures *)
Definition needs_null : list String.string :=
  ["1.2.840.113549.1.1.1"; "1.2.840.113549.1.1.2"; "1.2.840.113549.1.1.4"; "1.2.840.113549.1.1.5";
   "1.2.840.113549.1.1.11"; "1.2.840.113549.1.1.12"; "1.2.840.113549.1.1.13"; "1.2.840.113549.1.1.14"].
(* the signatures with MD2, MD5 and SHA-1 *)
Definition old_signatures : list String.string :=
  ["1.2.840.113549.1.1.2"; "1.2.840.113549.1.1.4"; "1.2.840.113549.1.1.5"].
(* RFC 3279 2.2.2 and 2.2.3, RFC 5758 3, RFC 8410 3 *)
Definition needs_absent : list String.string :=
  ["1.2.840.10040.4.3"; "2.16.840.1.101.3.4.3.1"; "2.16.840.1.101.3.4.3.2";
   "1.2.840.10045.4.1"; "1.2.840.10045.4.3.1"; "1.2.840.10045.4.3.2"; "1.2.840.10045.4.3.3"; "1.2.840.10045.4.3.4";
   "1.3.101.110"; "1.3.101.111"; "1.3.101.112"; "1.3.101.113"].
