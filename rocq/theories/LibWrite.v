(* The classes of the library as parameters of WriteModel: what their constructors make of Python values.

   The octets that DNSName, URI, EmailAddress and IPAddress write for a text
   (x509.py:95-121, 126-145, 210-237, 306-362) are given by a parameter.  Left out: ECPrivateKey and PrivateKeyInfo,
   which change fields when others are set (keys.py:578-596, 814-829; see KeyModel.v), AnyAlgorithmIdentifier, whose
   identifier cannot be set, and the old names of fields (cms.py:775-780, 906-911). *)
Require Import Verif.Base Verif.Text Verif.PrimModel Verif.ContModel Verif.GenModel Verif.ReadModel Verif.LibModel Verif.LibRead Verif.RecodeModel Verif.LibRecode Verif.WriteModel.
Require Coq.Strings.String.
Require Verif.Tables.
Import Coq.Strings.String.StringSyntax.
Local Open Scope string_scope.

Section Texts.
  Variable settext : string -> text -> res bytes.
  Definition lib_own (r : ref) : option (native -> res bytes) :=
    match r with
    | CName n =>
        (* algos.py:1317-1324: the class sets up no _reverse_map, which core.py:3109 looks into *)
        if is_a n "algos.AnyAlgorithmId" then Some (fun _ => Err TypeError)
        else match out_of n with
             | OText k =>
                 Some (fun v => match v with
                                | NText t => if String.eqb k "x509.NotReallyTeletexString" then teletex_name_contents t else settext k t
                                | _ => Err TypeError
                                end)
             (* ocsp.py:325-341, 350-366 *)
             | OConst s => Some (fun v => match v with NText t => if eqb_text t (tx s) then Ok [] else Err ValueError | _ => Err ValueError end)
             | _ => None
             end
    | COf _ _ => None
    end.
End Texts.

(* algos.py:58-71, 98: the identifier of the algorithm is one of those with NULL as parameters *)
Definition null_algo (n : string) (s : text) : bool :=
  let m := match field_class n "algorithm" with Some c => dotted (oids_of (ancestors c)) | None => [] end in
  let d := match tmap_rev m s with Some d => d | None => s end in
  existsb (fun x => eqb_text (tx x) d) Tables.null_algos.
(* algos.py:95-104, in the order of 3419-3427: parameters given, be it None, are set after algorithm *)
Definition lib_fill (r : ref) (li : list (text * aval)) : list (text * aval) :=
  match r with
  | CName n =>
      if mem "algos._ForceNullParameters" (ancestors n) then
        match dict_get li (tx "parameters"), dict_get li (tx "algorithm") with
        | None, Some x =>
            match bare x with
            | APrim (NText s) => if null_algo n s then (li ++ [(tx "parameters", AObj no_params ANone)])%list else li
            | _ => li
            end
        | _, _ => li
        end
      else li
  | COf _ _ => li
  end.
Definition lib_special (r : ref) : bool :=
  match r with
  | CName n => is_a n "keys.ECPrivateKey" || is_a n "keys.PrivateKeyInfo" || is_a n "algos.AnyAlgorithmIdentifier"
  | COf _ _ => false
  end.

(* cls(value).dump() *)
Definition lib_write (texts : string -> bytes -> res (option text)) (settext : string -> text -> res bytes) (pad : bool)
  (fuel : nat) (r : ref) (i : aval) : res bytes :=
  write (lib_env texts pad) (lib_own settext) lib_default lib_fill lib_special fuel r no_params None i.
