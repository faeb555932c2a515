(* The classes of the library as an environment of ReadModel: what _build and native do with a
   class, computed from the class attributes copied to Shapes.v and Tables.v, and from the
   methods that choose the class of a field or replace native, copied here.

   Left out: Set and Concat, choices with a tag of their own, classes that redefine anything
   not listed here, and those that use such a class without a tag.  The text of DNSName,
   URI, EmailAddress and IPAddress is given by a parameter, as a function of the octets. *)
Require Import Verif.Base Verif.Text Verif.CodecModel Verif.BitModel Verif.PrimModel Verif.ContModel Verif.GenModel Verif.ReadModel Verif.LibModel.
Require Coq.Strings.String.
Require Verif.ShapeModel Verif.Shapes Verif.Tables Verif.NameModel.
Import Coq.Strings.String.StringSyntax.
Local Open Scope string_scope.

(* ---- _oid_pair: the field with the identifier, the field whose class it chooses ---- *)
Definition oid_pairs : list (string * (string * string)) :=
  [("algos.MaskGenAlgorithm", ("algorithm", "parameters"));                  (* algos.py:180 *)
   ("algos.SignedDigestAlgorithm", ("algorithm", "parameters"));             (* algos.py:345 *)
   ("algos.KdfAlgorithm", ("algorithm", "parameters"));                      (* algos.py:562 *)
   ("algos.KeyExchangeAlgorithm", ("algorithm", "parameters"));              (* algos.py:593 *)
   ("algos.PSourceAlgorithm", ("algorithm", "parameters"));                  (* algos.py:649 *)
   ("algos.EncryptionAlgorithm", ("algorithm", "parameters"));               (* algos.py:809 *)
   ("algos.Pkcs5MacAlgorithm", ("algorithm", "parameters"));                 (* algos.py:1308 *)
   ("algos.AnyAlgorithmIdentifier", ("algorithm", "parameters"));            (* algos.py:1333 *)
   ("cms.ContentInfo", ("content_type", "content"));                         (* cms.py:527 *)
   ("cms.EncapsulatedContentInfo", ("content_type", "content"));             (* cms.py:541 *)
   ("cms.OtherRevocationInfoFormat", ("other_rev_info_format", "other_rev_info"));   (* cms.py:587 *)
   ("cms.KeyEncryptionAlgorithm", ("algorithm", "parameters"));              (* cms.py:695 *)
   ("crl.TBSCertListExtension", ("extn_id", "extn_value"));                  (* crl.py:80 *)
   ("crl.CRLEntryExtension", ("extn_id", "extn_value"));                     (* crl.py:150 *)
   ("csr.CRIAttribute", ("type", "values"));                                 (* csr.py:104 *)
   ("keys.CharacteristicTwo", ("basis", "parameters"));                      (* keys.py:267 *)
   ("keys.FieldID", ("field_type", "parameters"));                           (* keys.py:285 *)
   ("keys.PrivateKeyAlgorithm", ("algorithm", "parameters"));                (* keys.py:700 *)
   ("keys.PublicKeyAlgorithm", ("algorithm", "parameters"));                 (* keys.py:1062 *)
   ("ocsp.RequestExtension", ("extn_id", "extn_value"));                     (* ocsp.py:75 *)
   ("ocsp.TBSRequestExtension", ("extn_id", "extn_value"));                  (* ocsp.py:182 *)
   ("ocsp.SingleResponseExtension", ("extn_id", "extn_value"));              (* ocsp.py:417 *)
   ("ocsp.ResponseDataExtension", ("extn_id", "extn_value"));                (* ocsp.py:570 *)
   ("ocsp.ResponseBytes", ("response_type", "response"));                    (* ocsp.py:606 *)
   ("pkcs12.CertBag", ("cert_id", "cert_value"));                            (* pkcs12.py:151 *)
   ("pkcs12.SafeBag", ("bag_id", "bag_value"));                              (* pkcs12.py:182 *)
   ("x509.NameTypeAndValue", ("type", "value"));                             (* x509.py:658 *)
   ("x509.ExtensionAttribute", ("extension_attribute_type", "extension_attribute_value"));   (* x509.py:1385 *)
   ("x509.PolicyQualifierInfo", ("policy_qualifier_id", "qualifier"));       (* x509.py:1636 *)
   ("x509.Extension", ("extn_id", "extn_value"))].                           (* x509.py:2112 *)

(* ---- names that classes redefine and that are accounted for ---- *)
(* only used when values are assigned, or read into the environment *)
Definition harmless : list string := ["_oid_pair"; "_oid_specs"; "_spec_callbacks"; "__setitem__"; "_reverse_map"; "set"].
Definition handled : list (string * list string) :=
  [("algos.AnyAlgorithmId", ["_setup"]); ("algos.AnyAlgorithmIdentifier", ["_setup"]);
   ("x509.DNSName", ["_bad_tag"; "_encoding"]); ("x509.URI", ["__unicode__"]);
   ("x509.EmailAddress", ["_bad_tag"; "_contents"; "contents"; "__unicode__"]);
   ("x509.IPAddress", ["native"; "parse"]); ("x509.NotReallyTeletexString", ["__unicode__"]); ("x509.Name", ["__len__"; "native"]);
   ("ocsp.StatusGood", ["native"]); ("ocsp.StatusUnknown", ["native"]);
   ("cms.AttributeCertificateV2", ["_bad_tag"]); ("cms.CertificateChoices", ["validate"]);
   (* other names for fields: cms.py:775-780, 906-911 *)
   ("cms.RecipientKeyIdentifier", ["_setup"]); ("cms.SMIMEEncryptionKeyPreference", ["_setup"])].
Definition known (n : string) : bool :=
  forallb (fun k => in_core k ||
    forallb (fun x => negb (mem x core_names) || mem x harmless || mem x (named_map handled [k])) (names_of k)) (ancestors n).

(* ---- maps ---- *)
(* algos.py:1317-1324: later entries replace earlier ones *)
Definition merge_maps {A} (a b : list (string * A)) : list (string * A) :=
  (filter (fun p => negb (existsb (fun q => String.eqb (fst q) (fst p)) b)) a ++ b)%list.
(* a name written with the identifier in _reverse_map (algos.py:290-320, cms.py:676-686), otherwise with the last one
   that has it: the identifiers in _reverse_map are put last *)
Definition prefer (rev m : list (string * string)) : list (string * string) :=
  let chosen p := existsb (fun q => String.eqb (fst q) (snd p) && String.eqb (snd q) (fst p)) rev in
  (filter (fun p => negb (chosen p)) m ++ filter chosen m)%list.
Definition oids_of (l : list string) : list (string * string) :=
  if mem "algos.AnyAlgorithmId" l then
    merge_maps (merge_maps Tables.map_algos_EncryptionAlgorithmId Tables.map_algos_SignedDigestAlgorithmId) Tables.map_algos_DigestAlgorithmId
  else prefer (named_map Tables.reverse_maps l) (named_map Tables.oid_maps l).
(* algos.py:1327-1341 *)
Definition specs_of (l : list string) : list (string * string) :=
  if mem "algos.AnyAlgorithmIdentifier" l then
    merge_maps (named_map Shapes.bindings ["algos.EncryptionAlgorithm"]) (named_map Shapes.bindings ["algos.SignedDigestAlgorithm"])
  else named_map Shapes.bindings l.

(* ---- natives of their own ---- *)
Inductive out := OSame | OText (n : string) | OConst (s : string) | OName.
Definition out_of (n : string) : out :=
  let is k := mem k (ancestors n) in
  if is "x509.DNSName" || is "x509.URI" || is "x509.EmailAddress" || is "x509.IPAddress" || is "x509.NotReallyTeletexString" then OText n
  else if is "ocsp.StatusGood" then OConst "good"             (* ocsp.py:343-345 *)
  else if is "ocsp.StatusUnknown" then OConst "unknown"       (* ocsp.py:368-370 *)
  else if is "x509.Name" then OName
  else OSame.

(* x509.py:1091-1104 Name.native, from the native of the sequence of sets of types with values *)
Fixpoint dict_put (l : list (text * aval)) (n : text) (x : aval) : list (text * aval) :=
  match l with
  | [] => [(n, x)]
  | (m, y) :: r => if eqb_text m n then (m, x) :: r else (m, y) :: dict_put r n x
  end.
Definition name_add (d : list (text * aval)) (tv : aval) : res (list (text * aval)) :=
  match tv with
  | ADict l =>
      match dict_get l (tx "type"), dict_get l (tx "value") with
      | Some (APrim (NText n)), Some v =>
          Ok (dict_put d n (match dict_get d n with
                            | Some (AList old) => AList (old ++ [v])%list
                            | Some old => AList [old; v]
                            | None => v
                            end))
      | Some _, Some _ => Err TypeError
      | _, _ => Err KeyError
      end
  | _ => Err TypeError
  end.
Fixpoint name_rdn (d : list (text * aval)) (l : list aval) : res (list (text * aval)) :=
  match l with [] => Ok d | tv :: r => do d' <- name_add d tv; name_rdn d' r end.
Fixpoint name_all (d : list (text * aval)) (l : list aval) : res (list (text * aval)) :=
  match l with
  | [] => Ok d
  | AList rdn :: r => do d' <- name_rdn d rdn; name_all d' r
  | _ :: _ => Err TypeError
  end.

Section Out.
  Variable texts : string -> bytes -> res (option text).
  Definition apply_out (o : out) (a : aval) : res aval :=
    match o with
    | OSame => Ok a
    | OConst s => Ok (APrim (NText (tx s)))
    | OText n =>
        match a with
        | APrim (NBytes b) =>
            (* x509.py:459-480 *)
            if String.eqb n "x509.NotReallyTeletexString" then do t <- teletex_name_native b; Ok (APrim (NText t))
            else do t <- texts n b; Ok (match t with Some t => APrim (NText t) | None => ANone end)
        | _ => Err TypeError
        end
    | OName => match a with AList l => do d <- name_all [] l; Ok (ADict d) | _ => Err TypeError end
    end.
End Out.

(* ---- fields ---- *)
Definition class_name (r : ShapeModel.sref) : option string :=
  match r with ShapeModel.RClass n => Some n | ShapeModel.ROf n _ => Some n | ShapeModel.RCallback => None end.
Definition ref_of (r : ShapeModel.sref) : option ref :=
  match r with ShapeModel.RClass n => Some (CName n) | ShapeModel.ROf n i => Some (COf n i) | ShapeModel.RCallback => None end.
Definition fields_of (n : string) : list ShapeModel.sfield :=
  match ShapeModel.attribute lib ShapeModel.c_fields n with Some l => l | None => [] end.
Definition is_a (n base : string) : bool := mem base (ancestors n).
Definition field_at (n f : string) : option nat := index_of (fun x => String.eqb (ShapeModel.f_name x) f) (fields_of n) 0.
Definition field_class (n f : string) : option string :=
  match find (fun x => String.eqb (ShapeModel.f_name x) f) (fields_of n) with Some x => class_name (ShapeModel.f_ref x) | None => None end.

(* natives of defaults: the object made of them has all fields of its class, the class of
   'parameters' chosen by 'algorithm' (3395-3432, 3785-3871) *)
Fixpoint default_native (fuel : nat) (n : string) (d : ShapeModel.dval) : option aval :=
  match fuel with
  | O => None
  | S k =>
      match d with
      | ShapeModel.DBool b => Some (APrim (NBool b))
      | ShapeModel.DNum z =>
          Some (APrim (match find (fun p => Z.eqb (fst p) z) (numbers (named_map Tables.int_maps (ancestors n))) with
                       | Some p => NText (snd p)
                       | None => NInt z
                       end))
      | ShapeModel.DName s => Some (APrim (NText (tx s)))
      | ShapeModel.DBytes b => Some (APrim (NBytes b))
      | ShapeModel.DSet l => Some (APrim (PrimModel.NSet (map (fun s => LName (tx s)) l)))
      | ShapeModel.DDict l =>
          let value (f : string) := match find (fun p => String.eqb (fst p) f) l with Some p => Some (snd p) | None => None end in
          let class (f : ShapeModel.sfield) :=
            match value "algorithm" with
            | Some (ShapeModel.DName a) =>
                if String.eqb (ShapeModel.f_name f) "parameters" then
                  match find (fun p => String.eqb (fst p) a) (specs_of (ancestors n)) with Some p => Some (snd p) | None => class_name (ShapeModel.f_ref f) end
                else class_name (ShapeModel.f_ref f)
            | _ => class_name (ShapeModel.f_ref f)
            end in
          option_map ADict (ShapeModel.all_some (fun f =>
            match value (ShapeModel.f_name f) with
            | None => Some (tx (ShapeModel.f_name f), ANone)
            | Some x => match class f with
                        | Some c => option_map (fun a => (tx (ShapeModel.f_name f), a)) (default_native k c x)
                        | None => None
                        end
            end) (fields_of n))
      end
  end.
(* a field that is both optional and has a default (pdf.py:41) is the last one, where the default is used *)
Definition pres_of (f : ShapeModel.sfield) : option gpres :=
  match ShapeModel.f_default f with
  | Some d => match class_name (ShapeModel.f_ref f) with
              | Some c => option_map GDef (default_native 4 c d)
              | None => None
              end
  | None => Some (if ShapeModel.f_optional f then GOpt else GReq)
  end.
Definition rfield_of (f : ShapeModel.sfield) : option rfield :=
  option_map (RField (tx (ShapeModel.f_name f)) (ref_of (ShapeModel.f_ref f)) (params_of f)) (pres_of f).

(* ---- the class of a field chosen while reading: 3757-3781, 3950-3957 ---- *)
Definition pick_of (n f c : string) : pick :=
  match field_class n f with
  | None => As (CName c)
  | Some k => if is_a k "core.ParsableOctetString" || is_a k "core.ParsableOctetBitString" then Inside (CName c) else As (CName c)
  end.
Definition table_of (n f : string) : list (text * pick) := map (fun p => (tx (fst p), pick_of n f (snd p))) (specs_of (ancestors n)).
Definition choose (n key f : string) (other : option pick) : option selector :=
  option_map (fun at_ => Sel at_ [tx key] (table_of n f) other) (field_at n f).

(* algos.py:50-87 _parameters_spec: the names of the algorithms in _null_algos, as far as they have one *)
Definition null_names (n : string) : list text :=
  let m := match field_class n "algorithm" with Some c => oids_of (ancestors c) | None => [] end in
  map (fun d => tx (match find (fun p => String.eqb (fst p) d) m with Some p => snd p | None => d end)) Tables.null_algos.
Definition null_table (n : string) : list (text * pick) :=
  filter (fun p => negb (existsb (fun q => eqb_text (fst q) (fst p)) (table_of n "parameters")))
    (map (fun t => (t, As (CName "core.Null"))) (null_names n)).

Definition private_key_table : list (text * pick) :=                   (* keys.py:720-737 *)
  map (fun p => (tx (fst p), Inside (CName (snd p))))
    [("rsa", "keys.RSAPrivateKey"); ("rsassa_pss", "keys.RSAPrivateKey"); ("dsa", "core.Integer"); ("ec", "keys.ECPrivateKey");
     ("x25519", "core.OctetString"); ("x448", "core.OctetString"); ("ed25519", "core.OctetString"); ("ed448", "core.OctetString")].
Definition public_key_table : list (text * pick) :=                    (* keys.py:1083-1104 *)
  (map (fun p => (tx (fst p), Inside (CName (snd p))))
    [("rsa", "keys.RSAPublicKey"); ("rsaes_oaep", "keys.RSAPublicKey"); ("rsassa_pss", "keys.RSAPublicKey"); ("dsa", "core.Integer");
     ("dh", "core.Integer")]
   ++ map (fun p => (tx (fst p), As (CName (snd p))))
    [("ec", "keys.ECPointBitString"); ("x25519", "core.OctetBitString"); ("x448", "core.OctetBitString");
     ("ed25519", "core.OctetBitString"); ("ed448", "core.OctetBitString")])%list.
Definition selector_of (n : string) : option (option selector) :=
  let l := ancestors n in
  let sure x := match x with Some s => Some (Some s) | None => None end in
  if mem "algos._ForceNullParameters" l then
    sure (option_map (fun at_ => Sel at_ [tx "algorithm"] (table_of n "parameters" ++ null_table n)%list (Some Keep)) (field_at n "parameters"))
  else if mem "cms.CMSAttribute" l then sure (choose n "type" "values" (Some (As (CName "cms.SetOfAny"))))         (* cms.py:180-185 *)
  else if mem "cms.AttCertAttribute" l then sure (choose n "type" "values" (Some (As (CName "cms.SetOfAny"))))     (* cms.py:438-443 *)
  else if mem "pkcs12.Attribute" l then sure (choose n "type" "values" (Some (As (CName "pkcs12.SetOfAny"))))      (* pkcs12.py:92-97 *)
  else if mem "x509.SubjectDirectoryAttribute" l then sure (choose n "type" "values" (Some (As (CName "core.SetOf"))))   (* x509.py:2058-2066 *)
  else if mem "cms.SignedData" l || mem "cms.DigestedData" l then                                                  (* cms.py:631-647, 852-868 *)
    sure (option_map (fun at_ => Sel at_ [tx "version"] [(tx "v1", As (CName "cms.ContentInfo"))] (Some (As (CName "cms.EncapsulatedContentInfo"))))
            (field_at n "encap_content_info"))
  else if mem "keys.PrivateKeyInfo" l then
    sure (option_map (fun at_ => Sel at_ [tx "private_key_algorithm"; tx "algorithm"] private_key_table None) (field_at n "private_key"))
  else if mem "keys.PublicKeyInfo" l then
    sure (option_map (fun at_ => Sel at_ [tx "algorithm"; tx "algorithm"] public_key_table None) (field_at n "public_key"))
  else match find (fun k => existsb (fun p => String.eqb (fst p) k) oid_pairs) l with
       | Some k => match find (fun p => String.eqb (fst p) k) oid_pairs with
                   | Some (_, (key, f)) => sure (choose n key f (Some Keep))
                   | None => None
                   end
       | None => Some None
       end.

(* ---- classes ---- *)
Definition bad_tags (n : string) : list Z :=
  if is_a n "x509.DNSName" || is_a n "x509.EmailAddress" then [12; 19]       (* x509.py:73, 189 *)
  else if is_a n "cms.AttributeCertificateV2" then [1]                        (* cms.py:463 *)
  else [].
Definition kind_read (pad : bool) (n : string) : option kind :=
  match out_of n with
  | OText _ => Some KOctets
  | _ => if is_a n "core.ObjectIdentifier" then Some (KOid (dotted (oids_of (ancestors n)))) else kind_of pad (ancestors n)
  end.
Definition def_read (pad : bool) (n : string) : option rdef :=
  let is k := is_a n k in
  if is "core.Any" then Some DAny
  else if is "core.ParsableOctetBitString" then Some (DParse true)
  else if is "core.ParsableOctetString" then Some (DParse false)
  else if is "core.Set" || is "core.Concat" then None
  else if is "core.Sequence" then
    match ShapeModel.all_some rfield_of (fields_of n), selector_of n with
    | Some fs, Some sel => Some (DSeq fs sel)
    | _, _ => None
    end
  else if is "core.SequenceOf" then Some (DOf (option_map CName (ShapeModel.attribute lib ShapeModel.c_child n)))
  else if is "core.Choice" then
    match ShapeModel.attribute lib ShapeModel.c_tag n, ShapeModel.attribute lib ShapeModel.c_alternatives n with
    | None, Some fs => option_map (fun l => DChoice l (if is "cms.CertificateChoices" then Some 2%nat else None)) (ShapeModel.all_some rfield_of fs)
    | _, _ => None
    end
  else option_map DPrim (kind_read pad n).
(* the tag of Any and of choices plays no part *)
Definition cls_read (n : string) : option pcls :=
  if is_a n "core.Any" || is_a n "core.Choice" then Some (Cls 0 0 [] (bad_tags n))
  else match ShapeModel.attribute lib ShapeModel.c_class n, ShapeModel.attribute lib ShapeModel.c_tag n with
       | (None | Some 0), Some t => Some (Cls 0 t [] (bad_tags n))
       | _, _ => None
       end.
Definition class_read (pad : bool) (r : ref) : option (pcls * rdef * out) :=
  match r with
  | CName n =>
      if known n then
        match cls_read n, def_read pad n with Some c, Some d => Some (c, d, out_of n) | _, _ => None end
      else None
  | COf n i =>
      if known n && is_a n "core.SequenceOf" then option_map (fun c => (c, DOf (Some (CName i)), OSame)) (cls_read n)
      else None
  end.

Definition ref_eqb (a b : ref) : bool :=
  match a, b with
  | CName x, CName y => String.eqb x y
  | COf x i, COf y j => String.eqb x y && String.eqb i j
  | _, _ => false
  end.
Definition all_refs : list ref :=
  (map (fun c => CName (ShapeModel.c_name c)) lib ++
   flat_map (fun c => match ShapeModel.c_fields c with
                      | Some l => flat_map (fun f => match ShapeModel.f_ref f with ShapeModel.ROf n i => [COf n i] | _ => [] end) l
                      | None => []
                      end) lib)%list.
Fixpoint uniq (l : list ref) : list ref :=
  match l with [] => [] | x :: r => if existsb (ref_eqb x) r then uniq r else x :: uniq r end.
Definition entry : Type := ref * (pcls * rdef * out).
Definition first_table (pad : bool) : list entry :=
  flat_map (fun r => match class_read pad r with Some k => [(r, k)] | None => [] end) (uniq all_refs).

(* left out because optional members cannot be told apart by their tags, and for
   BuiltInStandardAttributes because its first fields are choices with a tag of their own *)
Definition ambiguous : list string := ["x509.BuiltInStandardAttributes"; "x509.ORAddress"; "x509.EDIPartyName"].
Definition kept (e : entry) : bool := match fst e with CName n => negb (mem n ambiguous) | COf _ _ => true end.

(* the table, evaluated once; classes by the length of their name, to be found faster *)
Definition ref_name (r : ref) : string := match r with CName n => n | COf n _ => n end.
Definition table : bool -> list (list entry) :=
  Eval vm_compute in (fun pad =>
    let t := filter kept (first_table pad) in
    map (fun k => filter (fun e => Nat.eqb (String.length (ref_name (fst e))) k) t) (seq 0 64)).
Definition lookup (pad : bool) (r : ref) : option (pcls * rdef * out) :=
  option_map snd (find (fun e => ref_eqb (fst e) r) (nth (String.length (ref_name r)) (table pad) [])).
Definition lib_env (texts : string -> bytes -> res (option text)) (pad : bool) (r : ref) : option rclass :=
  option_map (fun k => RClass (fst (fst k)) (snd (fst k)) (apply_out texts (snd k))) (lookup pad r).

(* an untagged field whose class is not in the table would be given no id *)
Definition tagged (f : rfield) : bool := match p_explicit (g_params f), p_implicit (g_params f) with [], None => false | _, _ => true end.
Definition closed (pad : bool) (d : rdef) : bool :=
  let ok f := tagged f || match g_class f with None => true | Some r => match lookup pad r with Some _ => true | None => false end end in
  match d with DSeq fs _ => forallb ok fs | DChoice fs _ => forallb ok fs | _ => true end.
