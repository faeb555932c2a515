(* Model of what is read from certificates and CRLs by way of other parts:
   /repo/asn1crypto/x509.py, GeneralName.__eq__ (1445-1477), DistributionPoint.url (1564-1590) and the
   accessors of Certificate from 2585 on that are not in DomainModel;
   /repo/asn1crypto/crl.py, RevokedCertificate.issuer_name and the lists of CertificateList (459-507).

   Simplifications: the extensions are read as in C50, so here they are given, or the exception
   that reading them raises; parts that were parsed are given as values, a URI as its text or the
   exception its native form raises, a Name as an object of an abstract type with its encoding. *)
Require Import Verif.Base Verif.Text Verif.DomainModel Verif.NameModel Verif.AddrModel Verif.UriModel.

(* ---- GeneralName ---- *)
(* the alternatives; addresses as objects, a Name as in NameModel, octets of the others *)
Inductive general :=
| GOther | GX400 | GEdi
| GMail (o : aobj) | GDns (o : aobj) | GUri (o : aobj)
| GDir (n : name) | GIp (c : bytes) | GId (c : bytes).
(* name, the name of the alternative (1433-1443) *)
Definition alternative (g : general) : text :=
  match g with
  | GOther => tx "other_name" | GX400 => tx "x400_address" | GEdi => tx "edi_party_name"
  | GMail _ => tx "rfc822_name" | GDns _ => tx "dns_name" | GUri _ => tx "uniform_resource_identifier"
  | GDir _ => tx "directory_name" | GIp _ => tx "ip_address" | GId _ => tx "registered_id"
  end.
Definition unsupported : list text := [tx "other_name"; tx "x400_address"; tx "edi_party_name"].
Section General.
  Variable L : prep_lib.
  Variable idna_to : text -> res bytes.
  Variable idna_from : bytes -> res text.
  Variable lower_to : text -> text.
  Variable bracket_ok netloc_ok : text -> bool.
  (* self.chosen == other.chosen, of the same alternative; IPAddress compares __bytes__
     (412-424), ObjectIdentifier the contents of Primitive (core.py:1743-1780) *)
  Definition chosen_eq (a b : general) : general * general * res bool :=
    match a, b with
    | GMail x, GMail y => let '(x, y, r) := email_eq idna_to idna_from x y in (GMail x, GMail y, r)
    | GDns x, GDns y => let '(x, y, r) := dns_eq idna_from lower_to x y in (GDns x, GDns y, r)
    | GUri x, GUri y => let '(x, y, r) := uri_eq idna_to idna_from lower_to bracket_ok netloc_ok x y in (GUri x, GUri y, r)
    | GDir m, GDir n => (a, b, eq_name L m n)
    | GIp x, GIp y => (a, b, Ok (eqb_bytes x y))
    | GId x, GId y => (a, b, Ok (eqb_bytes x y))
    | _, _ => (a, b, Ok false)
    end.
  (* 1448-1477 __eq__ *)
  Definition general_eq (a b : general) : general * general * res bool :=
    if in_list (alternative a) unsupported then (a, b, Err ValueError)
    else if in_list (alternative b) unsupported then (a, b, Err ValueError)
    else if negb (eqb_text (alternative a) (alternative b)) then (a, b, Ok false)
    else chosen_eq a b.
End General.

(* ---- the lists of URLs ---- *)
Section Cert.
  Context {N : Type}.                          (* Name objects *)
  Variable name_eq : N -> N -> res bool.       (* Name.__eq__ *)
  Variable name_dump : N -> bytes.             (* dump() of a Name without tags *)
  Variable sha256 : bytes -> bytes.
  Variable lower_to : text -> text.            (* lower, of texts that are not ASCII *)

  (* a general name as read here: the native form of a URI, whether that of another can be read *)
  Inductive gen := Url (native : res text) | Dir (n : N) (native : res unit) | Plain (native : res unit).
  Definition gen_native (g : gen) : res unit :=
    match g with Url v => do _ <- v; Ok tt | Dir _ v => v | Plain v => v end.
  (* DistributionPointName; the field may be absent *)
  Inductive point_name := Full (l : list gen) | Relative.
  Definition point := option point_name.

  (* url.lower().startswith(('http://', 'https://', 'ldap://', 'ldaps://')) *)
  Definition wanted (s : text) : bool :=
    existsb (fun w => starts w (lower lower_to s)) [tx "http://"; tx "https://"; tx "ldap://"; tx "ldaps://"].
  (* 1582-1588 *)
  Fixpoint first_url (l : list gen) : res (option text) :=
    match l with
    | [] => Ok None
    | Url v :: r => do s <- v; if wanted s then Ok (Some s) else first_url r
    | _ :: r => first_url r
    end.
  (* 1564-1590 url; None stands for the attribute False of the class.  An absent name is a
     Void object, which has no name *)
  Definition read_url (p : point) (c : option (option text)) : option (option text) * res (option text) :=
    match c with
    | Some v => (c, Ok v)
    | None =>
        match p with
        | None => (Some None, Err AttributeError)
        | Some Relative => (Some None, Err ValueError)
        | Some (Full l) => match first_url l with
                           | Ok v => (Some v, Ok v)
                           | Err e => (Some None, Err e)
                           end
        end
    end.

  (* x509.py:2688-2717 _get_http_crl_distribution_points *)
  Fixpoint per_url (p : point) (l : list gen) : list point :=
    match l with
    | [] => []
    | Url _ :: r => p :: per_url p r
    | _ :: r => per_url p r
    end.
  Fixpoint url_points (l : list point) : list point :=
    match l with
    | [] => []
    | None :: r => url_points r
    | Some Relative :: r => url_points r
    | Some (Full g) :: r => per_url (Some (Full g)) g ++ url_points r
    end.
  (* crl.py:494-503: as above, without the test for an absent name; also what was found before *)
  Fixpoint crl_points (l : list point) : list point * res unit :=
    match l with
    | [] => ([], Ok tt)
    | None :: _ => ([], Err AttributeError)
    | Some Relative :: r => crl_points r
    | Some (Full g) :: r => let '(o, e) := crl_points r in (per_url (Some (Full g)) g ++ o, e)
    end.
  (* AccessDescription: the method and the location.  x509.py:2719-2738 ocsp_urls *)
  Fixpoint ocsp_loop (l : list (text * gen)) : res (list text) :=
    match l with
    | [] => Ok []
    | (m, Url v) :: r =>
        if eqb_text m (tx "ocsp")
        then do s <- v; do o <- ocsp_loop r; Ok (if wanted s then s :: o else o)
        else ocsp_loop r
    | _ :: r => ocsp_loop r
    end.
  (* crl.py:469-478, the loop of issuer_cert_urls; also what was found before *)
  Fixpoint ca_loop (l : list (text * gen)) : list text * res unit :=
    match l with
    | [] => ([], Ok tt)
    | (m, Url v) :: r =>
        if eqb_text m (tx "ca_issuers")
        then match v with
             | Err e => ([], Err e)
             | Ok s => let '(o, e) := ca_loop r in
                       (if starts (tx "http://") (lower lower_to s) then s :: o else o, e)
             end
        else ca_loop r
    | _ :: r => ca_loop r
    end.

  (* ---- Certificate ---- *)
  Record aki := Aki { k_id : option bytes; k_issuer : option (list gen); k_serial : option Z }.
  Record exts := Exts {
    x_key_id : option bytes;                   (* key_identifier_value *)
    x_aki : option aki;                        (* authority_key_identifier_value *)
    x_basic : option (bool * option Z);        (* basic_constraints_value *)
    x_points : option (list point);            (* crl_distribution_points_value *)
    x_fresh : option (list point);             (* freshest_crl_value *)
    x_access : option (list (text * gen))      (* authority_information_access_value *)
  }.
  Record cert := Cert { ct_exts : res exts; ct_subject : N; ct_issuer : N; ct_serial : Z }.
  Record caches := Caches {
    c_serial : option bytes; c_authority : option (option bytes);
    c_points : option (list point); c_fresh : option (list point);
    c_issued : option bool; c_signed : option bool   (* 'maybe' or 'no' *)
  }.
  Definition new_caches : caches := Caches None None None None None None.
  (* what an accessor returns *)
  Inductive answer :=
  | ABytes (v : option bytes) | ABool (v : option bool) | AInt (v : option Z)
  | AText (v : text) | APoints (v : list point) | ATexts (v : list text).

  (* 2585-2596 and 2627-2638; an object that holds octets is true, so is a sequence with fields *)
  Definition key_identifier (c : cert) : res (option bytes) := do x <- ct_exts c; Ok (x_key_id x).
  Definition authority_key_identifier (c : cert) : res (option bytes) :=
    do x <- ct_exts c; Ok (match x_aki x with None => None | Some a => k_id a end).
  (* 2598-2610 issuer_serial *)
  Definition issuer_serial (c : cert) (k : caches) : caches * res (option bytes) :=
    match c_serial k with
    | Some v => (k, Ok (Some v))
    | None => let v := sha256 (name_dump (ct_issuer c)) ++ 58 :: dec (ct_serial c) in
              (Caches (Some v) (c_authority k) (c_points k) (c_fresh k) (c_issued k) (c_signed k), Ok (Some v))
    end.
  (* 2640-2660 authority_issuer_serial: the native form of all names is read before; only a
     Name has sha256; str(None) is None *)
  Fixpoint all_native (l : list gen) : res unit :=
    match l with [] => Ok tt | g :: r => do _ <- gen_native g; all_native r end.
  Definition authority_value (x : exts) : res (option bytes) :=
    match x_aki x with
    | None => Ok None
    | Some a => match k_issuer a with
                | None => Ok None
                | Some l => do _ <- all_native l;
                            match l with
                            | [] => Ok None
                            | Dir n _ :: _ => Ok (Some (sha256 (name_dump n) ++ 58 :: match k_serial a with Some z => dec z | None => tx "None" end))
                            | _ => Err AttributeError
                            end
                end
    end.
  Definition authority_issuer_serial (c : cert) (k : caches) : caches * res (option bytes) :=
    match c_authority k with
    | Some v => (k, Ok v)
    | None => match (do x <- ct_exts c; authority_value x) with
              | Ok v => (Caches (c_serial k) (Some v) (c_points k) (c_fresh k) (c_issued k) (c_signed k), Ok v)
              | Err e => (k, Err e)
              end
    end.
  (* 2662-2686 crl_distribution_points, delta_crl_distribution_points *)
  Definition points_of (o : option (list point)) : list point := match o with None => [] | Some l => url_points l end.
  Definition crl_distribution_points (c : cert) (k : caches) : caches * res (list point) :=
    match c_points k with
    | Some v => (k, Ok v)
    | None => match ct_exts c with
              | Ok x => let v := points_of (x_points x) in
                        (Caches (c_serial k) (c_authority k) (Some v) (c_fresh k) (c_issued k) (c_signed k), Ok v)
              | Err e => (k, Err e)
              end
    end.
  Definition delta_crl_distribution_points (c : cert) (k : caches) : caches * res (list point) :=
    match c_fresh k with
    | Some v => (k, Ok v)
    | None => match ct_exts c with
              | Ok x => let v := points_of (x_fresh x) in
                        (Caches (c_serial k) (c_authority k) (c_points k) (Some v) (c_issued k) (c_signed k), Ok v)
              | Err e => (k, Err e)
              end
    end.
  Definition ocsp_urls (c : cert) : res (list text) :=
    do x <- ct_exts c; match x_access x with None => Ok [] | Some l => ocsp_loop l end.
  (* 2793-2811 ca, max_path_length *)
  Definition ca (c : cert) : res (option bool) :=
    do x <- ct_exts c; Ok (match x_basic x with None => None | Some (b, _) => Some b end).
  Definition max_path_length (c : cert) : res (option Z) :=
    do v <- ca c;
    match v with
    | Some true => do x <- ct_exts c; Ok (match x_basic x with None => None | Some (_, n) => n end)
    | _ => Ok None
    end.
  (* 2813-2823 self_issued *)
  Definition self_issued (c : cert) (k : caches) : caches * res bool :=
    match c_issued k with
    | Some v => (k, Ok v)
    | None => match name_eq (ct_subject c) (ct_issuer c) with
              | Ok v => (Caches (c_serial k) (c_authority k) (c_points k) (c_fresh k) (Some v) (c_signed k), Ok v)
              | Err e => (k, Err e)
              end
    end.
  (* 2825-2852 self_signed; no is kept before anything is read *)
  Definition keep_signed (k : caches) (v : bool) : caches :=
    Caches (c_serial k) (c_authority k) (c_points k) (c_fresh k) (c_issued k) (Some v).
  Definition filled (b : option bytes) : bool := match b with Some (_ :: _) => true | _ => false end.
  Definition keys_agree (c : cert) : res bool :=
    do i <- key_identifier c;
    if filled i then
      do a <- authority_key_identifier c;
      if negb (filled a) then Ok true
      else Ok (match a, i with Some x, Some y => eqb_bytes x y | _, _ => false end)
    else Ok true.
  Definition self_signed (c : cert) (k : caches) : caches * res bool :=
    match c_signed k with
    | Some v => (k, Ok v)
    | None => let k := keep_signed k false in
              match self_issued c k with
              | (k, Err e) => (k, Err e)
              | (k, Ok false) => (k, Ok false)
              | (k, Ok true) => match keys_agree c with
                                | Err e => (k, Err e)
                                | Ok v => (keep_signed k v, Ok v)
                                end
              end
    end.

  Inductive accessor :=
  | KeyIdentifier | AuthorityKeyIdentifier | IssuerSerial | AuthorityIssuerSerial | CrlPoints | DeltaPoints
  | OcspUrls | CaFlag | MaxPathLength | SelfIssued | SelfSigned.
  Definition into {A} (f : A -> answer) (x : caches * res A) : caches * res answer :=
    let '(k, r) := x in (k, do v <- r; Ok (f v)).
  Definition read (c : cert) (k : caches) (a : accessor) : caches * res answer :=
    match a with
    | KeyIdentifier => into ABytes (k, key_identifier c)
    | AuthorityKeyIdentifier => into ABytes (k, authority_key_identifier c)
    | IssuerSerial => into ABytes (issuer_serial c k)
    | AuthorityIssuerSerial => into ABytes (authority_issuer_serial c k)
    | CrlPoints => into APoints (crl_distribution_points c k)
    | DeltaPoints => into APoints (delta_crl_distribution_points c k)
    | OcspUrls => into ATexts (k, ocsp_urls c)
    | CaFlag => into ABool (k, ca c)
    | MaxPathLength => into AInt (k, max_path_length c)
    | SelfIssued => into (fun b => ABool (Some b)) (self_issued c k)
    | SelfSigned => into (fun b => AText (if b : bool then tx "maybe" else tx "no")) (self_signed c k)
    end.
  Definition reads (c : cert) (l : list accessor) : caches := fold_left (fun k a => fst (read c k a)) l new_caches.

  (* ---- CRLs ---- *)
  (* crl.py:253-267 RevokedCertificate.issuer_name; None stands for the attribute False of the
     class; e is what certificate_issuer_value gives *)
  Fixpoint first_dir (l : list gen) : option N :=
    match l with [] => None | Dir n _ :: _ => Some n | _ :: r => first_dir r end.
  Definition issuer_name (e : res (option (list gen))) (c : option (option N)) : option (option N) * res (option N) :=
    match c with
    | Some v => (c, Ok v)
    | None => match e with
              | Err x => (Some None, Err x)
              | Ok None => (Some None, Ok None)
              | Ok (Some l) => (Some (first_dir l), Ok (first_dir l))
              end
    end.
  (* crl.py:459-479 issuer_cert_urls *)
  Definition issuer_cert_urls (e : res (option (list (text * gen)))) (c : option (list text)) : option (list text) * res (list text) :=
    match c with
    | Some v => (c, Ok v)
    | None => match e with
              | Err x => (Some [], Err x)
              | Ok None => (Some [], Ok [])
              | Ok (Some l) => let '(o, r) := ca_loop l in (Some o, do _ <- r; Ok o)
              end
    end.
  (* crl.py:481-507 delta_crl_distribution_points *)
  Definition crl_delta_points (e : res (option (list point))) (c : option (list point)) : option (list point) * res (list point) :=
    match c with
    | Some v => (c, Ok v)
    | None => match e with
              | Err x => (Some [], Err x)
              | Ok None => (Some [], Ok [])
              | Ok (Some l) => let '(o, r) := crl_points l in (Some o, do _ <- r; Ok o)
              end
    end.
End Cert.
