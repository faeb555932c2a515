(* The structures as the standards define them, written down from the ASN.1 modules of the
   documents named, and when a class of the library agrees with a definition.  Names of
   components are those the library gives them; order, types, tags, presence and defaults are
   those of the standards.  s_classes lists the classes that stand for the type.

   Tags are written as in the modules: Tag n is [n], which X.680 reads by the default of the
   module, but as explicit before a choice or an open type (31.2.7). *)
Require Import ZArith List Bool.
Require Import Coq.Strings.String.
Require Import Verif.ShapeModel.
Import ListNotations.
Local Open Scope Z_scope.

Inductive mark := NoTag | Tag (n : Z) | TagE (n : Z) | TagI (n : Z).
(* U: a universal type; T: a type defined by a standard; SKIP: chosen by a method of the class
   and not compared *)
Inductive sty := U (tag : Z) | ANY | OF (tag : Z) (item : sty) | T (n : string) | SKIP.
Record comp := Comp { m_name : string; m_mark : mark; m_type : sty; m_presence : presence }.
Inductive sdef :=
| SEQUENCE (l : list comp) | SET (l : list comp) | SEQUENCE_OF (t : sty) | SET_OF (t : sty)
| CHOICE (l : list comp) | APPLICATION (n : Z) (l : list comp) (* [APPLICATION n] CHOICE *).
Record standard := Std { s_name : string; s_explicit : bool; s_def : sdef; s_classes : list string }.

Section Agreement.
Variable standards : list standard.

Definition stands_for (c n : string) : Prop := exists s, In s standards /\ s_name s = n /\ In c (s_classes s).
Definition is_choice (n : string) : Prop := exists s, In s standards /\ s_name s = n /\ match s_def s with CHOICE _ => True | _ => False end.
(* X.680 31.2.7 c *)
Definition only_explicit (t : sty) : Prop := match t with ANY => True | T n => is_choice n | _ => False end.

Inductive meant (default_explicit : bool) (t : sty) : mark -> tagging -> Prop :=
| meant_none : meant default_explicit t NoTag Untagged
| meant_e n : meant default_explicit t (TagE n) (Explicit n)
| meant_i n : meant default_explicit t (TagI n) (Implicit n)
| meant_explicit n : default_explicit = true \/ only_explicit t -> meant default_explicit t (Tag n) (Explicit n)
| meant_implicit n : default_explicit = false -> ~ only_explicit t -> meant default_explicit t (Tag n) (Implicit n).

Inductive agrees_type : sty -> ty -> Prop :=
| agrees_u n : agrees_type (U n) (Universal n)
| agrees_any : agrees_type ANY Open
| agrees_of n t u : agrees_type t u -> agrees_type (OF n t) (ListOf n u)
| agrees_t n c : stands_for c n -> agrees_type (T n) (Named c)
| agrees_skip : agrees_type SKIP Chosen.

Record agrees_component (e : bool) (m : comp) (p : component) : Prop :=
  { ac_name : m_name m = p_name p; ac_presence : m_presence m = p_presence p;
    ac_type : agrees_type (m_type m) (p_type p); ac_tag : meant e (m_type m) (m_mark m) (p_tag p) }.

Definition agrees (e : bool) (s : sdef) (d : def) : Prop :=
  match s, d with
  | SEQUENCE l, Components 16 l' | SET l, Components 17 l' | CHOICE l, Alternatives None l' => Forall2 (agrees_component e) l l'
  | APPLICATION n l, Alternatives (Some (1, n')) l' => n = n' /\ Forall2 (agrees_component e) l l'
  | SEQUENCE_OF t, Items 16 u | SET_OF t, Items 17 u => agrees_type t u
  | _, _ => False
  end.

(* the class is a definition of the type *)
Definition conforms (lib : list sclass) (s : standard) (c : string) : Prop :=
  exists d, def_of lib c = Some d /\ agrees (s_explicit s) (s_def s) d.

(* the class is one of the type *)
Inductive is_of (lib : list sclass) : sty -> string -> Prop :=
| is_u n c : type_of lib c = Some (Universal n) -> is_of lib (U n) c
| is_t n c : stands_for c n -> is_of lib (T n) c
| is_list n t u c : def_of lib c = Some (Items n u) -> agrees_type t u -> is_of lib (OF n t) c.
End Agreement.

(* ---- notation ---- *)
Local Open Scope string_scope.
Definition req n t := Comp n NoTag t Required.
Definition opt n t := Comp n NoTag t Optional.
Definition dft n t d := Comp n NoTag t (Default d).
Definition tg k c := Comp (m_name c) (Tag k) (m_type c) (m_presence c).
Definition ex k c := Comp (m_name c) (TagE k) (m_type c) (m_presence c).
Definition im k c := Comp (m_name c) (TagI k) (m_type c) (m_presence c).
Definition BOOLEAN := U 1.          Definition INTEGER := U 2.           Definition BIT_STRING := U 3.
Definition OCTET_STRING := U 4.     Definition NULL := U 5.              Definition OID := U 6.
Definition ENUMERATED := U 10.      Definition UTF8String := U 12.       Definition NumericString := U 18.
Definition PrintableString := U 19. Definition TeletexString := U 20.    Definition IA5String := U 22.
Definition UTCTime := U 23.         Definition GeneralizedTime := U 24.  Definition VisibleString := U 26.
Definition GeneralString := U 27.   Definition UniversalString := U 28.  Definition BMPString := U 30.
Definition no := DBool false.
(* modules with EXPLICIT TAGS, which is also the default, and with IMPLICIT TAGS *)
Definition explicitly n d c := Std n true d c.
Definition implicitly n d c := Std n false d c.

Definition standards : list standard :=
[
(* ---- RFC 5280 A.1, PKIX1Explicit88 ---- *)
  explicitly "AlgorithmIdentifier" (SEQUENCE [req "algorithm" OID; opt "parameters" ANY])
    ["algos.AlgorithmIdentifier"; "algos.HmacAlgorithm"; "algos.DigestAlgorithm"; "algos.MaskGenAlgorithm"; "algos.SignedDigestAlgorithm";
     "algos.KdfAlgorithm"; "algos.KeyExchangeAlgorithm"; "algos.PSourceAlgorithm"; "algos.EncryptionAlgorithm";
     "algos.AnyAlgorithmIdentifier"; "keys.PrivateKeyAlgorithm"; "keys.PublicKeyAlgorithm"; "cms.KeyEncryptionAlgorithm"; "cms.CompressionAlgorithm"];
  explicitly "Attribute" (SEQUENCE [req "type" OID; req "values" (OF 17 ANY)])
    ["x509.Attribute"; "csr.Attribute"; "keys.Attribute"; "x509.SubjectDirectoryAttribute"; "csr.CRIAttribute"];
  explicitly "AttributeTypeAndValue" (SEQUENCE [req "type" OID; req "value" ANY]) ["x509.NameTypeAndValue"];
  explicitly "Name" (CHOICE [req "" (T "RDNSequence")]) ["x509.Name"];
  explicitly "RDNSequence" (SEQUENCE_OF (T "RelativeDistinguishedName")) ["x509.RDNSequence"];
  explicitly "RelativeDistinguishedName" (SET_OF (T "AttributeTypeAndValue")) ["x509.RelativeDistinguishedName"];
  explicitly "DirectoryString"
    (CHOICE [req "teletex_string" TeletexString; req "printable_string" PrintableString; req "universal_string" UniversalString;
             req "utf8_string" UTF8String; req "bmp_string" BMPString]) ["x509.DirectoryString"];
  explicitly "Certificate"
    (SEQUENCE [req "tbs_certificate" (T "TBSCertificate"); req "signature_algorithm" (T "AlgorithmIdentifier"); req "signature_value" BIT_STRING]) ["x509.Certificate"];
  explicitly "TBSCertificate"
    (SEQUENCE [tg 0 (dft "version" INTEGER (DName "v1")); req "serial_number" INTEGER; req "signature" (T "AlgorithmIdentifier"); req "issuer" (T "Name");
               req "validity" (T "Validity"); req "subject" (T "Name"); req "subject_public_key_info" (T "SubjectPublicKeyInfo");
               im 1 (opt "issuer_unique_id" BIT_STRING); im 2 (opt "subject_unique_id" BIT_STRING); tg 3 (opt "extensions" (T "Extensions"))]) ["x509.TbsCertificate"];
  explicitly "Validity" (SEQUENCE [req "not_before" (T "Time"); req "not_after" (T "Time")]) ["x509.Validity"];
  explicitly "Time" (CHOICE [req "utc_time" UTCTime; req "general_time" GeneralizedTime]) ["x509.Time"];
  explicitly "SubjectPublicKeyInfo" (SEQUENCE [req "algorithm" (T "AlgorithmIdentifier"); req "public_key" BIT_STRING]) ["keys.PublicKeyInfo"];
  explicitly "Extensions" (SEQUENCE_OF (T "Extension"))
    ["x509.Extensions"; "crl.TBSCertListExtensions"; "crl.CRLEntryExtensions"; "ocsp.RequestExtensions"; "ocsp.TBSRequestExtensions";
     "ocsp.SingleResponseExtensions"; "ocsp.ResponseDataExtensions"; "tsp.Extensions"];
  explicitly "Extension" (SEQUENCE [req "extn_id" OID; dft "critical" BOOLEAN no; req "extn_value" OCTET_STRING])
    ["x509.Extension"; "crl.TBSCertListExtension"; "crl.CRLEntryExtension"; "ocsp.RequestExtension"; "ocsp.TBSRequestExtension";
     "ocsp.SingleResponseExtension"; "ocsp.ResponseDataExtension"; "tsp.Extension"];
  explicitly "CertificateList"
    (SEQUENCE [req "tbs_cert_list" (T "TBSCertList"); req "signature_algorithm" (T "AlgorithmIdentifier"); req "signature" BIT_STRING]) ["crl.CertificateList"];
  explicitly "TBSCertList"
    (SEQUENCE [opt "version" INTEGER; req "signature" (T "AlgorithmIdentifier"); req "issuer" (T "Name"); req "this_update" (T "Time"); opt "next_update" (T "Time");
               opt "revoked_certificates" (T "revokedCertificates"); tg 0 (opt "crl_extensions" (T "Extensions"))]) ["crl.TbsCertList"];
  explicitly "revokedCertificates" (SEQUENCE_OF (T "revokedCertificate")) ["crl.RevokedCertificates"];
  explicitly "revokedCertificate"
    (SEQUENCE [req "user_certificate" INTEGER; req "revocation_date" (T "Time"); opt "crl_entry_extensions" (T "Extensions")]) ["crl.RevokedCertificate"];
  (* X.400 addresses *)
  explicitly "ORAddress"
    (SEQUENCE [req "built_in_standard_attributes" (T "BuiltInStandardAttributes"); opt "built_in_domain_defined_attributes" (T "BuiltInDomainDefinedAttributes");
               opt "extension_attributes" (T "ExtensionAttributes")]) ["x509.ORAddress"];
  explicitly "BuiltInStandardAttributes"
    (SEQUENCE [opt "country_name" (T "CountryName"); opt "administration_domain_name" (T "AdministrationDomainName"); im 0 (opt "network_address" NumericString);
               im 1 (opt "terminal_identifier" PrintableString); tg 2 (opt "private_domain_name" (T "PrivateDomainName")); im 3 (opt "organization_name" PrintableString);
               im 4 (opt "numeric_user_identifier" NumericString); im 5 (opt "personal_name" (T "PersonalName"));
               im 6 (opt "organizational_unit_names" (T "OrganizationalUnitNames"))]) ["x509.BuiltInStandardAttributes"];
  explicitly "CountryName" (APPLICATION 1 [req "x121_dcc_code" NumericString; req "iso_3166_alpha2_code" PrintableString]) ["x509.CountryName"];
  explicitly "AdministrationDomainName" (APPLICATION 2 [req "numeric" NumericString; req "printable" PrintableString]) ["x509.AdministrationDomainName"];
  explicitly "PrivateDomainName" (CHOICE [req "numeric" NumericString; req "printable" PrintableString]) ["x509.PrivateDomainName"];
  explicitly "PersonalName"
    (SET [im 0 (req "surname" PrintableString); im 1 (opt "given_name" PrintableString); im 2 (opt "initials" PrintableString);
          im 3 (opt "generation_qualifier" PrintableString)]) ["x509.PersonalName"];
  explicitly "OrganizationalUnitNames" (SEQUENCE_OF PrintableString) ["x509.OrganizationalUnitNames"];
  explicitly "BuiltInDomainDefinedAttributes" (SEQUENCE_OF (T "BuiltInDomainDefinedAttribute")) ["x509.BuiltInDomainDefinedAttributes"];
  explicitly "BuiltInDomainDefinedAttribute" (SEQUENCE [req "type" PrintableString; req "value" PrintableString]) ["x509.BuiltInDomainDefinedAttribute"];
  explicitly "ExtensionAttributes" (SET_OF (T "ExtensionAttribute")) ["x509.ExtensionAttributes"];
  explicitly "ExtensionAttribute"
    (SEQUENCE [im 0 (req "extension_attribute_type" INTEGER); tg 1 (req "extension_attribute_value" ANY)]) ["x509.ExtensionAttribute"];
  explicitly "TeletexPersonalName"
    (SET [im 0 (req "surname" TeletexString); im 1 (opt "given_name" TeletexString); im 2 (opt "initials" TeletexString);
          im 3 (opt "generation_qualifier" TeletexString)]) ["x509.TeletexPersonalName"];
  explicitly "TeletexOrganizationalUnitNames" (SEQUENCE_OF TeletexString) ["x509.TeletexOrganizationalUnitNames"];
  explicitly "PhysicalDeliveryCountryName" (CHOICE [req "x121_dcc_code" NumericString; req "iso_3166_alpha2_code" PrintableString]) ["x509.PhysicalDeliveryCountryName"];
  explicitly "PostalCode" (CHOICE [req "numeric_code" NumericString; req "printable_code" PrintableString]) ["x509.PostalCode"];
  explicitly "PDSParameter" (SET [opt "printable_string" PrintableString; opt "teletex_string" TeletexString]) ["x509.PDSParameter"];
  explicitly "PrintableAddress" (SEQUENCE_OF PrintableString) ["x509.PrintableAddress"];
  explicitly "UnformattedPostalAddress" (SET [opt "printable_address" (T "PrintableAddress"); opt "teletex_string" TeletexString]) ["x509.UnformattedPostalAddress"];
  explicitly "ExtendedNetworkAddress" (CHOICE [req "e163_4_address" (T "e163-4-address"); im 0 (req "psap_address" (T "PresentationAddress"))]) ["x509.ExtendedNetworkAddress"];
  explicitly "e163-4-address" (SEQUENCE [im 0 (req "number" NumericString); im 1 (opt "sub_address" NumericString)]) ["x509.E1634Address"];
  explicitly "PresentationAddress"
    (SEQUENCE [ex 0 (opt "p_selector" OCTET_STRING); ex 1 (opt "s_selector" OCTET_STRING); ex 2 (opt "t_selector" OCTET_STRING);
               ex 3 (req "n_addresses" (T "nAddresses"))]) ["x509.PresentationAddress"];
  explicitly "nAddresses" (SET_OF OCTET_STRING) ["x509.NAddresses"];
  explicitly "TeletexDomainDefinedAttributes" (SEQUENCE_OF (T "TeletexDomainDefinedAttribute")) ["x509.TeletexDomainDefinedAttributes"];
  explicitly "TeletexDomainDefinedAttribute" (SEQUENCE [req "type" TeletexString; req "value" TeletexString]) ["x509.TeletexDomainDefinedAttribute"];
(* ---- RFC 5280 A.2, PKIX1Implicit88 ---- *)
  implicitly "AuthorityKeyIdentifier"
    (SEQUENCE [tg 0 (opt "key_identifier" OCTET_STRING); tg 1 (opt "authority_cert_issuer" (T "GeneralNames"));
               tg 2 (opt "authority_cert_serial_number" INTEGER)]) ["x509.AuthorityKeyIdentifier"];
  implicitly "PrivateKeyUsagePeriod" (SEQUENCE [tg 0 (opt "not_before" GeneralizedTime); tg 1 (opt "not_after" GeneralizedTime)]) ["x509.PrivateKeyUsagePeriod"];
  implicitly "CertificatePolicies" (SEQUENCE_OF (T "PolicyInformation")) ["x509.CertificatePolicies"];
  implicitly "PolicyInformation" (SEQUENCE [req "policy_identifier" OID; opt "policy_qualifiers" (T "policyQualifiers")]) ["x509.PolicyInformation"];
  implicitly "policyQualifiers" (SEQUENCE_OF (T "PolicyQualifierInfo")) ["x509.PolicyQualifierInfos"];
  implicitly "PolicyQualifierInfo" (SEQUENCE [req "policy_qualifier_id" OID; req "qualifier" ANY]) ["x509.PolicyQualifierInfo"];
  implicitly "UserNotice" (SEQUENCE [opt "notice_ref" (T "NoticeReference"); opt "explicit_text" (T "DisplayText")]) ["x509.UserNotice"];
  implicitly "NoticeReference" (SEQUENCE [req "organization" (T "DisplayText"); req "notice_numbers" (T "noticeNumbers")]) ["x509.NoticeReference"];
  implicitly "noticeNumbers" (SEQUENCE_OF INTEGER) ["x509.NoticeNumbers"];
  implicitly "DisplayText"
    (CHOICE [req "ia5_string" IA5String; req "visible_string" VisibleString; req "bmp_string" BMPString; req "utf8_string" UTF8String]) ["x509.DisplayText"];
  implicitly "PolicyMappings" (SEQUENCE_OF (T "PolicyMapping")) ["x509.PolicyMappings"];
  implicitly "PolicyMapping" (SEQUENCE [req "issuer_domain_policy" OID; req "subject_domain_policy" OID]) ["x509.PolicyMapping"];
  implicitly "GeneralNames" (SEQUENCE_OF (T "GeneralName")) ["x509.GeneralNames"];
  implicitly "GeneralName"
    (CHOICE [tg 0 (req "other_name" (T "AnotherName")); tg 1 (req "rfc822_name" IA5String); tg 2 (req "dns_name" IA5String); tg 3 (req "x400_address" (T "ORAddress"));
             tg 4 (req "directory_name" (T "Name")); tg 5 (req "edi_party_name" (T "EDIPartyName")); tg 6 (req "uniform_resource_identifier" IA5String);
             tg 7 (req "ip_address" OCTET_STRING); tg 8 (req "registered_id" OID)]) ["x509.GeneralName"];
  implicitly "AnotherName" (SEQUENCE [req "type_id" OID; ex 0 (req "value" ANY)]) ["x509.AnotherName"];
  implicitly "EDIPartyName" (SEQUENCE [tg 0 (opt "name_assigner" (T "DirectoryString")); tg 1 (req "party_name" (T "DirectoryString"))]) ["x509.EDIPartyName"];
  implicitly "SubjectDirectoryAttributes" (SEQUENCE_OF (T "Attribute")) ["x509.SubjectDirectoryAttributes"];
  implicitly "BasicConstraints" (SEQUENCE [dft "ca" BOOLEAN no; opt "path_len_constraint" INTEGER]) ["x509.BasicConstraints"];
  implicitly "NameConstraints" (SEQUENCE [tg 0 (opt "permitted_subtrees" (T "GeneralSubtrees")); tg 1 (opt "excluded_subtrees" (T "GeneralSubtrees"))]) ["x509.NameConstraints"];
  implicitly "GeneralSubtrees" (SEQUENCE_OF (T "GeneralSubtree")) ["x509.GeneralSubtrees"];
  implicitly "GeneralSubtree" (SEQUENCE [req "base" (T "GeneralName"); tg 0 (dft "minimum" INTEGER (DNum 0)); tg 1 (opt "maximum" INTEGER)]) ["x509.GeneralSubtree"];
  implicitly "PolicyConstraints" (SEQUENCE [tg 0 (opt "require_explicit_policy" INTEGER); tg 1 (opt "inhibit_policy_mapping" INTEGER)]) ["x509.PolicyConstraints"];
  implicitly "CRLDistributionPoints" (SEQUENCE_OF (T "DistributionPoint")) ["x509.CRLDistributionPoints"];
  implicitly "DistributionPoint"
    (SEQUENCE [tg 0 (opt "distribution_point" (T "DistributionPointName")); tg 1 (opt "reasons" BIT_STRING); tg 2 (opt "crl_issuer" (T "GeneralNames"))]) ["x509.DistributionPoint"];
  implicitly "DistributionPointName"
    (CHOICE [tg 0 (req "full_name" (T "GeneralNames")); tg 1 (req "name_relative_to_crl_issuer" (T "RelativeDistinguishedName"))]) ["x509.DistributionPointName"];
  implicitly "ExtKeyUsageSyntax" (SEQUENCE_OF OID) ["x509.ExtKeyUsageSyntax"; "x509.KeyPurposeIdentifiers"; "ocsp.AcceptableResponses"];
  implicitly "AuthorityInfoAccessSyntax" (SEQUENCE_OF (T "AccessDescription")) ["x509.AuthorityInfoAccessSyntax"; "x509.SubjectInfoAccessSyntax"];
  implicitly "AccessDescription" (SEQUENCE [req "access_method" OID; req "access_location" (T "GeneralName")]) ["x509.AccessDescription"];
  implicitly "IssuingDistributionPoint"
    (SEQUENCE [tg 0 (opt "distribution_point" (T "DistributionPointName")); tg 1 (dft "only_contains_user_certs" BOOLEAN no); tg 2 (dft "only_contains_ca_certs" BOOLEAN no);
               tg 3 (opt "only_some_reasons" BIT_STRING); tg 4 (dft "indirect_crl" BOOLEAN no); tg 5 (dft "only_contains_attribute_certs" BOOLEAN no)]) ["crl.IssuingDistributionPoint"];
(* ---- RFC 7633 ---- *)
  explicitly "Features" (SEQUENCE_OF INTEGER) ["x509.Features"];
(* ---- X.509, AuthenticationFramework: supportedAlgorithms ---- *)
  explicitly "SupportedAlgorithm"
    (SEQUENCE [req "algorithm_identifier" (T "AlgorithmIdentifier"); tg 0 (opt "intended_usage" BIT_STRING);
               tg 1 (opt "intended_certificate_policies" (T "CertificatePolicies"))]) ["x509.SupportedAlgorithm"];
(* ---- TCG credential profile, IMPLICIT TAGS ---- *)
  implicitly "TPMSpecification" (SEQUENCE [req "family" UTF8String; req "level" INTEGER; req "revision" INTEGER]) ["x509.TPMSpecification"];
  implicitly "TCGSpecificationVersion" (SEQUENCE [req "major_version" INTEGER; req "minor_version" INTEGER; req "revision" INTEGER]) ["x509.TCGSpecificationVersion"];
  implicitly "TCGPlatformSpecification" (SEQUENCE [req "version" (T "TCGSpecificationVersion"); req "platform_class" OCTET_STRING]) ["x509.TCGPlatformSpecification"];
  implicitly "URIReference"
    (SEQUENCE [req "uniform_resource_identifier" IA5String; opt "hash_algorithm" (T "AlgorithmIdentifier"); opt "hash_value" BIT_STRING]) ["x509.URIReference"];
  implicitly "CommonCriteriaMeasures"
    (SEQUENCE [req "version" IA5String; req "assurance_level" ENUMERATED; req "evaluation_status" ENUMERATED; dft "plus" BOOLEAN no;
               tg 0 (opt "strengh_of_function" ENUMERATED); tg 1 (opt "profile_oid" OID); tg 2 (opt "profile_url" (T "URIReference"));
               tg 3 (opt "target_oid" OID); tg 4 (opt "target_uri" (T "URIReference"))]) ["x509.CommonCriteriaMeasures"];
  implicitly "FIPSLevel" (SEQUENCE [req "version" IA5String; req "level" ENUMERATED; dft "plus" BOOLEAN no]) ["x509.FIPSLevel"];
  implicitly "TPMSecurityAssertions"
    (SEQUENCE [dft "version" INTEGER (DName "v1"); dft "field_upgradable" BOOLEAN no; tg 0 (opt "ek_generation_type" ENUMERATED);
               tg 1 (opt "ek_generation_location" ENUMERATED); tg 2 (opt "ek_certificate_generation_location" ENUMERATED);
               tg 3 (opt "cc_info" (T "CommonCriteriaMeasures")); tg 4 (opt "fips_level" (T "FIPSLevel"));
               tg 5 (dft "iso_9000_certified" BOOLEAN no); opt "iso_9000_uri" IA5String]) ["x509.TPMSecurityAssertions"];
(* ---- PKCS #1, RFC 8017 ---- *)
  explicitly "RSAPublicKey" (SEQUENCE [req "modulus" INTEGER; req "public_exponent" INTEGER]) ["keys.RSAPublicKey"];
  explicitly "RSAPrivateKey"
    (SEQUENCE [req "version" INTEGER; req "modulus" INTEGER; req "public_exponent" INTEGER; req "private_exponent" INTEGER; req "prime1" INTEGER;
               req "prime2" INTEGER; req "exponent1" INTEGER; req "exponent2" INTEGER; req "coefficient" INTEGER;
               opt "other_prime_infos" (T "OtherPrimeInfos")]) ["keys.RSAPrivateKey"];
  explicitly "OtherPrimeInfos" (SEQUENCE_OF (T "OtherPrimeInfo")) ["keys.OtherPrimeInfos"];
  explicitly "OtherPrimeInfo" (SEQUENCE [req "prime" INTEGER; req "exponent" INTEGER; req "coefficient" INTEGER]) ["keys.OtherPrimeInfo"];
  explicitly "RSASSA-PSS-params"
    (SEQUENCE [tg 0 (dft "hash_algorithm" (T "AlgorithmIdentifier") (DDict [("algorithm", DName "sha1")]));
               tg 1 (dft "mask_gen_algorithm" (T "AlgorithmIdentifier") (DDict [("algorithm", DName "mgf1"); ("parameters", DDict [("algorithm", DName "sha1")])]));
               tg 2 (dft "salt_length" INTEGER (DNum 20)); tg 3 (dft "trailer_field" INTEGER (DName "trailer_field_bc"))]) ["algos.RSASSAPSSParams"];
  explicitly "RSAES-OAEP-params"
    (SEQUENCE [tg 0 (dft "hash_algorithm" (T "AlgorithmIdentifier") (DDict [("algorithm", DName "sha1")]));
               tg 1 (dft "mask_gen_algorithm" (T "AlgorithmIdentifier") (DDict [("algorithm", DName "mgf1"); ("parameters", DDict [("algorithm", DName "sha1")])]));
               tg 2 (dft "p_source_algorithm" (T "AlgorithmIdentifier") (DDict [("algorithm", DName "p_specified"); ("parameters", DBytes [])]))]) ["algos.RSAESOAEPParams"];
  explicitly "DigestInfo" (SEQUENCE [req "digest_algorithm" (T "AlgorithmIdentifier"); req "digest" OCTET_STRING]) ["algos.DigestInfo"];
(* ---- RFC 3279, RFC 5480, RFC 5915, SEC 1, X9.62, PKCS #3 ---- *)
  explicitly "Dss-Sig-Value" (SEQUENCE [req "r" INTEGER; req "s" INTEGER]) ["algos.DSASignature"];
  explicitly "Dss-Parms" (SEQUENCE [req "p" INTEGER; req "q" INTEGER; req "g" INTEGER]) ["keys.DSAParams"];
  explicitly "DomainParameters"
    (SEQUENCE [req "p" INTEGER; req "g" INTEGER; req "q" INTEGER; opt "j" INTEGER; opt "validation_params" (T "ValidationParms")]) ["keys.DomainParameters"];
  explicitly "ValidationParms" (SEQUENCE [req "seed" BIT_STRING; req "pgen_counter" INTEGER]) ["keys.ValidationParms"];
  explicitly "DHParameter" (SEQUENCE [req "p" INTEGER; req "g" INTEGER; opt "private_value_length" INTEGER]) ["algos.DHParameters"];
  explicitly "Pentanomial" (SEQUENCE [req "k1" INTEGER; req "k2" INTEGER; req "k3" INTEGER]) ["keys.Pentanomial"];
  explicitly "Characteristic-two" (SEQUENCE [req "m" INTEGER; req "basis" OID; req "parameters" ANY]) ["keys.CharacteristicTwo"];
  explicitly "FieldID" (SEQUENCE [req "field_type" OID; req "parameters" ANY]) ["keys.FieldID"];
  explicitly "Curve" (SEQUENCE [req "a" OCTET_STRING; req "b" OCTET_STRING; opt "seed" BIT_STRING]) ["keys.Curve"];
  explicitly "SpecifiedECDomain"
    (SEQUENCE [req "version" INTEGER; req "field_id" (T "FieldID"); req "curve" (T "Curve"); req "base" OCTET_STRING; req "order" INTEGER;
               opt "cofactor" INTEGER; opt "hash" (T "AlgorithmIdentifier")]) ["keys.SpecifiedECDomain"];
  explicitly "ECDomainParameters" (CHOICE [req "specified" (T "SpecifiedECDomain"); req "named" OID; req "implicit_ca" NULL]) ["keys.ECDomainParameters"];
  explicitly "ECPrivateKey"
    (SEQUENCE [req "version" INTEGER; req "private_key" OCTET_STRING; tg 0 (opt "parameters" (T "ECDomainParameters")); tg 1 (opt "public_key" BIT_STRING)]) ["keys.ECPrivateKey"];
(* ---- PKCS #8, RFC 5208 ---- *)
  explicitly "PrivateKeyInfo"
    (SEQUENCE [req "version" INTEGER; req "private_key_algorithm" (T "AlgorithmIdentifier"); req "private_key" OCTET_STRING;
               im 0 (opt "attributes" (T "Attributes"))]) ["keys.PrivateKeyInfo"];
  explicitly "Attributes" (SET_OF (T "Attribute")) ["keys.Attributes"; "csr.SetOfAttributes"; "csr.CRIAttributes"];
  explicitly "EncryptedPrivateKeyInfo" (SEQUENCE [req "encryption_algorithm" (T "AlgorithmIdentifier"); req "encrypted_data" OCTET_STRING]) ["keys.EncryptedPrivateKeyInfo"];
(* ---- PKCS #5, RFC 8018; RFC 7914; RFC 5084 ---- *)
  implicitly "PBEParameter" (SEQUENCE [req "salt" OCTET_STRING; req "iterations" INTEGER]) ["algos.Pbes1Params"];
  implicitly "PBES2-params" (SEQUENCE [req "key_derivation_func" (T "AlgorithmIdentifier"); req "encryption_scheme" (T "AlgorithmIdentifier")]) ["algos.Pbes2Params"];
  implicitly "PBMAC1-params" (SEQUENCE [req "key_derivation_func" (T "AlgorithmIdentifier"); req "message_auth_scheme" (T "AlgorithmIdentifier")]) ["algos.Pbmac1Params"];
  (* the only algorithm, PBMAC1, always has parameters *)
  implicitly "AlgorithmIdentifier {{PBMAC1Algorithms}}" (SEQUENCE [req "algorithm" OID; req "parameters" ANY]) ["algos.Pkcs5MacAlgorithm"];
  implicitly "PBKDF2-params"
    (SEQUENCE [req "salt" (T "salt"); req "iteration_count" INTEGER; opt "key_length" INTEGER;
               dft "prf" (T "AlgorithmIdentifier") (DDict [("algorithm", DName "sha1")])]) ["algos.Pbkdf2Params"];
  implicitly "salt" (CHOICE [req "specified" OCTET_STRING; req "other_source" (T "AlgorithmIdentifier")]) ["algos.Pbkdf2Salt"];
  implicitly "RC2-CBC-Parameter" (SEQUENCE [opt "rc2_parameter_version" INTEGER; req "iv" OCTET_STRING]) ["algos.Rc2Params"];
  implicitly "RC5-CBC-Parameters"
    (SEQUENCE [req "version" INTEGER; req "rounds" INTEGER; req "block_size_in_bits" INTEGER; opt "iv" OCTET_STRING]) ["algos.Rc5Params"];
  implicitly "scrypt-params"
    (SEQUENCE [req "salt" OCTET_STRING; req "cost_parameter" INTEGER; req "block_size" INTEGER; req "parallelization_parameter" INTEGER;
               opt "key_length" INTEGER]) ["algos.ScryptParams"];
  implicitly "CCMParameters" (SEQUENCE [req "aes_nonce" OCTET_STRING; dft "aes_icvlen" INTEGER (DNum 12)]) ["algos.CcmParams"];
(* ---- PKCS #10, RFC 2986 ---- *)
  implicitly "CertificationRequest"
    (SEQUENCE [req "certification_request_info" (T "CertificationRequestInfo"); req "signature_algorithm" (T "AlgorithmIdentifier"); req "signature" BIT_STRING])
    ["csr.CertificationRequest"];
  implicitly "CertificationRequestInfo"
    (SEQUENCE [req "version" INTEGER; req "subject" (T "Name"); req "subject_pk_info" (T "SubjectPublicKeyInfo"); tg 0 (req "attributes" (T "Attributes"))])
    ["csr.CertificationRequestInfo"];
(* ---- OCSP, RFC 6960, RFC 6277 ---- *)
  explicitly "OCSPRequest" (SEQUENCE [req "tbs_request" (T "TBSRequest"); tg 0 (opt "optional_signature" (T "Signature"))]) ["ocsp.OCSPRequest"];
  explicitly "TBSRequest"
    (SEQUENCE [tg 0 (dft "version" INTEGER (DName "v1")); tg 1 (opt "requestor_name" (T "GeneralName")); req "request_list" (T "requestList");
               tg 2 (opt "request_extensions" (T "Extensions"))]) ["ocsp.TBSRequest"];
  explicitly "requestList" (SEQUENCE_OF (T "Request")) ["ocsp.Requests"];
  explicitly "Signature"
    (SEQUENCE [req "signature_algorithm" (T "AlgorithmIdentifier"); req "signature" BIT_STRING; tg 0 (opt "certs" (T "certs"))]) ["ocsp.Signature"];
  explicitly "certs" (SEQUENCE_OF (T "Certificate")) ["ocsp.Certificates"];
  explicitly "Request" (SEQUENCE [req "req_cert" (T "CertID"); tg 0 (opt "single_request_extensions" (T "Extensions"))]) ["ocsp.Request"];
  explicitly "CertID"
    (SEQUENCE [req "hash_algorithm" (T "AlgorithmIdentifier"); req "issuer_name_hash" OCTET_STRING; req "issuer_key_hash" OCTET_STRING; req "serial_number" INTEGER]) ["ocsp.CertId"];
  explicitly "OCSPResponse" (SEQUENCE [req "response_status" ENUMERATED; tg 0 (opt "response_bytes" (T "ResponseBytes"))]) ["ocsp.OCSPResponse"];
  explicitly "ResponseBytes" (SEQUENCE [req "response_type" OID; req "response" OCTET_STRING]) ["ocsp.ResponseBytes"];
  explicitly "BasicOCSPResponse"
    (SEQUENCE [req "tbs_response_data" (T "ResponseData"); req "signature_algorithm" (T "AlgorithmIdentifier"); req "signature" BIT_STRING;
               tg 0 (opt "certs" (T "certs"))]) ["ocsp.BasicOCSPResponse"];
  explicitly "ResponseData"
    (SEQUENCE [tg 0 (dft "version" INTEGER (DName "v1")); req "responder_id" (T "ResponderID"); req "produced_at" GeneralizedTime; req "responses" (T "responses");
               tg 1 (opt "response_extensions" (T "Extensions"))]) ["ocsp.ResponseData"];
  explicitly "responses" (SEQUENCE_OF (T "SingleResponse")) ["ocsp.Responses"];
  explicitly "ResponderID" (CHOICE [tg 1 (req "by_name" (T "Name")); tg 2 (req "by_key" OCTET_STRING)]) ["ocsp.ResponderId"];
  explicitly "SingleResponse"
    (SEQUENCE [req "cert_id" (T "CertID"); req "cert_status" (T "CertStatus"); req "this_update" GeneralizedTime; tg 0 (opt "next_update" GeneralizedTime);
               tg 1 (opt "single_extensions" (T "Extensions"))]) ["ocsp.SingleResponse"];
  explicitly "CertStatus" (CHOICE [im 0 (req "good" NULL); im 1 (req "revoked" (T "RevokedInfo")); im 2 (req "unknown" NULL)]) ["ocsp.CertStatus"];
  explicitly "RevokedInfo" (SEQUENCE [req "revocation_time" GeneralizedTime; tg 0 (opt "revocation_reason" ENUMERATED)]) ["ocsp.RevokedInfo"];
  explicitly "CrlID" (SEQUENCE [tg 0 (opt "crl_url" IA5String); tg 1 (opt "crl_num" INTEGER); tg 2 (opt "crl_time" GeneralizedTime)]) ["ocsp.CrlId"];
  explicitly "PreferredSignatureAlgorithm"
    (SEQUENCE [req "sig_identifier" (T "AlgorithmIdentifier"); opt "cert_identifier" (T "AlgorithmIdentifier")]) ["ocsp.PreferredSignatureAlgorithm"];
  explicitly "PreferredSignatureAlgorithms" (SEQUENCE_OF (T "PreferredSignatureAlgorithm")) ["ocsp.PreferredSignatureAlgorithms"];
(* ---- CMS, RFC 5652 ---- *)
  (* the content is optional in PKCS #7, RFC 2315, and required in RFC 5652 *)
  implicitly "ContentInfo" (SEQUENCE [req "content_type" OID; ex 0 (opt "content" ANY)]) ["cms.ContentInfo"];
  implicitly "EncapsulatedContentInfo" (SEQUENCE [req "content_type" OID; ex 0 (opt "content" OCTET_STRING)]) ["cms.EncapsulatedContentInfo"];
  implicitly "SignedData"
    (SEQUENCE [req "version" INTEGER; req "digest_algorithms" (T "DigestAlgorithmIdentifiers"); req "encap_content_info" SKIP;
               tg 0 (opt "certificates" (T "CertificateSet")); tg 1 (opt "crls" (T "RevocationInfoChoices")); req "signer_infos" (T "SignerInfos")]) ["cms.SignedData"];
  implicitly "DigestAlgorithmIdentifiers" (SET_OF (T "AlgorithmIdentifier")) ["cms.DigestAlgorithms"];
  implicitly "SignerInfos" (SET_OF (T "SignerInfo")) ["cms.SignerInfos"];
  implicitly "SignerInfo"
    (SEQUENCE [req "version" INTEGER; req "sid" (T "SignerIdentifier"); req "digest_algorithm" (T "AlgorithmIdentifier"); tg 0 (opt "signed_attrs" (T "CMS Attributes"));
               req "signature_algorithm" (T "AlgorithmIdentifier"); req "signature" OCTET_STRING; tg 1 (opt "unsigned_attrs" (T "CMS Attributes"))]) ["cms.SignerInfo"];
  implicitly "SignerIdentifier"
    (CHOICE [req "issuer_and_serial_number" (T "IssuerAndSerialNumber"); tg 0 (req "subject_key_identifier" OCTET_STRING)]) ["cms.SignerIdentifier"; "cms.RecipientIdentifier"];
  implicitly "CMS Attributes" (SET_OF (T "CMS Attribute")) ["cms.CMSAttributes"];
  implicitly "CMS Attribute" (SEQUENCE [req "type" OID; req "values" SKIP]) ["cms.CMSAttribute"];
  implicitly "IssuerAndSerialNumber" (SEQUENCE [req "issuer" (T "Name"); req "serial_number" INTEGER]) ["cms.IssuerAndSerialNumber"];
  implicitly "EnvelopedData"
    (SEQUENCE [req "version" INTEGER; tg 0 (opt "originator_info" (T "OriginatorInfo")); req "recipient_infos" (T "RecipientInfos");
               req "encrypted_content_info" (T "EncryptedContentInfo"); tg 1 (opt "unprotected_attrs" (T "CMS Attributes"))]) ["cms.EnvelopedData"];
  implicitly "OriginatorInfo" (SEQUENCE [tg 0 (opt "certs" (T "CertificateSet")); tg 1 (opt "crls" (T "RevocationInfoChoices"))]) ["cms.OriginatorInfo"];
  implicitly "RecipientInfos" (SET_OF (T "RecipientInfo")) ["cms.RecipientInfos"];
  implicitly "EncryptedContentInfo"
    (SEQUENCE [req "content_type" OID; req "content_encryption_algorithm" (T "AlgorithmIdentifier"); tg 0 (opt "encrypted_content" OCTET_STRING)]) ["cms.EncryptedContentInfo"];
  implicitly "RecipientInfo"
    (CHOICE [req "ktri" (T "KeyTransRecipientInfo"); tg 1 (req "kari" (T "KeyAgreeRecipientInfo")); tg 2 (req "kekri" (T "KEKRecipientInfo"));
             tg 3 (req "pwri" (T "PasswordRecipientInfo")); tg 4 (req "ori" (T "OtherRecipientInfo"))]) ["cms.RecipientInfo"];
  implicitly "KeyTransRecipientInfo"
    (SEQUENCE [req "version" INTEGER; req "rid" (T "SignerIdentifier"); req "key_encryption_algorithm" (T "AlgorithmIdentifier"); req "encrypted_key" OCTET_STRING])
    ["cms.KeyTransRecipientInfo"];
  implicitly "KeyAgreeRecipientInfo"
    (SEQUENCE [req "version" INTEGER; ex 0 (req "originator" (T "OriginatorIdentifierOrKey")); ex 1 (opt "ukm" OCTET_STRING);
               req "key_encryption_algorithm" (T "AlgorithmIdentifier"); req "recipient_encrypted_keys" (T "RecipientEncryptedKeys")]) ["cms.KeyAgreeRecipientInfo"];
  implicitly "OriginatorIdentifierOrKey"
    (CHOICE [req "issuer_and_serial_number" (T "IssuerAndSerialNumber"); tg 0 (req "subject_key_identifier" OCTET_STRING);
             tg 1 (req "originator_key" (T "SubjectPublicKeyInfo"))]) ["cms.OriginatorIdentifierOrKey"];
  implicitly "RecipientEncryptedKeys" (SEQUENCE_OF (T "RecipientEncryptedKey")) ["cms.RecipientEncryptedKeys"];
  implicitly "RecipientEncryptedKey" (SEQUENCE [req "rid" (T "KeyAgreeRecipientIdentifier"); req "encrypted_key" OCTET_STRING]) ["cms.RecipientEncryptedKey"];
  implicitly "KeyAgreeRecipientIdentifier"
    (CHOICE [req "issuer_and_serial_number" (T "IssuerAndSerialNumber"); tg 0 (req "r_key_id" (T "RecipientKeyIdentifier"))]) ["cms.KeyAgreementRecipientIdentifier"];
  implicitly "RecipientKeyIdentifier"
    (SEQUENCE [req "subject_key_identifier" OCTET_STRING; opt "date" GeneralizedTime; opt "other" (T "OtherKeyAttribute")]) ["cms.RecipientKeyIdentifier"];
  implicitly "KEKRecipientInfo"
    (SEQUENCE [req "version" INTEGER; req "kekid" (T "KEKIdentifier"); req "key_encryption_algorithm" (T "AlgorithmIdentifier"); req "encrypted_key" OCTET_STRING])
    ["cms.KEKRecipientInfo"];
  implicitly "KEKIdentifier"
    (SEQUENCE [req "key_identifier" OCTET_STRING; opt "date" GeneralizedTime; opt "other" (T "OtherKeyAttribute")]) ["cms.KEKIdentifier"];
  implicitly "OtherKeyAttribute" (SEQUENCE [req "key_attr_id" OID; opt "key_attr" ANY]) ["cms.OtherKeyAttribute"];
  implicitly "PasswordRecipientInfo"
    (SEQUENCE [req "version" INTEGER; tg 0 (opt "key_derivation_algorithm" (T "AlgorithmIdentifier")); req "key_encryption_algorithm" (T "AlgorithmIdentifier");
               req "encrypted_key" OCTET_STRING]) ["cms.PasswordRecipientInfo"];
  implicitly "OtherRecipientInfo" (SEQUENCE [req "ori_type" OID; req "ori_value" ANY]) ["cms.OtherRecipientInfo"];
  implicitly "DigestedData"
    (SEQUENCE [req "version" INTEGER; req "digest_algorithm" (T "AlgorithmIdentifier"); req "encap_content_info" SKIP; req "digest" OCTET_STRING]) ["cms.DigestedData"];
  implicitly "EncryptedData"
    (SEQUENCE [req "version" INTEGER; req "encrypted_content_info" (T "EncryptedContentInfo"); tg 1 (opt "unprotected_attrs" (T "CMS Attributes"))]) ["cms.EncryptedData"];
  implicitly "AuthenticatedData"
    (SEQUENCE [req "version" INTEGER; tg 0 (opt "originator_info" (T "OriginatorInfo")); req "recipient_infos" (T "RecipientInfos");
               req "mac_algorithm" (T "AlgorithmIdentifier"); tg 1 (opt "digest_algorithm" (T "AlgorithmIdentifier"));
               req "encap_content_info" (T "EncapsulatedContentInfo"); tg 2 (opt "auth_attrs" (T "CMS Attributes")); req "mac" OCTET_STRING;
               tg 3 (opt "unauth_attrs" (T "CMS Attributes"))]) ["cms.AuthenticatedData"];
  implicitly "RevocationInfoChoices" (SET_OF (T "RevocationInfoChoice")) ["cms.RevocationInfoChoices"];
  implicitly "RevocationInfoChoice" (CHOICE [req "crl" (T "CertificateList"); tg 1 (req "other" (T "OtherRevocationInfoFormat"))]) ["cms.RevocationInfoChoice"];
  implicitly "OtherRevocationInfoFormat" (SEQUENCE [req "other_rev_info_format" OID; req "other_rev_info" ANY]) ["cms.OtherRevocationInfoFormat"];
  implicitly "CertificateSet" (SET_OF (T "CertificateChoices")) ["cms.CertificateSet"];
  implicitly "CertificateChoices"
    (CHOICE [req "certificate" (T "Certificate"); tg 0 (req "extended_certificate" (T "ExtendedCertificate")); tg 1 (req "v1_attr_cert" (T "AttributeCertificateV1"));
             tg 2 (req "v2_attr_cert" (T "AttributeCertificate")); tg 3 (req "other" (T "OtherCertificateFormat"))]) ["cms.CertificateChoices"];
  implicitly "OtherCertificateFormat" (SEQUENCE [req "other_cert_format" OID; req "other_cert" ANY]) ["cms.OtherCertificateFormat"];
  implicitly "CMS Time" (CHOICE [req "utc_time" UTCTime; req "generalized_time" GeneralizedTime]) ["cms.Time"];
  implicitly "ExtendedCertificate"
    (SEQUENCE [req "extended_certificate_info" (T "ExtendedCertificateInfo"); req "signature_algorithm" (T "AlgorithmIdentifier"); req "signature" BIT_STRING])
    ["cms.ExtendedCertificate"];
  implicitly "ExtendedCertificateInfo"
    (SEQUENCE [req "version" INTEGER; req "certificate" (T "Certificate"); req "attributes" (T "Attributes")]) ["cms.ExtendedCertificateInfo"];
  (* module AttributeCertificateVersion1 of RFC 5652 *)
  explicitly "AttributeCertificateV1"
    (SEQUENCE [req "ac_info" (T "AttributeCertificateInfoV1"); req "signature_algorithm" (T "AlgorithmIdentifier"); req "signature" BIT_STRING]) ["cms.AttributeCertificateV1"];
  explicitly "AttributeCertificateInfoV1"
    (SEQUENCE [dft "version" INTEGER (DName "v1"); req "subject" (T "V1 subject"); req "issuer" (T "GeneralNames"); req "signature" (T "AlgorithmIdentifier");
               req "serial_number" INTEGER; req "att_cert_validity_period" (T "AttCertValidityPeriod"); req "attributes" (T "V1 attributes");
               opt "issuer_unique_id" BIT_STRING; opt "extensions" (T "Extensions")]) ["cms.AttributeCertificateInfoV1"];
  explicitly "V1 subject" (CHOICE [tg 0 (req "base_certificate_id" (T "IssuerSerial")); tg 1 (req "subject_name" (T "GeneralNames"))]) ["cms.AttCertSubject"];
  explicitly "V1 attributes" (SEQUENCE_OF (T "Attribute")) ["x509.Attributes"];
(* ---- PKCS #7, RFC 2315 ---- *)
  implicitly "SignedAndEnvelopedData"
    (SEQUENCE [req "version" INTEGER; req "recipient_infos" (T "RecipientInfos"); req "digest_algorithms" (T "DigestAlgorithmIdentifiers");
               req "encrypted_content_info" (T "EncryptedContentInfo"); im 0 (opt "certificates" (T "CertificateSet"));
               im 1 (opt "crls" (T "CertificateRevocationLists")); req "signer_infos" (T "SignerInfos")]) ["cms.SignedAndEnvelopedData"];
  implicitly "CertificateRevocationLists" (SET_OF (T "CertificateList")) ["cms.CertificateRevocationLists"];
(* ---- RFC 5083, RFC 3274, RFC 6211, RFC 5940, RFC 8551 ---- *)
  implicitly "AuthEnvelopedData"
    (SEQUENCE [req "version" INTEGER; tg 0 (opt "originator_info" (T "OriginatorInfo")); req "recipient_infos" (T "RecipientInfos");
               req "auth_encrypted_content_info" (T "EncryptedContentInfo"); tg 1 (opt "auth_attrs" (T "CMS Attributes")); req "mac" OCTET_STRING;
               tg 2 (opt "unauth_attrs" (T "CMS Attributes"))]) ["cms.AuthEnvelopedData"];
  implicitly "CompressedData"
    (SEQUENCE [req "version" INTEGER; req "compression_algorithm" (T "AlgorithmIdentifier"); req "encap_content_info" (T "EncapsulatedContentInfo")]) ["cms.CompressedData"];
  implicitly "CMSAlgorithmProtection"
    (SEQUENCE [req "digest_algorithm" (T "AlgorithmIdentifier"); tg 1 (opt "signature_algorithm" (T "AlgorithmIdentifier"));
               tg 2 (opt "mac_algorithm" (T "AlgorithmIdentifier"))]) ["cms.CMSAlgorithmProtection"];
  implicitly "SCVPReqRes" (SEQUENCE [ex 0 (opt "request" (T "ContentInfo")); req "response" (T "ContentInfo")]) ["cms.SCVPReqRes"];
  implicitly "SMIMECapability" (SEQUENCE [req "capability_id" OID; opt "parameters" ANY]) ["cms.SMIMECapabilityIdentifier"];
  implicitly "SMIMECapabilities" (SEQUENCE_OF (T "SMIMECapability")) ["cms.SMIMECapabilites"];
  implicitly "SMIMEEncryptionKeyPreference"
    (CHOICE [tg 0 (req "issuer_and_serial_number" (T "IssuerAndSerialNumber")); tg 1 (req "recipient_key_id" (T "RecipientKeyIdentifier"));
             tg 2 (req "subject_alt_key_identifier" OCTET_STRING)]) ["cms.SMIMEEncryptionKeyPreference"];
(* ---- attribute certificates, RFC 5755 ---- *)
  implicitly "AttributeCertificate"
    (SEQUENCE [req "ac_info" (T "AttributeCertificateInfo"); req "signature_algorithm" (T "AlgorithmIdentifier"); req "signature" BIT_STRING]) ["cms.AttributeCertificateV2"];
  implicitly "AttributeCertificateInfo"
    (SEQUENCE [req "version" INTEGER; req "holder" (T "Holder"); req "issuer" (T "AttCertIssuer"); req "signature" (T "AlgorithmIdentifier"); req "serial_number" INTEGER;
               req "att_cert_validity_period" (T "AttCertValidityPeriod"); req "attributes" (T "AC attributes"); opt "issuer_unique_id" BIT_STRING;
               opt "extensions" (T "Extensions")]) ["cms.AttributeCertificateInfoV2"];
  implicitly "AC attributes" (SEQUENCE_OF (T "AC Attribute")) ["cms.AttCertAttributes"];
  implicitly "AC Attribute" (SEQUENCE [req "type" OID; req "values" SKIP]) ["cms.AttCertAttribute"];
  implicitly "Holder"
    (SEQUENCE [tg 0 (opt "base_certificate_id" (T "IssuerSerial")); tg 1 (opt "entity_name" (T "GeneralNames")); tg 2 (opt "object_digest_info" (T "ObjectDigestInfo"))])
    ["cms.Holder"];
  implicitly "ObjectDigestInfo"
    (SEQUENCE [req "digested_object_type" ENUMERATED; opt "other_object_type_id" OID; req "digest_algorithm" (T "AlgorithmIdentifier"); req "object_digest" BIT_STRING])
    ["cms.ObjectDigestInfo"];
  implicitly "AttCertIssuer" (CHOICE [req "v1_form" (T "GeneralNames"); tg 0 (req "v2_form" (T "V2Form"))]) ["cms.AttCertIssuer"];
  implicitly "V2Form"
    (SEQUENCE [opt "issuer_name" (T "GeneralNames"); tg 0 (opt "base_certificate_id" (T "IssuerSerial")); tg 1 (opt "object_digest_info" (T "ObjectDigestInfo"))]) ["cms.V2Form"];
  implicitly "IssuerSerial" (SEQUENCE [req "issuer" (T "GeneralNames"); req "serial" INTEGER; opt "issuer_uid" BIT_STRING]) ["cms.IssuerSerial"];
  implicitly "AttCertValidityPeriod" (SEQUENCE [req "not_before_time" GeneralizedTime; req "not_after_time" GeneralizedTime]) ["cms.AttCertValidityPeriod"];
  implicitly "IetfAttrSyntax" (SEQUENCE [tg 0 (opt "policy_authority" (T "GeneralNames")); req "values" (T "IetfAttrSyntax values")]) ["cms.IetfAttrSyntax"];
  implicitly "IetfAttrSyntax values" (SEQUENCE_OF (T "IetfAttrSyntax value")) ["cms.IetfAttrValues"];
  implicitly "IetfAttrSyntax value" (CHOICE [req "octets" OCTET_STRING; req "oid" OID; req "string" UTF8String]) ["cms.IetfAttrValue"];
  implicitly "SvceAuthInfo" (SEQUENCE [req "service" (T "GeneralName"); req "ident" (T "GeneralName"); opt "auth_info" OCTET_STRING]) ["cms.SvceAuthInfo"];
  implicitly "RoleSyntax" (SEQUENCE [tg 0 (opt "role_authority" (T "GeneralNames")); tg 1 (req "role_name" (T "GeneralName"))]) ["cms.RoleSyntax"];
  implicitly "Clearance"
    (SEQUENCE [req "policy_id" OID; dft "class_list" BIT_STRING (DSet ["unclassified"]); opt "security_categories" (T "securityCategories")]) ["cms.Clearance"];
  implicitly "securityCategories" (SET_OF (T "SecurityCategory")) ["cms.SetOfSecurityCategory"];
  implicitly "SecurityCategory" (SEQUENCE [tg 0 (req "type" OID); tg 1 (req "value" ANY)]) ["cms.SecurityCategory"];
(* ---- PKCS #12, RFC 7292 ---- *)
  implicitly "PFX" (SEQUENCE [req "version" INTEGER; req "auth_safe" (T "ContentInfo"); opt "mac_data" (T "MacData")]) ["pkcs12.Pfx"];
  implicitly "MacData" (SEQUENCE [req "mac" (T "DigestInfo"); req "mac_salt" OCTET_STRING; dft "iterations" INTEGER (DNum 1)]) ["pkcs12.MacData"];
  implicitly "AuthenticatedSafe" (SEQUENCE_OF (T "ContentInfo")) ["pkcs12.AuthenticatedSafe"];
  implicitly "SafeContents" (SEQUENCE_OF (T "SafeBag")) ["pkcs12.SafeContents"];
  implicitly "SafeBag" (SEQUENCE [req "bag_id" OID; ex 0 (req "bag_value" ANY); opt "bag_attributes" (T "PKCS12Attributes")]) ["pkcs12.SafeBag"];
  implicitly "PKCS12Attributes" (SET_OF (T "PKCS12Attribute")) ["pkcs12.Attributes"];
  implicitly "PKCS12Attribute" (SEQUENCE [req "type" OID; req "values" SKIP]) ["pkcs12.Attribute"];
  implicitly "CertBag" (SEQUENCE [req "cert_id" OID; ex 0 (req "cert_value" ANY)]) ["pkcs12.CertBag"];
  implicitly "CRLBag" (SEQUENCE [req "crl_id" OID; ex 0 (req "crl_value" ANY)]) ["pkcs12.CrlBag"];
  implicitly "SecretBag" (SEQUENCE [req "secret_type_id" OID; ex 0 (req "secret_value" ANY)]) ["pkcs12.SecretBag"];
(* ---- time stamps, RFC 3161 ---- *)
  implicitly "TimeStampReq"
    (SEQUENCE [req "version" INTEGER; req "message_imprint" (T "MessageImprint"); opt "req_policy" OID; opt "nonce" INTEGER; dft "cert_req" BOOLEAN no;
               tg 0 (opt "extensions" (T "Extensions"))]) ["tsp.TimeStampReq"];
  implicitly "MessageImprint" (SEQUENCE [req "hash_algorithm" (T "AlgorithmIdentifier"); req "hashed_message" OCTET_STRING]) ["tsp.MessageImprint"];
  implicitly "TimeStampResp" (SEQUENCE [req "status" (T "PKIStatusInfo"); opt "time_stamp_token" (T "ContentInfo")]) ["tsp.TimeStampResp"];
  implicitly "PKIStatusInfo" (SEQUENCE [req "status" INTEGER; opt "status_string" (T "PKIFreeText"); opt "fail_info" BIT_STRING]) ["tsp.PKIStatusInfo"];
  implicitly "PKIFreeText" (SEQUENCE_OF UTF8String) ["tsp.PKIFreeText"];
  implicitly "TSTInfo"
    (SEQUENCE [req "version" INTEGER; req "policy" OID; req "message_imprint" (T "MessageImprint"); req "serial_number" INTEGER; req "gen_time" GeneralizedTime;
               opt "accuracy" (T "Accuracy"); dft "ordering" BOOLEAN no; opt "nonce" INTEGER; tg 0 (opt "tsa" (T "GeneralName"));
               tg 1 (opt "extensions" (T "Extensions"))]) ["tsp.TSTInfo"];
  implicitly "Accuracy" (SEQUENCE [opt "seconds" INTEGER; tg 0 (opt "millis" INTEGER); tg 1 (opt "micros" INTEGER)]) ["tsp.Accuracy"];
(* ---- RFC 5035 ---- *)
  implicitly "ESS IssuerSerial" (SEQUENCE [req "issuer" (T "GeneralNames"); req "serial_number" INTEGER]) ["tsp.IssuerSerial"];
  implicitly "ESSCertID" (SEQUENCE [req "cert_hash" OCTET_STRING; opt "issuer_serial" (T "ESS IssuerSerial")]) ["tsp.ESSCertID"];
  implicitly "ESSCertIDs" (SEQUENCE_OF (T "ESSCertID")) ["tsp.ESSCertIDs"];
  implicitly "SigningCertificate" (SEQUENCE [req "certs" (T "ESSCertIDs"); opt "policies" (T "CertificatePolicies")]) ["tsp.SigningCertificate"];
  implicitly "ESSCertIDv2"
    (SEQUENCE [dft "hash_algorithm" (T "AlgorithmIdentifier") (DDict [("algorithm", DName "sha256")]); req "cert_hash" OCTET_STRING;
               opt "issuer_serial" (T "ESS IssuerSerial")]) ["tsp.ESSCertIDv2"];
  implicitly "ESSCertIDv2s" (SEQUENCE_OF (T "ESSCertIDv2")) ["tsp.ESSCertIDv2s"];
  implicitly "SigningCertificateV2" (SEQUENCE [req "certs" (T "ESSCertIDv2s"); opt "policies" (T "CertificatePolicies")]) ["tsp.SigningCertificateV2"];
(* ---- RFC 5544, RFC 4998 ---- *)
  implicitly "TimeStampedData"
    (SEQUENCE [req "version" INTEGER; opt "data_uri" IA5String; opt "meta_data" (T "MetaData"); opt "content" OCTET_STRING; req "temporal_evidence" (T "Evidence")])
    ["tsp.TimeStampedData"];
  implicitly "MetaData"
    (SEQUENCE [req "hash_protected" BOOLEAN; opt "file_name" UTF8String; opt "media_type" IA5String; opt "other_meta_data" (T "Attributes")]) ["tsp.MetaData"];
  implicitly "Evidence"
    (CHOICE [tg 0 (req "tst_evidence" (T "TimeStampTokenEvidence")); tg 1 (req "ers_evidence" (T "EvidenceRecord")); tg 2 (req "other_evidence" (T "OtherEvidence"))])
    ["tsp.Evidence"];
  implicitly "OtherEvidence" (SEQUENCE [req "oe_type" OID; req "oe_value" ANY]) ["tsp.OtherEvidence"];
  implicitly "TimeStampTokenEvidence" (SEQUENCE_OF (T "TimeStampAndCRL")) ["tsp.TimeStampTokenEvidence"];
  implicitly "TimeStampAndCRL" (SEQUENCE [req "time_stamp" (T "ContentInfo"); opt "crl" (T "CertificateList")]) ["tsp.TimeStampAndCRL"];
  implicitly "EvidenceRecord"
    (SEQUENCE [req "version" INTEGER; req "digest_algorithms" (T "digestAlgorithms"); tg 0 (opt "crypto_infos" (T "V1 attributes"));
               tg 1 (opt "encryption_info" (T "EncryptionInfo")); req "archive_time_stamp_sequence" (T "ArchiveTimeStampSequence")]) ["tsp.EvidenceRecord"];
  implicitly "digestAlgorithms" (SEQUENCE_OF (T "AlgorithmIdentifier")) ["tsp.DigestAlgorithms"; "x509.SequenceOfAlgorithmIdentifiers"];
  implicitly "EncryptionInfo" (SEQUENCE [req "encryption_info_type" OID; req "encryption_info_value" ANY]) ["tsp.EncryptionInfo"];
  implicitly "ArchiveTimeStampSequence" (SEQUENCE_OF (T "ArchiveTimeStampChain")) ["tsp.ArchiveTimeStampSequence"];
  implicitly "ArchiveTimeStampChain" (SEQUENCE_OF (T "ArchiveTimeStamp")) [];
  implicitly "ArchiveTimeStamp"
    (SEQUENCE [tg 0 (opt "digest_algorithm" (T "AlgorithmIdentifier")); tg 1 (opt "attributes" (T "Attributes")); tg 2 (opt "reduced_hashtree" (T "PartialHashtrees"));
               req "time_stamp" (T "ContentInfo")]) ["tsp.ArchiveTimeStamp"];
  implicitly "PartialHashtrees" (SEQUENCE_OF (T "PartialHashtree")) ["tsp.PartialHashtrees"];
  implicitly "PartialHashtree" (SEQUENCE_OF OCTET_STRING) ["tsp.PartialHashtree"];
(* ---- ISO 32000, 12.8 ---- *)
  explicitly "ArchiveRevInfo" (SEQUENCE [req "version" INTEGER]) ["pdf.AdobeArchiveRevInfo"];
  explicitly "Timestamp" (SEQUENCE [req "version" INTEGER; req "location" (T "GeneralName"); dft "requires_auth" BOOLEAN no]) ["pdf.AdobeTimestamp"];
  explicitly "RevocationInfoArchival"
    (SEQUENCE [tg 0 (opt "crl" (T "SEQUENCE OF CRLs")); tg 1 (opt "ocsp" (T "SEQUENCE OF OCSPResponse")); tg 2 (opt "other_rev_info" (T "SEQUENCE OF OtherRevInfo"))])
    ["pdf.RevocationInfoArchival"];
  explicitly "SEQUENCE OF CRLs" (SEQUENCE_OF (T "CertificateList")) ["pdf.SequenceOfCertificateList"];
  explicitly "SEQUENCE OF OCSPResponse" (SEQUENCE_OF (T "OCSPResponse")) ["pdf.SequenceOfOCSPResponse"];
  explicitly "SEQUENCE OF OtherRevInfo" (SEQUENCE_OF (T "OtherRevInfo")) ["pdf.SequenceOfOtherRevInfo"];
  explicitly "OtherRevInfo" (SEQUENCE [req "type" OID; req "value" OCTET_STRING]) ["pdf.OtherRevInfo"]
].

(* The types the standards bind to identifiers, by the class of the library and its name of the
   identifier. *)
Definition algorithm_bindings : list (string * list (string * sty)) :=
[
  ("algos.MaskGenAlgorithm", [("mgf1", T "AlgorithmIdentifier")]);
  ("algos.SignedDigestAlgorithm", [("rsassa_pss", T "RSASSA-PSS-params")]);
  ("algos.KdfAlgorithm", [("pbkdf2", T "PBKDF2-params"); ("scrypt", T "scrypt-params")]);
  ("algos.KeyExchangeAlgorithm", [("dh", T "DHParameter")]);
  ("algos.PSourceAlgorithm", [("p_specified", OCTET_STRING)]);
  ("algos.EncryptionAlgorithm",
    [("des", OCTET_STRING); ("tripledes_3key", OCTET_STRING); ("rc2", T "RC2-CBC-Parameter"); ("rc5", T "RC5-CBC-Parameters");
     ("aes128_cbc", OCTET_STRING); ("aes192_cbc", OCTET_STRING); ("aes256_cbc", OCTET_STRING);
     ("aes128_ofb", OCTET_STRING); ("aes192_ofb", OCTET_STRING); ("aes256_ofb", OCTET_STRING);
     ("aes128_ccm", T "CCMParameters"); ("aes192_ccm", T "CCMParameters"); ("aes256_ccm", T "CCMParameters");
     ("pbes1_md2_des", T "PBEParameter"); ("pbes1_md5_des", T "PBEParameter"); ("pbes1_md2_rc2", T "PBEParameter");
     ("pbes1_md5_rc2", T "PBEParameter"); ("pbes1_sha1_des", T "PBEParameter"); ("pbes1_sha1_rc2", T "PBEParameter");
     (* RFC 7292 C: pkcs-12PbeParams, the same structure *)
     ("pkcs12_sha1_rc4_128", T "PBEParameter"); ("pkcs12_sha1_rc4_40", T "PBEParameter"); ("pkcs12_sha1_tripledes_3key", T "PBEParameter");
     ("pkcs12_sha1_tripledes_2key", T "PBEParameter"); ("pkcs12_sha1_rc2_128", T "PBEParameter"); ("pkcs12_sha1_rc2_40", T "PBEParameter");
     ("rsaes_oaep", T "RSAES-OAEP-params"); ("pbes2", T "PBES2-params")]);
  ("algos.Pkcs5MacAlgorithm", [("pbmac1", T "PBMAC1-params")]);
  ("keys.CharacteristicTwo", [("gn_basis", NULL); ("tp_basis", INTEGER); ("pp_basis", T "Pentanomial")]);
  ("keys.FieldID", [("prime_field", INTEGER); ("characteristic_two_field", T "Characteristic-two")]);
  ("keys.PrivateKeyAlgorithm", [("dsa", T "Dss-Parms"); ("ec", T "ECDomainParameters"); ("rsassa_pss", T "RSASSA-PSS-params")]);
  ("keys.PublicKeyAlgorithm",
    [("dsa", T "Dss-Parms"); ("ec", T "ECDomainParameters"); ("dh", T "DomainParameters"); ("rsaes_oaep", T "RSAES-OAEP-params");
     ("rsassa_pss", T "RSASSA-PSS-params")]);
  ("cms.KeyEncryptionAlgorithm", [("rsaes_oaep", T "RSAES-OAEP-params")])
].
Definition name_bindings : list (string * list (string * sty)) :=
[
  (* RFC 5280 A.1, X.520, PKCS #9, RFC 4519; TCG *)
  ("x509.NameTypeAndValue",
    [("common_name", T "DirectoryString"); ("surname", T "DirectoryString"); ("serial_number", PrintableString); ("country_name", PrintableString);
     ("locality_name", T "DirectoryString"); ("state_or_province_name", T "DirectoryString"); ("street_address", T "DirectoryString");
     ("organization_name", T "DirectoryString"); ("organizational_unit_name", T "DirectoryString"); ("title", T "DirectoryString");
     ("business_category", T "DirectoryString"); ("postal_code", T "DirectoryString"); ("telephone_number", PrintableString); ("name", T "DirectoryString");
     ("given_name", T "DirectoryString"); ("initials", T "DirectoryString"); ("generation_qualifier", T "DirectoryString"); ("unique_identifier", BIT_STRING);
     ("dn_qualifier", PrintableString); ("pseudonym", T "DirectoryString"); ("email_address", IA5String); ("incorporation_locality", T "DirectoryString");
     ("incorporation_state_or_province", T "DirectoryString"); ("incorporation_country", PrintableString); ("domain_component", IA5String);
     ("organization_identifier", T "DirectoryString"); ("tpm_manufacturer", UTF8String); ("tpm_model", UTF8String); ("tpm_version", UTF8String);
     ("platform_manufacturer", UTF8String); ("platform_model", UTF8String); ("platform_version", UTF8String); ("user_id", T "DirectoryString")]);
  ("x509.ExtensionAttribute",
    [("common_name", PrintableString); ("teletex_common_name", TeletexString); ("teletex_organization_name", TeletexString);
     ("teletex_personal_name", T "TeletexPersonalName"); ("teletex_organization_unit_names", T "TeletexOrganizationalUnitNames");
     ("teletex_domain_defined_attributes", T "TeletexDomainDefinedAttributes"); ("pds_name", PrintableString);
     ("physical_delivery_country_name", T "PhysicalDeliveryCountryName"); ("postal_code", T "PostalCode"); ("physical_delivery_office_name", T "PDSParameter");
     ("physical_delivery_office_number", T "PDSParameter"); ("extension_of_address_components", T "PDSParameter"); ("physical_delivery_personal_name", T "PDSParameter");
     ("physical_delivery_organization_name", T "PDSParameter"); ("extension_physical_delivery_address_components", T "PDSParameter");
     ("unformatted_postal_address", T "UnformattedPostalAddress"); ("street_address", T "PDSParameter"); ("post_office_box_address", T "PDSParameter");
     ("poste_restante_address", T "PDSParameter"); ("unique_postal_name", T "PDSParameter"); ("local_postal_attributes", T "PDSParameter");
     ("extended_network_address", T "ExtendedNetworkAddress"); ("terminal_type", INTEGER)]);
  ("x509.PolicyQualifierInfo", [("certification_practice_statement", IA5String); ("user_notice", T "UserNotice")]);
  (* X.509; TCG; RFC 3739 *)
  ("x509.SubjectDirectoryAttribute",
    [("supported_algorithms", OF 17 (T "SupportedAlgorithm")); ("tpm_specification", OF 17 (T "TPMSpecification"));
     ("tcg_platform_specification", OF 17 (T "TCGPlatformSpecification")); ("tpm_security_assertions", OF 17 (T "TPMSecurityAssertions"));
     ("pda_date_of_birth", OF 17 GeneralizedTime); ("pda_place_of_birth", OF 17 (T "DirectoryString")); ("pda_gender", OF 17 PrintableString);
     ("pda_country_of_citizenship", OF 17 PrintableString); ("pda_country_of_residence", OF 17 PrintableString)])
].
Definition extension_bindings : list (string * list (string * sty)) :=
[
  ("x509.Extension",
    [("subject_directory_attributes", T "SubjectDirectoryAttributes"); ("key_identifier", OCTET_STRING); ("key_usage", BIT_STRING);
     ("private_key_usage_period", T "PrivateKeyUsagePeriod"); ("subject_alt_name", T "GeneralNames"); ("issuer_alt_name", T "GeneralNames");
     ("basic_constraints", T "BasicConstraints"); ("name_constraints", T "NameConstraints"); ("crl_distribution_points", T "CRLDistributionPoints");
     ("certificate_policies", T "CertificatePolicies"); ("policy_mappings", T "PolicyMappings"); ("authority_key_identifier", T "AuthorityKeyIdentifier");
     ("policy_constraints", T "PolicyConstraints"); ("extended_key_usage", T "ExtKeyUsageSyntax"); ("freshest_crl", T "CRLDistributionPoints");
     ("inhibit_any_policy", INTEGER); ("authority_information_access", T "AuthorityInfoAccessSyntax"); ("subject_information_access", T "AuthorityInfoAccessSyntax");
     ("tls_feature", T "Features"); ("ocsp_no_check", NULL); ("netscape_certificate_type", BIT_STRING); ("signed_certificate_timestamp_list", OCTET_STRING);
     ("adobe_archive_rev_info", T "ArchiveRevInfo"); ("adobe_timestamp", T "Timestamp")]);
  ("crl.TBSCertListExtension",
    [("issuer_alt_name", T "GeneralNames"); ("crl_number", INTEGER); ("delta_crl_indicator", INTEGER); ("issuing_distribution_point", T "IssuingDistributionPoint");
     ("authority_key_identifier", T "AuthorityKeyIdentifier"); ("freshest_crl", T "CRLDistributionPoints"); ("authority_information_access", T "AuthorityInfoAccessSyntax")]);
  ("crl.CRLEntryExtension",
    [("crl_reason", ENUMERATED); ("hold_instruction_code", OID); ("invalidity_date", GeneralizedTime); ("certificate_issuer", T "GeneralNames")]);
  ("ocsp.TBSRequestExtension",
    [("nonce", OCTET_STRING); ("acceptable_responses", T "ExtKeyUsageSyntax"); ("preferred_signature_algorithms", T "PreferredSignatureAlgorithms")]);
  ("ocsp.SingleResponseExtension",
    [("crl", T "CrlID"); ("archive_cutoff", GeneralizedTime); ("crl_reason", ENUMERATED); ("invalidity_date", GeneralizedTime);
     ("certificate_issuer", T "GeneralNames"); ("signed_certificate_timestamp_list", OCTET_STRING)]);
  ("ocsp.ResponseDataExtension", [("nonce", OCTET_STRING); ("extended_revoke", NULL)]);
  ("ocsp.ResponseBytes", [("basic_ocsp_response", T "BasicOCSPResponse")])
].
Definition content_bindings : list (string * list (string * sty)) :=
[
  (* PKCS #9 5.4; RFC 2986 *)
  ("csr.CRIAttribute",
    [("challenge_password", OF 17 (T "DirectoryString")); ("extended_certificate_attributes", OF 17 (T "Attributes")); ("extension_request", OF 17 (T "Extensions"))]);
  ("cms.CMSAttribute",
    [("content_type", OF 17 OID); ("message_digest", OF 17 OCTET_STRING); ("signing_time", OF 17 (T "CMS Time")); ("counter_signature", OF 17 (T "SignerInfo"));
     ("signature_time_stamp_token", OF 17 (T "ContentInfo")); ("cms_algorithm_protection", OF 17 (T "CMSAlgorithmProtection"));
     ("encrypt_key_pref", OF 17 (T "SMIMEEncryptionKeyPreference")); ("smime_capabilities", OF 17 (T "SMIMECapabilities"));
     ("adobe_revocation_info_archival", OF 17 (T "RevocationInfoArchival")); ("signing_certificate", OF 17 (T "SigningCertificate"));
     ("signing_certificate_v2", OF 17 (T "SigningCertificateV2"))]);
  ("cms.AttCertAttribute",
    [("authentication_info", OF 17 (T "SvceAuthInfo")); ("access_identity", OF 17 (T "SvceAuthInfo")); ("charging_identity", OF 17 (T "IetfAttrSyntax"));
     ("group", OF 17 (T "IetfAttrSyntax")); ("role", OF 17 (T "RoleSyntax")); ("clearance", OF 17 (T "Clearance"))]);
  ("cms.ContentInfo",
    [("data", OCTET_STRING); ("signed_data", T "SignedData"); ("enveloped_data", T "EnvelopedData"); ("signed_and_enveloped_data", T "SignedAndEnvelopedData");
     ("digested_data", T "DigestedData"); ("encrypted_data", T "EncryptedData"); ("authenticated_data", T "AuthenticatedData"); ("compressed_data", T "CompressedData");
     ("authenticated_enveloped_data", T "AuthEnvelopedData"); ("timestamped_data", T "TimeStampedData")]);
  ("cms.EncapsulatedContentInfo",
    [("signed_data", T "SignedData"); ("enveloped_data", T "EnvelopedData"); ("signed_and_enveloped_data", T "SignedAndEnvelopedData");
     ("digested_data", T "DigestedData"); ("encrypted_data", T "EncryptedData"); ("authenticated_data", T "AuthenticatedData"); ("compressed_data", T "CompressedData");
     ("authenticated_enveloped_data", T "AuthEnvelopedData"); ("tst_info", T "TSTInfo"); ("timestamped_data", T "TimeStampedData")]);
  ("cms.OtherRevocationInfoFormat", [("ocsp_response", T "OCSPResponse"); ("scvp", T "SCVPReqRes")]);
  ("pkcs12.Attribute", [("friendly_name", OF 17 BMPString); ("local_key_id", OF 17 OCTET_STRING)]);
  (* the contents of the octet string *)
  ("pkcs12.CertBag", [("x509", T "Certificate")]);
  ("pkcs12.SafeBag",
    [("key_bag", T "PrivateKeyInfo"); ("pkcs8_shrouded_key_bag", T "EncryptedPrivateKeyInfo"); ("cert_bag", T "CertBag"); ("crl_bag", T "CRLBag");
     ("secret_bag", T "SecretBag"); ("safe_contents", T "SafeContents")])
].
Definition bound : list (string * list (string * sty)) := (algorithm_bindings ++ name_bindings ++ extension_bindings ++ content_bindings)%list.
