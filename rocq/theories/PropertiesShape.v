(* C93: the structures of the library are those of the standards. *)
Require Import ZArith List Bool Lia.
Require Import Coq.Strings.String.
Require Import Verif.ShapeModel Verif.Shapes Verif.ShapeSpec Verif.ShapeProofs.
Import ListNotations.
Local Open Scope Z_scope.
Local Open Scope string_scope.
Ltac calc := vm_compute; reflexivity.

(* the classes that differ from the type they stand for *)
Definition differing : list (string * string) :=
  [("Attribute", "x509.SubjectDirectoryAttribute"); ("Attribute", "csr.CRIAttribute"); ("DirectoryString", "x509.DirectoryString");
   ("CountryName", "x509.CountryName"); ("AdministrationDomainName", "x509.AdministrationDomainName"); ("ExtensionAttributes", "x509.ExtensionAttributes");
   ("EDIPartyName", "x509.EDIPartyName"); ("CCMParameters", "algos.CcmParams"); ("CertificationRequestInfo", "csr.CertificationRequestInfo");
   ("OtherKeyAttribute", "cms.OtherKeyAttribute"); ("ExtendedCertificateInfo", "cms.ExtendedCertificateInfo");
   ("SMIMEEncryptionKeyPreference", "cms.SMIMEEncryptionKeyPreference"); ("V2Form", "cms.V2Form"); ("CertBag", "pkcs12.CertBag"); ("CRLBag", "pkcs12.CrlBag");
   ("SecretBag", "pkcs12.SecretBag"); ("TimeStampResp", "tsp.TimeStampResp"); ("MetaData", "tsp.MetaData"); ("TimeStampAndCRL", "tsp.TimeStampAndCRL");
   ("ArchiveTimeStampSequence", "tsp.ArchiveTimeStampSequence"); ("ArchiveTimeStamp", "tsp.ArchiveTimeStamp")].

Definition is_in (p : string * string) (l : list (string * string)) : bool := existsb (fun q => String.eqb (fst p) (fst q) && String.eqb (snd p) (snd q)) l.
Lemma is_in_iff p l : is_in p l = true <-> In p l.
Proof.
  unfold is_in. rewrite existsb_exists. split.
  - intros ([a b] & i & e). apply andb_true_iff in e. destruct e as [e f]. apply String.eqb_eq in e, f. destruct p. cbn in *. congruence.
  - intro i. exists p. rewrite !String.eqb_refl. auto.
Qed.

(* every class that stands for a type of a standard has the components of the type, in their order, with their types,
   tags, presence and defaults - or is one of the 21 listed *)
Theorem C93_structures_partial (s : standard) (c : string) : In s standards -> In c (s_classes s) ->
  conforms standards library s c <-> ~ In (s_name s, c) differing.
Proof.
  assert (H : forallb (fun s => forallb (fun c => Bool.eqb (conformsb standards library s c) (negb (is_in (s_name s, c) differing))) (s_classes s)) standards = true) by calc.
  intros I J. rewrite forallb_forall in H. specialize (H s I). cbv beta in H. rewrite forallb_forall in H. specialize (H c J). cbv beta in H.
  apply eqb_prop in H. rewrite <- conformsb_iff, H, negb_true_iff, <- is_in_iff, not_true_iff_false. reflexivity.
Qed.
Print Assumptions C93_structures_partial.

(* the tagging of the standard is the library's: TBSCertificate as an instance *)
Definition tbs : standard :=
  explicitly "TBSCertificate"
    (SEQUENCE [tg 0 (dft "version" INTEGER (DName "v1")); req "serial_number" INTEGER; req "signature" (T "AlgorithmIdentifier"); req "issuer" (T "Name");
               req "validity" (T "Validity"); req "subject" (T "Name"); req "subject_public_key_info" (T "SubjectPublicKeyInfo");
               im 1 (opt "issuer_unique_id" BIT_STRING); im 2 (opt "subject_unique_id" BIT_STRING); tg 3 (opt "extensions" (T "Extensions"))]) ["x509.TbsCertificate"].
Example C93_structures_ex : In tbs standards /\ In "x509.TbsCertificate" (s_classes tbs) /\ ~ In ("TBSCertificate", "x509.TbsCertificate") differing /\
  conforms standards library tbs "x509.TbsCertificate".
Proof.
  assert (I : In tbs standards) by (apply nth_error_In with (n := 8%nat); calc).
  assert (J : In "x509.TbsCertificate" (s_classes tbs)) by (left; reflexivity).
  assert (K : ~ In (s_name tbs, "x509.TbsCertificate") differing) by (rewrite <- is_in_iff; vm_compute; discriminate).
  split; [exact I|]. split; [exact J|]. split; [exact K|]. now apply C93_structures_partial.
Qed.

(* the structured classes no standard is given for: those of core.py, wrappers SET OF (compared where they are
   bound to identifiers), and types of products *)
Definition not_compared : list string :=
  ["core.Choice"; "core.Sequence"; "core.SequenceOf"; "core.Set"; "core.SetOf"; "core.EmbeddedPdv"; "keys.DSAPrivateKey"; "x509.EntrustVersionInfo";
   "x509.SetOfTPMSpecification"; "x509.SetOfTCGPlatformSpecification"; "x509.SetOfTPMSecurityAssertions"; "x509.SetOfGeneralizedTime"; "x509.SetOfDirectoryString";
   "x509.SetOfPrintableString"; "x509.SetOfSupportedAlgorithm"; "x509.CertificateAux"; "csr.SetOfDirectoryString"; "csr.SetOfExtensions";
   "csr.MicrosoftEnrollmentCSProvider"; "csr.SetOfMicrosoftEnrollmentCSProvider"; "csr.MicrosoftRequestClientInfo"; "csr.SetOfMicrosoftRequestClientInfo";
   "ocsp.ServiceLocator"; "cms.SetOfContentType"; "cms.SetOfOctetString"; "cms.SetOfTime"; "cms.SetOfAny"; "cms.SetOfCMSAlgorithmProtection"; "cms.SetOfIetfAttrSyntax";
   "cms.SetOfSvceAuthInfo"; "cms.SetOfRoleSyntax"; "cms.SetOfClearance"; "cms.BigTime"; "cms.LeapData"; "cms.SetOfLeapData"; "cms.TimingMetrics";
   "cms.SetOfTimingMetrics"; "cms.TimingPolicy"; "cms.SetOfTimingPolicy"; "cms.SetOfContentInfo"; "cms.SMIMEEncryptionKeyPreferences"; "cms.SetOfSMIMECapabilites";
   "pkcs12.SetOfAny"; "pkcs12.SetOfBMPString"; "pkcs12.SetOfOctetString"; "pkcs12.SetOfKeyPurposeId"; "tsp.SetOfSigningCertificates";
   "tsp.SetOfSigningCertificatesV2"; "pdf.SetOfRevocationInfoArchival"].
Theorem C93_covered (k : sclass) : In k library -> structured library (c_name k) = true -> ~ In (c_name k) not_compared ->
  exists s, In s standards /\ In (c_name k) (s_classes s).
Proof.
  assert (H : forallb (fun k => implb (structured library (c_name k))
    (existsb (String.eqb (c_name k)) not_compared || existsb (fun s => existsb (String.eqb (c_name k)) (s_classes s)) standards)) library = true) by calc.
  intros I S N. rewrite forallb_forall in H. specialize (H k I). cbv beta in H. rewrite S in H. cbn [implb] in H.
  apply orb_true_iff in H. destruct H as [H|H]; [apply existsb_eqb in H; contradiction|].
  apply existsb_exists in H. destruct H as (s & i & e). apply existsb_eqb in e. exists s. auto.
Qed.
Print Assumptions C93_covered.
Example C93_covered_ex : In class_cms_SignedData library /\ structured library (c_name class_cms_SignedData) = true /\ ~ In (c_name class_cms_SignedData) not_compared.
Proof.
  split; [apply nth_error_In with (n := 363%nat); calc|]. split; [calc|]. rewrite <- existsb_eqb. vm_compute. discriminate.
Qed.

(* the types bound to identifiers are those the standards bind to them, but for five *)
Definition differing_bindings : list (string * string) :=
  [("x509.NameTypeAndValue", "serial_number"); ("x509.NameTypeAndValue", "country_name"); ("x509.NameTypeAndValue", "dn_qualifier");
   ("x509.NameTypeAndValue", "incorporation_country"); ("csr.CRIAttribute", "extended_certificate_attributes")].
Definition binding {A} (l : list (string * list (string * A))) (k i : string) : option A :=
  match find (fun p => String.eqb (fst p) k) l with
  | Some (_, t) => option_map snd (find (fun p => String.eqb (fst p) i) t)
  | None => None
  end.
Definition all_bound : list (string * string) := flat_map (fun p => map (fun q => (fst p, fst q)) (snd p)) bound.
Theorem C93_bound_partial (k i : string) : In (k, i) all_bound ->
  exists t c, binding bound k i = Some t /\ binding bindings k i = Some c /\ (is_of standards library t c <-> ~ In (k, i) differing_bindings).
Proof.
  assert (H : forallb (fun p => match binding bound (fst p) (snd p), binding bindings (fst p) (snd p) with
    | Some t, Some c => Bool.eqb (is_ofb standards library t c) (negb (is_in p differing_bindings)) | _, _ => false end) all_bound = true) by calc.
  intro I. rewrite forallb_forall in H. specialize (H _ I). cbn [fst snd] in H.
  destruct (binding bound k i) as [t|]; [|discriminate]. destruct (binding bindings k i) as [c|]; [|discriminate].
  exists t, c. split; [reflexivity|]. split; [reflexivity|].
  apply eqb_prop in H. rewrite <- is_ofb_iff, H, negb_true_iff, <- is_in_iff, not_true_iff_false. reflexivity.
Qed.
Print Assumptions C93_bound_partial.
Example C93_bound_ex : In ("cms.CMSAttribute", "signing_time") all_bound /\
  binding bound "cms.CMSAttribute" "signing_time" = Some (OF 17 (T "CMS Time")) /\ binding bindings "cms.CMSAttribute" "signing_time" = Some "cms.SetOfTime" /\
  is_of standards library (OF 17 (T "CMS Time")) "cms.SetOfTime".
Proof.
  split; [rewrite <- is_in_iff; calc|]. split; [calc|]. split; [calc|]. apply is_ofb_iff. calc.
Qed.

(* ---- refuted ---- *)
Definition fails (n c : string) : Prop := exists s, In s standards /\ s_name s = n /\ In c (s_classes s) /\ ~ conforms standards library s c.
Lemma fails_by n c : find (fun s => String.eqb (s_name s) n && existsb (String.eqb c) (s_classes s) && negb (conformsb standards library s c)) standards <> None -> fails n c.
Proof.
  destruct (find _ standards) as [s|] eqn:E; [|congruence]. intros _. apply find_some in E. destruct E as [I E].
  apply andb_true_iff in E. destruct E as [E F]. apply andb_true_iff in E. destruct E as [E G].
  exists s. apply String.eqb_eq in E. apply existsb_eqb in G. apply negb_true_iff in F. repeat split; auto.
  rewrite <- conformsb_iff. congruence.
Qed.
Ltac fail_by := apply fails_by; vm_compute; discriminate.

(* [APPLICATION 1] and [APPLICATION 2], which tell country and administration domain apart, are not written *)
Theorem C93_country_name_refuted : fails "CountryName" "x509.CountryName" /\ fails "AdministrationDomainName" "x509.AdministrationDomainName" /\
  def_of library "x509.CountryName" =
    Some (Alternatives None [Component "x121_dcc_code" Untagged (Universal 18) Required; Component "iso_3166_alpha2_code" Untagged (Universal 19) Required]).
Proof. split; [fail_by|]. split; [fail_by | calc]. Qed.
Print Assumptions C93_country_name_refuted.

(* tags of a choice are explicit; here they are declared implicit *)
Theorem C93_edi_party_name_refuted : fails "EDIPartyName" "x509.EDIPartyName" /\
  def_of library "x509.EDIPartyName" = Some (Components 16
    [Component "name_assigner" (Implicit 0) (Named "x509.DirectoryString") Optional; Component "party_name" (Implicit 1) (Named "x509.DirectoryString") Required]) /\
  (forall g, meant standards false (T "DirectoryString") (Tag 0) g -> g = Explicit 0).
Proof.
  split; [fail_by|]. split; [calc|]. intros g H. inversion H as [| | | |n d N]; subst; [reflexivity|].
  exfalso. apply N. apply only_explicitb_iff. calc.
Qed.
Print Assumptions C93_edi_party_name_refuted.

(* the module has IMPLICIT TAGS; here the tags are explicit *)
Theorem C93_v2form_refuted : fails "V2Form" "cms.V2Form" /\
  def_of library "cms.V2Form" = Some (Components 16
    [Component "issuer_name" Untagged (Named "x509.GeneralNames") Optional; Component "base_certificate_id" (Explicit 0) (Named "cms.IssuerSerial") Optional;
     Component "object_digest_info" (Explicit 1) (Named "cms.ObjectDigestInfo") Optional]) /\
  (forall g, meant standards false (T "IssuerSerial") (Tag 0) g -> g = Implicit 0).
Proof.
  split; [fail_by|]. split; [calc|]. intros g H. inversion H as [| | |n [d|d]|n d N]; subst; [discriminate| |reflexivity].
  apply only_explicitb_iff in d. revert d. vm_compute. discriminate.
Qed.
Print Assumptions C93_v2form_refuted.

(* components the standard makes optional, or gives a default, are required *)
Theorem C93_required_refuted : fails "TimeStampResp" "tsp.TimeStampResp" /\ fails "OtherKeyAttribute" "cms.OtherKeyAttribute" /\ fails "CCMParameters" "algos.CcmParams" /\
  def_of library "tsp.TimeStampResp" = Some (Components 16
    [Component "status" Untagged (Named "tsp.PKIStatusInfo") Required; Component "time_stamp_token" Untagged (Named "cms.ContentInfo") Required]) /\
  def_of library "algos.CcmParams" = Some (Components 16 [Component "aes_nonce" Untagged (Universal 4) Required; Component "aes_icvlen" Untagged (Universal 2) Required]) /\
  def_of library "cms.OtherKeyAttribute" = Some (Components 16 [Component "key_attr_id" Untagged (Universal 6) Required; Component "key_attr" Untagged Open Required]).
Proof. do 3 (split; [fail_by|]). repeat split; calc. Qed.
Print Assumptions C93_required_refuted.

(* a component the standard requires is optional *)
Theorem C93_optional_refuted : fails "CertificationRequestInfo" "csr.CertificationRequestInfo" /\
  exists l, def_of library "csr.CertificationRequestInfo" = Some (Components 16 l) /\
    In (Component "attributes" (Implicit 0) (Named "csr.CRIAttributes") Optional) l.
Proof. split; [fail_by|]. eexists. split; [calc|]. cbn. tauto. Qed.
Print Assumptions C93_optional_refuted.

(* SEQUENCE OF where the standards have SET OF *)
Theorem C93_set_of_refuted : fails "ExtensionAttributes" "x509.ExtensionAttributes" /\ fails "MetaData" "tsp.MetaData" /\ fails "ArchiveTimeStamp" "tsp.ArchiveTimeStamp" /\
  fails "ExtendedCertificateInfo" "cms.ExtendedCertificateInfo" /\
  def_of library "x509.ExtensionAttributes" = Some (Items 16 (Named "x509.ExtensionAttribute")) /\
  def_of library "x509.Attributes" = Some (Items 16 (Named "x509.Attribute")).
Proof. do 4 (split; [fail_by|]). split; calc. Qed.
Print Assumptions C93_set_of_refuted.

(* components of another type *)
Theorem C93_type_refuted : fails "SMIMEEncryptionKeyPreference" "cms.SMIMEEncryptionKeyPreference" /\ fails "TimeStampAndCRL" "tsp.TimeStampAndCRL" /\
  fails "ArchiveTimeStampSequence" "tsp.ArchiveTimeStampSequence" /\
  (exists l, def_of library "cms.SMIMEEncryptionKeyPreference" = Some (Alternatives None l) /\
     In (Component "subject_alt_key_identifier" (Implicit 2) (Named "keys.PublicKeyInfo") Required) l) /\
  def_of library "tsp.TimeStampAndCRL" = Some (Components 16
    [Component "time_stamp" Untagged (Named "cms.EncapsulatedContentInfo") Required; Component "crl" Untagged (Named "crl.CertificateList") Optional]) /\
  def_of library "tsp.ArchiveTimeStampSequence" = Some (Items 16 (Named "tsp.ArchiveTimeStamp")).
Proof. do 3 (split; [fail_by|]). split; [eexists; split; [calc | cbn; tauto]|]. split; calc. Qed.
Print Assumptions C93_type_refuted.

(* octet strings where the standard leaves the type open, and the other way round; an alternative too many *)
Theorem C93_open_refuted : fails "CertBag" "pkcs12.CertBag" /\ fails "CRLBag" "pkcs12.CrlBag" /\ fails "SecretBag" "pkcs12.SecretBag" /\
  fails "Attribute" "x509.SubjectDirectoryAttribute" /\ fails "Attribute" "csr.CRIAttribute" /\ fails "DirectoryString" "x509.DirectoryString".
Proof. repeat (split; [fail_by|]). fail_by. Qed.
Print Assumptions C93_open_refuted.

(* PKCS #9 5.2.2: the values of extendedCertificateAttributes are a set of sets of attributes; the
   library takes it for a set of attributes *)
Theorem C93_extended_attributes_refuted : exists k i t c, In (k, i) all_bound /\ binding bound k i = Some t /\ binding bindings k i = Some c /\
  ~ is_of standards library t c /\ is_of standards library (OF 17 (T "Attribute")) c.
Proof.
  exists "csr.CRIAttribute", "extended_certificate_attributes", (OF 17 (T "Attributes")), "csr.SetOfAttributes".
  split; [rewrite <- is_in_iff; calc|]. split; [calc|]. split; [calc|]. split; [rewrite <- is_ofb_iff; vm_compute; discriminate | apply is_ofb_iff; calc].
Qed.
Print Assumptions C93_extended_attributes_refuted.
