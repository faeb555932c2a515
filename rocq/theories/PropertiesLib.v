(* The classes of the library that the container model covers (property C94). *)
Require Import Coq.Bool.Bool Verif.Base Verif.Text Verif.CodecModel Verif.PrimModel Verif.PrimSpec Verif.ContModel Verif.ContSpec Verif.ContBase
  Verif.ContPath Verif.ContHistSpec Verif.ContHist2 Verif.ContFinal Verif.BerSpec Verif.BerFinal Verif.BerKeep Verif.BerRead Verif.LibModel Verif.LibProofs Verif.TypeSpec Verif.TypeProofs.
Require Import Verif.PropertiesCont Verif.PropertiesBer.
Require Coq.Strings.String.
Import Coq.Strings.String.StringSyntax.
Local Open Scope string_scope.

Ltac calc := vm_compute; reflexivity.

Definition covered : list string :=
  ["algos.ScryptParams"; "algos.DHParameters"; "algos.Rc2Params"; "algos.Rc5Params"; "algos.Pbes1Params"; "algos.CcmParams";
   "algos.DSASignature"; "keys.OtherPrimeInfo"; "keys.OtherPrimeInfos"; "keys.RSAPrivateKey"; "keys.RSAPublicKey";
   "keys.DSAPrivateKey"; "keys.Pentanomial"; "keys.Curve"; "keys.DSAParams"; "keys.ValidationParms"; "keys.DomainParameters";
   "x509.PrivateKeyUsagePeriod"; "x509.PrivateDomainName"; "x509.OrganizationalUnitNames";
   "x509.TeletexOrganizationalUnitNames"; "x509.BuiltInDomainDefinedAttribute"; "x509.BuiltInDomainDefinedAttributes";
   "x509.TeletexDomainDefinedAttribute"; "x509.TeletexDomainDefinedAttributes"; "x509.PhysicalDeliveryCountryName";
   "x509.PostalCode"; "x509.PrintableAddress"; "x509.E1634Address"; "x509.NAddresses"; "x509.PresentationAddress";
   "x509.ExtendedNetworkAddress"; "x509.Time"; "x509.Validity"; "x509.BasicConstraints"; "x509.DisplayText";
   "x509.NoticeNumbers"; "x509.NoticeReference"; "x509.UserNotice"; "x509.PolicyMapping"; "x509.PolicyMappings";
   "x509.PolicyConstraints"; "x509.ExtKeyUsageSyntax"; "x509.Features"; "x509.EntrustVersionInfo"; "x509.TPMSpecification";
   "x509.SetOfTPMSpecification"; "x509.TCGSpecificationVersion"; "x509.TCGPlatformSpecification";
   "x509.SetOfTCGPlatformSpecification"; "x509.FIPSLevel"; "x509.SetOfGeneralizedTime"; "x509.SetOfPrintableString";
   "x509.KeyPurposeIdentifiers"; "csr.MicrosoftEnrollmentCSProvider"; "csr.SetOfMicrosoftEnrollmentCSProvider";
   "csr.MicrosoftRequestClientInfo"; "csr.SetOfMicrosoftRequestClientInfo"; "ocsp.AcceptableResponses"; "ocsp.RevokedInfo";
   "ocsp.CrlId"; "cms.Time"; "cms.SetOfContentType"; "cms.SetOfOctetString"; "cms.SetOfTime"; "cms.AttCertValidityPeriod";
   "cms.IetfAttrValue"; "cms.IetfAttrValues"; "cms.BigTime"; "cms.LeapData"; "cms.SetOfLeapData"; "cms.TimingMetrics";
   "cms.SetOfTimingMetrics"; "pkcs12.SetOfBMPString"; "pkcs12.SetOfOctetString"; "pkcs12.SetOfKeyPurposeId"; "pkcs12.CrlBag";
   "pkcs12.SecretBag"; "tsp.Accuracy"; "tsp.Extension"; "tsp.Extensions"; "tsp.PKIFreeText"; "tsp.PKIStatusInfo";
   "tsp.PartialHashtree"; "tsp.PartialHashtrees"; "pdf.AdobeArchiveRevInfo"; "pdf.OtherRevInfo"; "pdf.SequenceOfOtherRevInfo"].

Theorem C94_covered (n : string) (pad : bool) : In n covered -> exists s, spec_of pad n = Some s /\ wf s /\ taggable s no_params.
Proof.
  intro i. assert (H : forallb (fun n => match spec_of pad n with Some s => wfb s && taggableb s no_params | None => false end) covered = true)
    by (destruct pad; calc).
  rewrite forallb_forall in H. apply H in i. destruct (spec_of pad n) as [s|]; [|discriminate]. exists s. apply andb_true_iff in i as [W T].
  split; [reflexivity|]. split; [now apply wfb_sound | now apply taggableb_sound].
Qed.
Print Assumptions C94_covered.

(* the spec is that of the ASN.1 type the class definition makes, which C93 compares to the standards *)
Theorem C94_types (n : string) (pad : bool) : In n covered -> exists s t, spec_of pad n = Some s /\ ShapeModel.type_of lib n = Some t /\ spec_is lib s t.
Proof.
  intro i. assert (H : forallb (fun n => match spec_of pad n, ShapeModel.type_of lib n with Some s, Some t => specb lib s t | _, _ => false end) covered = true)
    by (destruct pad; calc).
  rewrite forallb_forall in H. apply H in i. destruct (spec_of pad n) as [s|]; [|discriminate]. destruct (ShapeModel.type_of lib n) as [t|]; [|discriminate].
  exists s, t. split; [reflexivity|]. split; [reflexivity|]. now apply specb_sound.
Qed.
Print Assumptions C94_types.
Example C94_types_ex : In "x509.Validity" covered /\ ShapeModel.type_of lib "x509.Validity" = Some (ShapeModel.Named "x509.Validity").
Proof. split; [vm_compute; tauto|calc]. Qed.

(* values are written as the encoding rules say, and read back the same *)
Theorem C94_roundtrip (n : string) (pad : bool) : In n covered -> exists s, spec_of pad n = Some s /\
  forall i a, denotes s i a -> exists d, encodes s (stags s no_params) a d /\ (len d < 2 ^ 1008 -> der s (stags s no_params) a d /\
    (exists v a', x_make (methods s) no_params None i = Ok v /\ sim s a a' /\
      (forall f, snd (x_dump (methods s) f v) = Ok d) /\ exists x, snd (x_native (methods s) v) = Ok x /\ shows s a' x) /\
    exists v a', cload s no_params d true = Ok v /\ sim s a a' /\
      (forall f, snd (x_dump (methods s) f v) = Ok d) /\ exists x, snd (x_native (methods s) v) = Ok x /\ shows s a' x).
Proof.
  intro i. destruct (C94_covered n pad i) as (s & E & W & T). exists s. split; [exact E|]. intros x a H. exact (C24_roundtrip s no_params x a W T H).
Qed.
Print Assumptions C94_roundtrip.

(* every DER and every BER encoding is read, as the one value it stands for *)
Theorem C94_load (n : string) (pad : bool) : In n covered -> exists s, spec_of pad n = Some s /\
  (forall a d, der s (stags s no_params) a d -> exists v a', cload s no_params d true = Ok v /\ sim s a a' /\
     (forall f, snd (x_dump (methods s) f v) = Ok d) /\ exists x, snd (x_native (methods s) v) = Ok x /\ shows s a' x) /\
  (forall a d r strict, ber_encodes s (stags s no_params) a d -> (strict = true -> r = []) ->
     exists v a', cload s no_params (d ++ r)%list strict = Ok v /\ sim s a a' /\ follows_from Lost s (stags s no_params) a' v) /\
  (forall a b d, ber_encodes s (stags s no_params) a d -> ber_encodes s (stags s no_params) b d -> sim s a b) /\
  (forall a d r, der s (stags s no_params) a d -> r <> [] -> cload s no_params (d ++ r)%list true = Err ValueError).
Proof.
  intro i. destruct (C94_covered n pad i) as (s & E & W & T). exists s. split; [exact E|]. repeat split.
  - intros a d D. destruct (C24_load s no_params a d [] true W T D (fun _ => eq_refl)) as (v & a' & L & S & _ & P & X & _). rewrite app_nil_r in L. eauto 6.
  - intros a d r strict. exact (C86_load s no_params a d r strict W T).
  - intros a b d. exact (C86_one_value s no_params a b d W T).
  - intros a d r. exact (C24_strict s no_params a d r W).
Qed.
Print Assumptions C94_load.

Definition run_spec (o : option spec) (d : bytes) : option (res aval) :=
  option_map (fun s => do v <- cload s no_params d true ; snd (x_native (methods s) v)) o.
Definition write_spec (o : option spec) (i : aval) : option (res bytes) :=
  option_map (fun s => do v <- x_make (methods s) no_params None i ; snd (x_dump (methods s) false v)) o.
Definition run (n : string) (d : bytes) := run_spec (spec_of true n) d.
Definition write (n : string) (i : aval) := write_spec (spec_of true n) i.
Example C94_ex_constraints : In "x509.BasicConstraints" covered /\
  run "x509.BasicConstraints" [48; 6; 1; 1; 255; 2; 1; 3] =
    Some (Ok (ADict [(tx "ca", APrim (NBool true)); (tx "path_len_constraint", APrim (NInt 3))])) /\
  run "x509.BasicConstraints" [48; 0] = Some (Ok (ADict [(tx "ca", APrim (NBool false)); (tx "path_len_constraint", ANone)])) /\
  write "x509.BasicConstraints" (ADict [(tx "path_len_constraint", APrim (NInt 3))]) = Some (Ok [48; 3; 2; 1; 3]).
Proof. split; [vm_compute; tauto|]. repeat split; calc. Qed.
Example C94_ex_accuracy : In "tsp.Accuracy" covered /\
  run "tsp.Accuracy" [48; 6; 2; 1; 1; 128; 1; 5] =
    Some (Ok (ADict [(tx "seconds", APrim (NInt 1)); (tx "millis", APrim (NInt 5)); (tx "micros", ANone)])).
Proof. split; [vm_compute; tauto|]. calc. Qed.
Example C94_ex_mappings : In "x509.PolicyMappings" covered /\
  run "x509.PolicyMappings" [48; 12; 48; 10; 6; 3; 85; 29; 32; 6; 3; 42; 3; 4] =
    Some (Ok (AList [ADict [(tx "issuer_domain_policy", APrim (NText (tx "2.5.29.32")));
                            (tx "subject_domain_policy", APrim (NText (tx "1.2.3.4")))]])).
Proof. split; [vm_compute; tauto|]. calc. Qed.

(* no party name can be read or made: the tag is implicit on a choice, and with choices tags are explicit.
   NotReallyTeletexString stands as TeletexString, which makes no difference for these values *)
Definition edi_party_name : option spec :=
  class_spec 8 (fun n => plain n || String.eqb n "x509.NotReallyTeletexString") true "x509.EDIPartyName".
Theorem C94_edi_party_name_refuted : exists d i, d = [48; 5; 161; 3; 12; 1; 65] /\ i = ADict [(tx "party_name", AChoice (tx "utf8_string") (APrim (NText (tx "A"))))] /\
  run_spec edi_party_name d = Some (Err ValueError) /\ (exists e, write_spec edi_party_name i = Some (Err e)).
Proof. eexists _, _. split; [reflexivity|]. split; [reflexivity|]. split; [calc|]. eexists. calc. Qed.
Print Assumptions C94_edi_party_name_refuted.

(* CCMParameters without the length, which is 12 by default, are refused *)
Theorem C94_ccm_params_refuted : exists d, d = [48; 14; 4; 12; 1; 1; 1; 1; 1; 1; 1; 1; 1; 1; 1; 1] /\ run "algos.CcmParams" d = Some (Err ValueError).
Proof. eexists. split; [reflexivity|calc]. Qed.
Print Assumptions C94_ccm_params_refuted.

(* a dollar sign in a teletex_string is read back as another sign *)
Theorem C94_directory_string_refuted : exists t b u, t = tx "$" /\ teletex_name_contents t = Ok b /\ teletex_name_native b = Ok u /\ u <> t.
Proof. eexists _, _, _. split; [reflexivity|]. split; [calc|]. split; [calc|]. discriminate. Qed.
Print Assumptions C94_directory_string_refuted.
