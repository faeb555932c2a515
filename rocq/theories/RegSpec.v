(* The numbers the standards assign to the names the library uses: object identifiers as
   arcs, grouped by the authority, and the values of enumerations and named bits.
   Written from the documents named below and not from the tables of the library.  Where
   the standard writes a name in another style (sha256WithRSAEncryption) the library's
   spelling is used. *)
Require Import ZArith List.
Require Import Coq.Strings.String.
Import ListNotations.
Local Open Scope Z_scope.
Local Open Scope string_scope.
Local Open Scope list_scope.

Notation oid := (list Z).

(* ---- arcs ---- *)
Definition rsadsi : oid := [1; 2; 840; 113549].
Definition pkcs (n : Z) : oid := rsadsi ++ [1; n].
Definition smime : oid := pkcs 9 ++ [16].                        (* RFC 2634 *)
Definition x957 : oid := [1; 2; 840; 10040].
Definition x962 : oid := [1; 2; 840; 10045].
Definition nist_algorithms : oid := [2; 16; 840; 1; 101; 3; 4].
Definition oiw : oid := [1; 3; 14; 3; 2].
Definition bsi_ecdsa : oid := [0; 4; 0; 127; 0; 7; 1; 1; 4; 1].
Definition pkix : oid := [1; 3; 6; 1; 5; 5; 7].
Definition id_ce : oid := [2; 5; 29].
Definition id_at : oid := [2; 5; 4].
Definition microsoft : oid := [1; 3; 6; 1; 4; 1; 311].
Definition certicom : oid := [1; 3; 132; 0].
Definition brainpool : oid := [1; 3; 36; 3; 3; 2; 8; 1; 1].
Definition apple_policies : oid := [1; 2; 840; 113635; 100; 1].
Definition tcg : oid := [2; 23; 133; 2].
Definition adobe : oid := [1; 2; 840; 113583; 1; 1].

(* an arc with the names of its numbers *)
Definition under (a : oid) (l : list (Z * string)) : list (oid * string) :=
  map (fun x => (a ++ [fst x], snd x)) l.
(* names numbered from n on *)
Fixpoint counted (n : Z) (l : list string) : list (Z * string) :=
  match l with [] => [] | s :: r => (n, s) :: counted (n + 1) r end.

(* ---- object identifiers by the class that names them ---- *)
Definition registry : list (string * list (oid * string)) :=
  [ (* RFC 8018 B.1.2, NIST CSOR, OIW *)
    ("algos.HmacAlgorithmId",
       under (rsadsi ++ [2]) (counted 7 ["sha1"; "sha224"; "sha256"; "sha384"; "sha512"; "sha512_224"; "sha512_256"]) ++
       under (nist_algorithms ++ [2]) (counted 13 ["sha3_224"; "sha3_256"; "sha3_384"; "sha3_512"]) ++
       under oiw [(10, "des_mac")]);
    (* RFC 1319, 1321, FIPS 180, FIPS 202 *)
    ("algos.DigestAlgorithmId",
       under (rsadsi ++ [2]) [(2, "md2"); (5, "md5")] ++ under oiw [(26, "sha1")] ++
       under (nist_algorithms ++ [2])
         (counted 1 ["sha256"; "sha384"; "sha512"; "sha224"; "sha512_224"; "sha512_256";
                     "sha3_224"; "sha3_256"; "sha3_384"; "sha3_512"; "shake128"; "shake256"] ++
          counted 17 ["shake128_len"; "shake256_len"]));
    ("algos.MaskGenAlgorithmId", under (pkcs 1) [(8, "mgf1")]);
    ("algos.PSourceAlgorithmId", under (pkcs 1) [(9, "p_specified")]);
    (* RFC 3279, 4055, 5758, 8410, BSI TR-03111 *)
    ("algos.SignedDigestAlgorithmId",
       under (pkcs 1) [(1, "rsassa_pkcs1v15"); (2, "md2_rsa"); (4, "md5_rsa"); (5, "sha1_rsa"); (10, "rsassa_pss");
                       (11, "sha256_rsa"); (12, "sha384_rsa"); (13, "sha512_rsa"); (14, "sha224_rsa")] ++
       under (x957 ++ [4]) [(1, "dsa"); (3, "sha1_dsa")] ++
       under x962 [(4, "ecdsa")] ++ under (x962 ++ [4]) [(1, "sha1_ecdsa")] ++
       under (x962 ++ [4; 3]) (counted 1 ["sha224_ecdsa"; "sha256_ecdsa"; "sha384_ecdsa"; "sha512_ecdsa"]) ++
       under (nist_algorithms ++ [3])
         (counted 1 ["sha224_dsa"; "sha256_dsa"; "sha384_dsa"; "sha512_dsa";
                     "sha3_224_dsa"; "sha3_256_dsa"; "sha3_384_dsa"; "sha3_512_dsa";
                     "sha3_224_ecdsa"; "sha3_256_ecdsa"; "sha3_384_ecdsa"; "sha3_512_ecdsa";
                     "sha3_224_rsa"; "sha3_256_rsa"; "sha3_384_rsa"; "sha3_512_rsa"]) ++
       under [1; 3; 101] [(112, "ed25519"); (113, "ed448")] ++
       under bsi_ecdsa
         (counted 1 ["sha1_ecdsa_plain"; "sha224_ecdsa_plain"; "sha256_ecdsa_plain"; "sha384_ecdsa_plain"; "sha512_ecdsa_plain"] ++
          counted 8 ["sha3_224_ecdsa_plain"; "sha3_256_ecdsa_plain"; "sha3_384_ecdsa_plain"; "sha3_512_ecdsa_plain"]));
    (* RFC 8018, RFC 7914 *)
    ("algos.KdfAlgorithmId", under (pkcs 5) [(12, "pbkdf2")] ++ under [1; 3; 6; 1; 4; 1; 11591; 4] [(11, "scrypt")]);
    ("algos.KeyExchangeAlgorithmId", under (pkcs 3) [(1, "dh")]);
    (* RFC 8018, RFC 7292, RFC 8017, NIST CSOR, OIW *)
    ("algos.EncryptionAlgorithmId",
       under oiw [(7, "des")] ++
       under (rsadsi ++ [3]) [(2, "rc2"); (4, "rc4"); (7, "tripledes_3key"); (9, "rc5")] ++
       under (nist_algorithms ++ [1])
         (counted 1 ["aes128_ecb"; "aes128_cbc"; "aes128_ofb"; "aes128_cfb"; "aes128_wrap"; "aes128_gcm"; "aes128_ccm"; "aes128_wrap_pad"] ++
          counted 21 ["aes192_ecb"; "aes192_cbc"; "aes192_ofb"; "aes192_cfb"; "aes192_wrap"; "aes192_gcm"; "aes192_ccm"; "aes192_wrap_pad"] ++
          counted 41 ["aes256_ecb"; "aes256_cbc"; "aes256_ofb"; "aes256_cfb"; "aes256_wrap"; "aes256_gcm"; "aes256_ccm"; "aes256_wrap_pad"]) ++
       under (pkcs 5) [(1, "pbes1_md2_des"); (3, "pbes1_md5_des"); (4, "pbes1_md2_rc2"); (6, "pbes1_md5_rc2");
                       (10, "pbes1_sha1_des"); (11, "pbes1_sha1_rc2"); (13, "pbes2")] ++
       under (pkcs 12 ++ [1])
         (counted 1 ["pkcs12_sha1_rc4_128"; "pkcs12_sha1_rc4_40"; "pkcs12_sha1_tripledes_3key";
                     "pkcs12_sha1_tripledes_2key"; "pkcs12_sha1_rc2_128"; "pkcs12_sha1_rc2_40"]) ++
       under (pkcs 1) [(1, "rsaes_pkcs1v15"); (7, "rsaes_oaep")]);
    ("algos.Pkcs5MacId", under (pkcs 5) [(14, "pbmac1")]);
    ("algos.AnyAlgorithmId", []);
    (* RFC 5652, 2985, 5751, 5035, 6211; Microsoft *)
    ("cms.CMSAttributeType",
       under (pkcs 9) [(3, "content_type"); (4, "message_digest"); (5, "signing_time"); (6, "counter_signature");
                       (15, "smime_capabilities"); (52, "cms_algorithm_protection")] ++
       under (smime ++ [2]) [(11, "encrypt_key_pref"); (14, "signature_time_stamp_token")] ++
       under (microsoft ++ [2; 4]) [(1, "microsoft_nested_signature")] ++
       under (microsoft ++ [3; 3]) [(1, "microsoft_time_stamp_token")]);
    (* RFC 2315, 5652, 3274, 5083 *)
    ("cms.ContentType",
       under (pkcs 7) (counted 1 ["data"; "signed_data"; "enveloped_data"; "signed_and_enveloped_data"; "digested_data"; "encrypted_data"]) ++
       under (smime ++ [1]) [(2, "authenticated_data"); (9, "compressed_data"); (23, "authenticated_enveloped_data")]);
    (* RFC 5755 *)
    ("cms.AttCertAttributeType",
       under (pkix ++ [10]) (counted 1 ["authentication_info"; "access_identity"; "charging_identity"; "group"]) ++
       under id_at [(72, "role"); (55, "clearance")] ++
       under [1; 3; 6; 1; 4; 1; 601; 10; 4] (counted 1 ["timing_metrics"; "timing_policy"]));
    (* RFC 5940 *)
    ("cms.OtherRevInfoFormatId", under (pkix ++ [16]) [(2, "ocsp_response"); (4, "scvp")]);
    (* RFC 3560, 3565, 5649 *)
    ("cms.KeyEncryptionAlgorithmId",
       under (pkcs 1) [(1, "rsaes_pkcs1v15"); (7, "rsaes_oaep")] ++
       under (nist_algorithms ++ [1]) [(5, "aes128_wrap"); (8, "aes128_wrap_pad"); (25, "aes192_wrap"); (28, "aes192_wrap_pad");
                                       (45, "aes256_wrap"); (48, "aes256_wrap_pad")]);
    ("cms.CompressionAlgorithmId", under (smime ++ [3]) [(8, "zlib")]);
    (* RFC 5280 5.2, 5.3 *)
    ("crl.TBSCertListExtensionId",
       under id_ce [(18, "issuer_alt_name"); (20, "crl_number"); (27, "delta_crl_indicator"); (28, "issuing_distribution_point");
                    (35, "authority_key_identifier"); (46, "freshest_crl")] ++
       under (pkix ++ [1]) [(1, "authority_information_access")]);
    ("crl.CRLEntryExtensionId",
       under id_ce [(21, "crl_reason"); (23, "hold_instruction_code"); (24, "invalidity_date"); (29, "certificate_issuer")]);
    (* RFC 2985; Microsoft *)
    ("csr.CSRAttributeType",
       under (pkcs 9) [(7, "challenge_password"); (9, "extended_certificate_attributes"); (14, "extension_request")] ++
       under (microsoft ++ [13; 2]) [(2, "microsoft_enrollment_csp_provider"); (3, "microsoft_os_version")] ++
       under (microsoft ++ [21]) [(20, "microsoft_request_client_info")]);
    (* RFC 3279, X9.62 *)
    ("keys.FieldType", under (x962 ++ [1]) [(1, "prime_field"); (2, "characteristic_two_field")]);
    ("keys.CharacteristicTwoBasis", under (x962 ++ [1; 2; 1]) (counted 1 ["gn_basis"; "tp_basis"; "pp_basis"]));
    (* X9.62, SEC 2, RFC 5639 *)
    ("keys.NamedCurve",
       under (x962 ++ [3; 0])
         (counted 1 ["c2pnb163v1"; "c2pnb163v2"; "c2pnb163v3"; "c2pnb176w1"; "c2tnb191v1"; "c2tnb191v2"; "c2tnb191v3";
                     "c2onb191v4"; "c2onb191v5"; "c2pnb208w1"; "c2tnb239v1"; "c2tnb239v2"; "c2tnb239v3"; "c2onb239v4";
                     "c2onb239v5"; "c2pnb272w1"; "c2pnb304w1"; "c2tnb359v1"; "c2pnb368w1"; "c2tnb431r1"]) ++
       under (x962 ++ [3; 1])
         (counted 1 ["secp192r1"; "prime192v2"; "prime192v3"; "prime239v1"; "prime239v2"; "prime239v3"; "secp256r1"]) ++
       under certicom
         (counted 1 ["sect163k1"; "sect163r1"; "sect239k1"; "sect113r1"; "sect113r2"; "secp112r1"; "secp112r2"; "secp160r1";
                     "secp160k1"; "secp256k1"] ++
          counted 15 ["sect163r2"; "sect283k1"; "sect283r1"] ++
          counted 22 ["sect131r1"; "sect131r2"; "sect193r1"; "sect193r2"; "sect233k1"; "sect233r1"; "secp128r1"; "secp128r2";
                      "secp160r2"; "secp192k1"; "secp224k1"; "secp224r1"; "secp384r1"; "secp521r1"; "sect409k1"; "sect409r1";
                      "sect571k1"; "sect571r1"]) ++
       under brainpool
         (counted 1 ["brainpoolp160r1"; "brainpoolp160t1"; "brainpoolp192r1"; "brainpoolp192t1"; "brainpoolp224r1"; "brainpoolp224t1";
                     "brainpoolp256r1"; "brainpoolp256t1"; "brainpoolp320r1"; "brainpoolp320t1"; "brainpoolp384r1"; "brainpoolp384t1";
                     "brainpoolp512r1"; "brainpoolp512t1"]));
    (* RFC 3279, 4055, 5480, 8410 *)
    ("keys.PrivateKeyAlgorithmId",
       under (pkcs 1) [(1, "rsa"); (10, "rsassa_pss")] ++ under (x957 ++ [4]) [(1, "dsa")] ++ under (x962 ++ [2]) [(1, "ec")] ++
       under [1; 3; 101] (counted 110 ["x25519"; "x448"; "ed25519"; "ed448"]));
    ("keys.PublicKeyAlgorithmId",
       under (pkcs 1) [(1, "rsa"); (7, "rsaes_oaep"); (10, "rsassa_pss")] ++ under (x957 ++ [4]) [(1, "dsa")] ++
       under (x962 ++ [2]) [(1, "ec")] ++ under [1; 2; 840; 10046; 2] [(1, "dh")] ++
       under [1; 3; 101] (counted 110 ["x25519"; "x448"; "ed25519"; "ed448"]));
    (* RFC 6960 *)
    ("ocsp.RequestExtensionId", under (pkix ++ [48; 1]) [(7, "service_locator")]);
    ("ocsp.ResponseType", under (pkix ++ [48; 1]) [(1, "basic_ocsp_response")]);
    ("ocsp.TBSRequestExtensionId",
       under (pkix ++ [48; 1]) [(2, "nonce"); (4, "acceptable_responses"); (8, "preferred_signature_algorithms")]);
    ("ocsp.SingleResponseExtensionId",
       under (pkix ++ [48; 1]) [(3, "crl"); (6, "archive_cutoff")] ++
       under id_ce [(21, "crl_reason"); (24, "invalidity_date"); (29, "certificate_issuer")] ++
       under [1; 3; 6; 1; 4; 1; 11129; 2; 4] [(5, "signed_certificate_timestamp_list")]);          (* RFC 6962 *)
    ("ocsp.ResponseDataExtensionId", under (pkix ++ [48; 1]) [(2, "nonce"); (9, "extended_revoke")]);
    (* RFC 2985, 7292; Microsoft wincrypt.h; Oracle *)
    ("pkcs12.AttributeType",
       under (pkcs 9) [(20, "friendly_name"); (21, "local_key_id")] ++
       under (microsoft ++ [17]) [(1, "microsoft_csp_name"); (2, "microsoft_local_machine_keyset")] ++
       under [2; 16; 840; 1; 113894; 746875; 1] [(1, "trusted_key_usage")]);
    ("pkcs12.BagId",
       under (pkcs 12 ++ [10; 1])
         (counted 1 ["key_bag"; "pkcs8_shrouded_key_bag"; "cert_bag"; "crl_bag"; "secret_bag"; "safe_contents"]));
    ("pkcs12.CertId", under (pkcs 9 ++ [22]) [(1, "x509"); (2, "sdsi")]);
    (* X.520, RFC 4519, RFC 2985, TCG, CA/Browser Forum, ETSI *)
    ("x509.NameType",
       under id_at
         (counted 3 ["common_name"; "surname"; "serial_number"; "country_name"; "locality_name"; "state_or_province_name";
                     "street_address"; "organization_name"; "organizational_unit_name"; "title"] ++
          [(15, "business_category"); (17, "postal_code"); (20, "telephone_number")] ++
          counted 41 ["name"; "given_name"; "initials"; "generation_qualifier"; "unique_identifier"; "dn_qualifier"] ++
          [(65, "pseudonym"); (97, "organization_identifier")]) ++
       under tcg (counted 1 ["tpm_manufacturer"; "tpm_model"; "tpm_version"; "platform_manufacturer"; "platform_model"; "platform_version"]) ++
       under (pkcs 9) [(1, "email_address")] ++
       under (microsoft ++ [60; 2; 1]) (counted 1 ["incorporation_locality"; "incorporation_state_or_province"; "incorporation_country"]) ++
       under [0; 9; 2342; 19200300; 100; 1] [(1, "user_id"); (25, "domain_component")] ++
       under [0; 2; 262; 1; 10; 7] [(20, "name_distinguisher")]);
    (* RFC 5280 *)
    ("x509.PolicyQualifierId", under (pkix ++ [2]) [(1, "certification_practice_statement"); (2, "user_notice")]);
    ("x509.PolicyIdentifier", under (id_ce ++ [32]) [(0, "any_policy")]);
    (* RFC 5280, the IANA registry of SMI extended key purposes, Microsoft, Apple, NIST, RFC 4556, Adobe *)
    ("x509.KeyPurposeId",
       under (id_ce ++ [37]) [(0, "any_extended_key_usage")] ++
       under (pkix ++ [3])
         (counted 1 ["server_auth"; "client_auth"; "code_signing"; "email_protection"; "ipsec_end_system"; "ipsec_tunnel";
                     "ipsec_user"; "time_stamping"; "ocsp_signing"; "dvcs"] ++
          counted 13 ["eap_over_ppp"; "eap_over_lan"; "scvp_server"; "scvp_client"; "ipsec_ike"; "capwap_ac"; "capwap_wtp";
                      "sip_domain"; "secure_shell_client"; "secure_shell_server"; "send_router"; "send_proxied_router"; "send_owner";
                      "send_proxied_owner"; "cmc_ca"; "cmc_ra"; "cmc_archive"; "bgpspec_router"]) ++
       under [1; 3; 6; 1; 5; 5; 8; 2] [(2, "ike_intermediate")] ++
       under (microsoft ++ [10; 3])
         (counted 1 ["microsoft_trust_list_signing"; "microsoft_time_stamp_signing"; "microsoft_server_gated"; "microsoft_efs";
                     "microsoft_whql"; "microsoft_nt5"; "microsoft_oem_whql"; "microsoft_embedded_nt"; "microsoft_root_list_signer";
                     "microsoft_qualified_subordination"; "microsoft_key_recovery"; "microsoft_document_signing";
                     "microsoft_lifetime_signing"; "microsoft_mobile_device_software"]) ++
       under (microsoft ++ [10; 3; 3]) [(1, "microsoft_serialized")] ++
       under (microsoft ++ [10; 3; 4]) [(1, "microsoft_efs_recovery")] ++
       under (microsoft ++ [20; 2]) [(2, "microsoft_smart_card_logon")] ++
       under apple_policies
         (counted 2 ["apple_x509_basic"; "apple_ssl"; "apple_local_cert_gen"; "apple_csr_gen"; "apple_revocation_crl";
                     "apple_revocation_ocsp"; "apple_smime"; "apple_eap"; "apple_software_update_signing"; "apple_ipsec"; "apple_ichat";
                     "apple_resource_signing"; "apple_pkinit_client"; "apple_pkinit_server"; "apple_code_signing";
                     "apple_package_signing"; "apple_id_validation"] ++
          counted 20 ["apple_time_stamping"; "apple_revocation"; "apple_passbook_signing"; "apple_mobile_store";
                      "apple_escrow_service"; "apple_profile_signer"; "apple_qa_profile_signer"; "apple_test_mobile_store";
                      "apple_otapki_signer"; "apple_test_otapki_signer"; "apple_id_validation_record_signing_policy";
                      "apple_smp_encryption"; "apple_test_smp_encryption"; "apple_server_authentication"; "apple_pcs_escrow_service"]) ++
       under [2; 16; 840; 1; 101; 3; 6] [(7, "piv_content_signing"); (8, "piv_card_authentication")] ++
       under [1; 3; 6; 1; 5; 2; 3] [(4, "pkinit_kpclientauth"); (5, "pkinit_kpkdc")] ++
       under adobe [(5, "adobe_authentic_documents_trust")] ++
       under [2; 16; 840; 1; 101; 3; 8] [(7, "fpki_pivi_content_signing")]);
    ("x509.AccessMethod", under (pkix ++ [48]) [(1, "ocsp"); (2, "ca_issuers"); (3, "time_stamping"); (5, "ca_repository")]);
    (* RFC 5280, RFC 3739, TCG, Entrust *)
    ("x509.SubjectDirectoryAttributeId",
       under id_at [(52, "supported_algorithms")] ++
       under tcg (counted 16 ["tpm_specification"; "tcg_platform_specification"; "tpm_security_assertions"]) ++
       under (pkix ++ [9]) (counted 1 ["pda_date_of_birth"; "pda_place_of_birth"; "pda_gender"; "pda_country_of_citizenship"; "pda_country_of_residence"]) ++
       under [1; 2; 840; 113533; 7; 68] [(29, "entrust_user_role")]);
    (* RFC 5280 4.2, RFC 7633, RFC 6960, RFC 6962 *)
    ("x509.ExtensionId",
       under id_ce
         ([(9, "subject_directory_attributes")] ++
          counted 14 ["key_identifier"; "key_usage"; "private_key_usage_period"; "subject_alt_name"; "issuer_alt_name"; "basic_constraints"] ++
          counted 30 ["name_constraints"; "crl_distribution_points"; "certificate_policies"; "policy_mappings"] ++
          counted 35 ["authority_key_identifier"; "policy_constraints"; "extended_key_usage"] ++
          [(46, "freshest_crl"); (54, "inhibit_any_policy")]) ++
       under (pkix ++ [1]) [(1, "authority_information_access"); (11, "subject_information_access"); (24, "tls_feature")] ++
       under (pkix ++ [48; 1]) [(5, "ocsp_no_check")] ++
       under [1; 2; 840; 113533; 7; 65] [(0, "entrust_version_extension")] ++
       under [2; 16; 840; 1; 113730; 1] [(1, "netscape_certificate_type")] ++
       under [1; 3; 6; 1; 4; 1; 11129; 2; 4] [(2, "signed_certificate_timestamp_list")] ++
       under (microsoft ++ [20]) [(2, "microsoft_enroll_certtype")]) ].

(* older identifiers for the same algorithm (OIW) *)
Definition old_identifiers : list (string * (oid * string)) :=
  map (fun x => ("algos.SignedDigestAlgorithmId", x))
    (under oiw [(3, "md5_rsa"); (13, "sha1_dsa"); (27, "sha1_dsa"); (29, "sha1_rsa")] ++
     under [1; 3; 14; 7; 2; 3] [(1, "md2_rsa")]).

(* ---- numbers ---- *)
Definition reasons : list string :=
  ["key_compromise"; "ca_compromise"; "affiliation_changed"; "superseded"; "cessation_of_operation"; "certificate_hold"].
Definition numbers : list (string * list (Z * string)) :=
  [ ("algos.TrailerField", [(1, "trailer_field_bc")]);                                            (* RFC 8017 *)
    ("algos.Rc5ParamVersion", [(16, "v1-0")]);                                                    (* RFC 8018 *)
    ("cms.CMSVersion", counted 0 ["v0"; "v1"; "v2"; "v3"; "v4"; "v5"]);                           (* RFC 5652 *)
    ("cms.AttCertVersion", counted 0 ["v1"; "v2"]);                                               (* RFC 5755 *)
    ("crl.Version", counted 0 ["v1"; "v2"]);                                                      (* RFC 5280 *)
    ("csr.Version", [(0, "v1")]);                                                                 (* RFC 2986 *)
    ("keys.RSAPrivateKeyVersion", counted 0 ["two-prime"; "multi"]);                              (* RFC 8017 *)
    ("keys.SpecifiedECDomainVersion", counted 1 ["ecdpVer1"; "ecdpVer2"; "ecdpVer3"]);            (* SEC 1 *)
    ("keys.ECPrivateKeyVersion", [(1, "ecPrivkeyVer1")]);                                         (* RFC 5915 *)
    ("ocsp.Version", [(0, "v1")]);
    ("pkcs12.Version", [(3, "v3")]);                                                              (* RFC 7292 *)
    ("tsp.Version", counted 0 ["v0"; "v1"; "v2"; "v3"; "v4"; "v5"]);
    ("tsp.PKIStatus", counted 0 ["granted"; "granted_with_mods"; "rejection"; "waiting"; "revocation_warning"; "revocation_notification"]);
    ("x509.TerminalType", counted 3 ["telex"; "teletex"; "g3_facsimile"; "g4_facsimile"; "ia5_terminal"; "videotex"]);
    (* RFC 5280 A.1 *)
    ("x509.ExtensionAttributeType",
       counted 1 ["common_name"; "teletex_common_name"; "teletex_organization_name"; "teletex_personal_name";
                  "teletex_organization_unit_names"; "teletex_domain_defined_attributes"; "pds_name"; "physical_delivery_country_name";
                  "postal_code"; "physical_delivery_office_name"; "physical_delivery_office_number"; "extension_of_address_components";
                  "physical_delivery_personal_name"; "physical_delivery_organization_name";
                  "extension_physical_delivery_address_components"; "unformatted_postal_address"; "street_address";
                  "post_office_box_address"; "poste_restante_address"; "unique_postal_name"; "local_postal_attributes";
                  "extended_network_address"; "terminal_type"]);
    ("x509.Version", counted 0 ["v1"; "v2"; "v3"]);
    ("cms.DigestedObjectType", counted 0 ["public_key"; "public_key_cert"; "other_objy_types"]);  (* RFC 5755 *)
    (* RFC 5280 5.3.1 *)
    ("crl.CRLReason", counted 0 ("unspecified" :: reasons) ++ counted 8 ["remove_from_crl"; "privilege_withdrawn"; "aa_compromise"]);
    (* RFC 6960 4.2.1 *)
    ("ocsp.OCSPResponseStatus", counted 0 ["successful"; "malformed_request"; "internal_error"; "try_later"] ++ counted 5 ["sign_required"; "unauthorized"]);
    (* TCG Credential Profiles *)
    ("x509.EKGenerationType", counted 0 ["internal"; "injected"; "internal_revocable"; "injected_revocable"]);
    ("x509.EKGenerationLocation", counted 0 ["tpm_manufacturer"; "platform_manufacturer"; "ek_cert_signer"]);
    ("x509.EKCertificateGenerationLocation", counted 0 ["tpm_manufacturer"; "platform_manufacturer"; "ek_cert_signer"]);
    ("x509.EvaluationAssuranceLevel", counted 1 ["level1"; "level2"; "level3"; "level4"; "level5"; "level6"; "level7"]);
    ("x509.EvaluationStatus", counted 0 ["designed_to_meet"; "evaluation_in_progress"; "evaluation_completed"]);
    ("x509.StrengthOfFunction", counted 0 ["basic"; "medium"; "high"]);
    ("x509.SecurityLevel", counted 1 ["level1"; "level2"; "level3"; "level4"]);
    (* named bits: RFC 5755, 3161, 5280, Netscape *)
    ("cms.ClassList", counted 0 ["unmarked"; "unclassified"; "restricted"; "confidential"; "secret"; "top_secret"]);
    ("tsp.PKIFailureInfo", [(0, "bad_alg"); (2, "bad_request"); (5, "bad_data_format")] ++
       counted 14 ["time_not_available"; "unaccepted_policy"; "unaccepted_extensions"; "add_info_not_available"] ++ [(25, "system_failure")]);
    ("x509.KeyUsage", counted 0 ["digital_signature"; "non_repudiation"; "key_encipherment"; "data_encipherment"; "key_agreement";
                                 "key_cert_sign"; "crl_sign"; "encipher_only"; "decipher_only"]);
    ("x509.ReasonFlags", counted 0 ("unused" :: reasons ++ ["privilege_withdrawn"; "aa_compromise"]));
    ("x509.NetscapeCertificateType", counted 0 ["ssl_client"; "ssl_server"; "email"; "object_signing"; "reserved"; "ssl_ca"; "email_ca"; "object_signing_ca"]) ].

(* ---- orders of the curves: their lengths in bits (X9.62, SEC 2, RFC 5639) ---- *)
Definition order_bits : list (string * Z) :=
  [ ("c2pnb163v1", 163); ("c2pnb163v2", 162); ("c2pnb163v3", 162); ("c2pnb176w1", 161); ("c2tnb191v1", 191);
    ("c2tnb191v2", 190); ("c2tnb191v3", 189); ("c2onb191v4", 190); ("c2onb191v5", 189); ("c2pnb208w1", 193); ("c2tnb239v1", 238);
    ("c2tnb239v2", 237); ("c2tnb239v3", 236); ("c2onb239v4", 238); ("c2onb239v5", 237); ("c2pnb272w1", 257); ("c2pnb304w1", 289); ("c2tnb359v1", 353);
    ("c2pnb368w1", 353); ("c2tnb431r1", 418);
    ("secp192r1", 192); ("prime192v2", 192); ("prime192v3", 192); ("prime239v1", 239); ("prime239v2", 239); ("prime239v3", 239);
    ("secp256r1", 256);
    ("sect113r1", 113); ("sect113r2", 113); ("sect131r1", 131); ("sect131r2", 131); ("sect163k1", 163); ("sect163r1", 162); ("sect163r2", 163);
    ("sect193r1", 193); ("sect193r2", 193); ("sect233k1", 232); ("sect233r1", 233); ("sect239k1", 238); ("sect283k1", 281); ("sect283r1", 282);
    ("sect409k1", 407); ("sect409r1", 409); ("sect571k1", 570); ("sect571r1", 570);
    ("secp112r1", 112); ("secp112r2", 110); ("secp128r1", 128); ("secp128r2", 126); ("secp160k1", 161); ("secp160r1", 161); ("secp160r2", 161);
    ("secp192k1", 192); ("secp224k1", 225); ("secp224r1", 224); ("secp256k1", 256); ("secp384r1", 384); ("secp521r1", 521);
    ("brainpoolp160r1", 160); ("brainpoolp160t1", 160); ("brainpoolp192r1", 192); ("brainpoolp192t1", 192); ("brainpoolp224r1", 224); ("brainpoolp224t1", 224);
    ("brainpoolp256r1", 256); ("brainpoolp256t1", 256); ("brainpoolp320r1", 320); ("brainpoolp320t1", 320); ("brainpoolp384r1", 384); ("brainpoolp384t1", 384);
    ("brainpoolp512r1", 512); ("brainpoolp512t1", 512) ].

(* what the modules pdf and tsp add: Adobe, RFC 3161, 5035, 5544; the key purpose gets a
   second name *)
Definition added : list (string * list (oid * string)) :=
  [ ("x509.ExtensionId", under (adobe ++ [9]) [(1, "adobe_timestamp"); (2, "adobe_archive_rev_info")] ++ under adobe [(10, "adobe_ppklite_credential")]);
    ("x509.KeyPurposeId", under adobe [(5, "pdf_signing")]);
    ("cms.CMSAttributeType", under adobe [(8, "adobe_revocation_info_archival")] ++
       under (smime ++ [2]) [(12, "signing_certificate"); (47, "signing_certificate_v2")]);
    ("cms.ContentType", under (smime ++ [1]) [(4, "tst_info"); (31, "timestamped_data")]) ].

(* names the library gives to other identifiers than the one assigned *)
Definition disagreements : list (string * string) :=
  [ ("x509.KeyPurposeId", "apple_id_validation_record_signing_policy");
    ("x509.KeyPurposeId", "apple_smp_encryption");
    ("x509.KeyPurposeId", "apple_test_smp_encryption");
    ("pkcs12.AttributeType", "microsoft_csp_name");
    ("pkcs12.AttributeType", "microsoft_local_machine_keyset") ].
