(* Generated by tools/gen_tables.py from the text of /repo; do not edit.
   The literal tables of the library: value maps, the types bound to identifiers,
   the algorithm name tables and the extension attributes. *)
Require Import ZArith List.
Require Import Coq.Strings.String.
Import ListNotations.
Local Open Scope string_scope.

(* asn1crypto/algos.py:108-121 HmacAlgorithmId(ObjectIdentifier)._map *)
Definition map_algos_HmacAlgorithmId : list (string * string) :=
  [("1.3.14.3.2.10", "des_mac");
   ("1.2.840.113549.2.7", "sha1");
   ("1.2.840.113549.2.8", "sha224");
   ("1.2.840.113549.2.9", "sha256");
   ("1.2.840.113549.2.10", "sha384");
   ("1.2.840.113549.2.11", "sha512");
   ("1.2.840.113549.2.12", "sha512_224");
   ("1.2.840.113549.2.13", "sha512_256");
   ("2.16.840.1.101.3.4.2.13", "sha3_224");
   ("2.16.840.1.101.3.4.2.14", "sha3_256");
   ("2.16.840.1.101.3.4.2.15", "sha3_384");
   ("2.16.840.1.101.3.4.2.16", "sha3_512")].

(* asn1crypto/algos.py:132-150 DigestAlgorithmId(ObjectIdentifier)._map *)
Definition map_algos_DigestAlgorithmId : list (string * string) :=
  [("1.2.840.113549.2.2", "md2");
   ("1.2.840.113549.2.5", "md5");
   ("1.3.14.3.2.26", "sha1");
   ("2.16.840.1.101.3.4.2.4", "sha224");
   ("2.16.840.1.101.3.4.2.1", "sha256");
   ("2.16.840.1.101.3.4.2.2", "sha384");
   ("2.16.840.1.101.3.4.2.3", "sha512");
   ("2.16.840.1.101.3.4.2.5", "sha512_224");
   ("2.16.840.1.101.3.4.2.6", "sha512_256");
   ("2.16.840.1.101.3.4.2.7", "sha3_224");
   ("2.16.840.1.101.3.4.2.8", "sha3_256");
   ("2.16.840.1.101.3.4.2.9", "sha3_384");
   ("2.16.840.1.101.3.4.2.10", "sha3_512");
   ("2.16.840.1.101.3.4.2.11", "shake128");
   ("2.16.840.1.101.3.4.2.12", "shake256");
   ("2.16.840.1.101.3.4.2.17", "shake128_len");
   ("2.16.840.1.101.3.4.2.18", "shake256_len")].

(* asn1crypto/algos.py:169-171 MaskGenAlgorithmId(ObjectIdentifier)._map *)
Definition map_algos_MaskGenAlgorithmId : list (string * string) :=
  [("1.2.840.113549.1.1.8", "mgf1")].

(* asn1crypto/algos.py:187-189 TrailerField(Integer)._map *)
Definition map_algos_TrailerField : list (Z * string) :=
  [(1%Z, "trailer_field_bc")].

(* asn1crypto/algos.py:233-288 SignedDigestAlgorithmId(ObjectIdentifier)._map *)
Definition map_algos_SignedDigestAlgorithmId : list (string * string) :=
  [("1.3.14.3.2.3", "md5_rsa");
   ("1.3.14.3.2.29", "sha1_rsa");
   ("1.3.14.7.2.3.1", "md2_rsa");
   ("1.2.840.113549.1.1.2", "md2_rsa");
   ("1.2.840.113549.1.1.4", "md5_rsa");
   ("1.2.840.113549.1.1.5", "sha1_rsa");
   ("1.2.840.113549.1.1.14", "sha224_rsa");
   ("1.2.840.113549.1.1.11", "sha256_rsa");
   ("1.2.840.113549.1.1.12", "sha384_rsa");
   ("1.2.840.113549.1.1.13", "sha512_rsa");
   ("1.2.840.113549.1.1.10", "rsassa_pss");
   ("1.2.840.10040.4.3", "sha1_dsa");
   ("1.3.14.3.2.13", "sha1_dsa");
   ("1.3.14.3.2.27", "sha1_dsa");
   ("2.16.840.1.101.3.4.3.1", "sha224_dsa");
   ("2.16.840.1.101.3.4.3.2", "sha256_dsa");
   ("2.16.840.1.101.3.4.3.3", "sha384_dsa");
   ("2.16.840.1.101.3.4.3.4", "sha512_dsa");
   ("1.2.840.10045.4.1", "sha1_ecdsa");
   ("1.2.840.10045.4.3.1", "sha224_ecdsa");
   ("1.2.840.10045.4.3.2", "sha256_ecdsa");
   ("1.2.840.10045.4.3.3", "sha384_ecdsa");
   ("1.2.840.10045.4.3.4", "sha512_ecdsa");
   ("2.16.840.1.101.3.4.3.5", "sha3_224_dsa");
   ("2.16.840.1.101.3.4.3.6", "sha3_256_dsa");
   ("2.16.840.1.101.3.4.3.7", "sha3_384_dsa");
   ("2.16.840.1.101.3.4.3.8", "sha3_512_dsa");
   ("2.16.840.1.101.3.4.3.9", "sha3_224_ecdsa");
   ("2.16.840.1.101.3.4.3.10", "sha3_256_ecdsa");
   ("2.16.840.1.101.3.4.3.11", "sha3_384_ecdsa");
   ("2.16.840.1.101.3.4.3.12", "sha3_512_ecdsa");
   ("2.16.840.1.101.3.4.3.13", "sha3_224_rsa");
   ("2.16.840.1.101.3.4.3.14", "sha3_256_rsa");
   ("2.16.840.1.101.3.4.3.15", "sha3_384_rsa");
   ("2.16.840.1.101.3.4.3.16", "sha3_512_rsa");
   ("1.2.840.113549.1.1.1", "rsassa_pkcs1v15");
   ("1.2.840.10040.4.1", "dsa");
   ("1.2.840.10045.4", "ecdsa");
   ("1.3.101.112", "ed25519");
   ("1.3.101.113", "ed448");
   ("0.4.0.127.0.7.1.1.4.1.1", "sha1_ecdsa_plain");
   ("0.4.0.127.0.7.1.1.4.1.2", "sha224_ecdsa_plain");
   ("0.4.0.127.0.7.1.1.4.1.3", "sha256_ecdsa_plain");
   ("0.4.0.127.0.7.1.1.4.1.4", "sha384_ecdsa_plain");
   ("0.4.0.127.0.7.1.1.4.1.5", "sha512_ecdsa_plain");
   ("0.4.0.127.0.7.1.1.4.1.8", "sha3_224_ecdsa_plain");
   ("0.4.0.127.0.7.1.1.4.1.9", "sha3_256_ecdsa_plain");
   ("0.4.0.127.0.7.1.1.4.1.10", "sha3_384_ecdsa_plain");
   ("0.4.0.127.0.7.1.1.4.1.11", "sha3_512_ecdsa_plain")].

(* asn1crypto/algos.py:290-336 SignedDigestAlgorithmId._reverse_map *)
Definition rev_algos_SignedDigestAlgorithmId : list (string * string) :=
  [("dsa", "1.2.840.10040.4.1");
   ("ecdsa", "1.2.840.10045.4");
   ("md2_rsa", "1.2.840.113549.1.1.2");
   ("md5_rsa", "1.2.840.113549.1.1.4");
   ("rsassa_pkcs1v15", "1.2.840.113549.1.1.1");
   ("rsassa_pss", "1.2.840.113549.1.1.10");
   ("sha1_dsa", "1.2.840.10040.4.3");
   ("sha1_ecdsa", "1.2.840.10045.4.1");
   ("sha1_rsa", "1.2.840.113549.1.1.5");
   ("sha224_dsa", "2.16.840.1.101.3.4.3.1");
   ("sha224_ecdsa", "1.2.840.10045.4.3.1");
   ("sha224_rsa", "1.2.840.113549.1.1.14");
   ("sha256_dsa", "2.16.840.1.101.3.4.3.2");
   ("sha256_ecdsa", "1.2.840.10045.4.3.2");
   ("sha256_rsa", "1.2.840.113549.1.1.11");
   ("sha384_dsa", "2.16.840.1.101.3.4.3.3");
   ("sha384_ecdsa", "1.2.840.10045.4.3.3");
   ("sha384_rsa", "1.2.840.113549.1.1.12");
   ("sha512_dsa", "2.16.840.1.101.3.4.3.4");
   ("sha512_ecdsa", "1.2.840.10045.4.3.4");
   ("sha512_rsa", "1.2.840.113549.1.1.13");
   ("sha3_224_dsa", "2.16.840.1.101.3.4.3.5");
   ("sha3_256_dsa", "2.16.840.1.101.3.4.3.6");
   ("sha3_384_dsa", "2.16.840.1.101.3.4.3.7");
   ("sha3_512_dsa", "2.16.840.1.101.3.4.3.8");
   ("sha3_224_ecdsa", "2.16.840.1.101.3.4.3.9");
   ("sha3_256_ecdsa", "2.16.840.1.101.3.4.3.10");
   ("sha3_384_ecdsa", "2.16.840.1.101.3.4.3.11");
   ("sha3_512_ecdsa", "2.16.840.1.101.3.4.3.12");
   ("sha3_224_rsa", "2.16.840.1.101.3.4.3.13");
   ("sha3_256_rsa", "2.16.840.1.101.3.4.3.14");
   ("sha3_384_rsa", "2.16.840.1.101.3.4.3.15");
   ("sha3_512_rsa", "2.16.840.1.101.3.4.3.16");
   ("ed25519", "1.3.101.112");
   ("ed448", "1.3.101.113");
   ("sha1_ecdsa_plain", "0.4.0.127.0.7.1.1.4.1.1");
   ("sha224_ecdsa_plain", "0.4.0.127.0.7.1.1.4.1.2");
   ("sha256_ecdsa_plain", "0.4.0.127.0.7.1.1.4.1.3");
   ("sha384_ecdsa_plain", "0.4.0.127.0.7.1.1.4.1.4");
   ("sha512_ecdsa_plain", "0.4.0.127.0.7.1.1.4.1.5");
   ("sha3_224_ecdsa_plain", "0.4.0.127.0.7.1.1.4.1.8");
   ("sha3_256_ecdsa_plain", "0.4.0.127.0.7.1.1.4.1.9");
   ("sha3_384_ecdsa_plain", "0.4.0.127.0.7.1.1.4.1.10");
   ("sha3_512_ecdsa_plain", "0.4.0.127.0.7.1.1.4.1.11")].

(* asn1crypto/algos.py:551-554 KdfAlgorithmId(ObjectIdentifier)._map *)
Definition map_algos_KdfAlgorithmId : list (string * string) :=
  [("1.2.840.113549.1.5.12", "pbkdf2");
   ("1.3.6.1.4.1.11591.4.11", "scrypt")].

(* asn1crypto/algos.py:583-585 KeyExchangeAlgorithmId(ObjectIdentifier)._map *)
Definition map_algos_KeyExchangeAlgorithmId : list (string * string) :=
  [("1.2.840.113549.1.3.1", "dh")].

(* asn1crypto/algos.py:607-609 Rc5ParamVersion(Integer)._map *)
Definition map_algos_Rc5ParamVersion : list (Z * string) :=
  [(16%Z, "v1-0")].

(* asn1crypto/algos.py:638-640 PSourceAlgorithmId(ObjectIdentifier)._map *)
Definition map_algos_PSourceAlgorithmId : list (string * string) :=
  [("1.2.840.113549.1.1.9", "p_specified")].

(* asn1crypto/algos.py:751-800 EncryptionAlgorithmId(ObjectIdentifier)._map *)
Definition map_algos_EncryptionAlgorithmId : list (string * string) :=
  [("1.3.14.3.2.7", "des");
   ("1.2.840.113549.3.7", "tripledes_3key");
   ("1.2.840.113549.3.2", "rc2");
   ("1.2.840.113549.3.4", "rc4");
   ("1.2.840.113549.3.9", "rc5");
   ("2.16.840.1.101.3.4.1.1", "aes128_ecb");
   ("2.16.840.1.101.3.4.1.2", "aes128_cbc");
   ("2.16.840.1.101.3.4.1.3", "aes128_ofb");
   ("2.16.840.1.101.3.4.1.4", "aes128_cfb");
   ("2.16.840.1.101.3.4.1.5", "aes128_wrap");
   ("2.16.840.1.101.3.4.1.6", "aes128_gcm");
   ("2.16.840.1.101.3.4.1.7", "aes128_ccm");
   ("2.16.840.1.101.3.4.1.8", "aes128_wrap_pad");
   ("2.16.840.1.101.3.4.1.21", "aes192_ecb");
   ("2.16.840.1.101.3.4.1.22", "aes192_cbc");
   ("2.16.840.1.101.3.4.1.23", "aes192_ofb");
   ("2.16.840.1.101.3.4.1.24", "aes192_cfb");
   ("2.16.840.1.101.3.4.1.25", "aes192_wrap");
   ("2.16.840.1.101.3.4.1.26", "aes192_gcm");
   ("2.16.840.1.101.3.4.1.27", "aes192_ccm");
   ("2.16.840.1.101.3.4.1.28", "aes192_wrap_pad");
   ("2.16.840.1.101.3.4.1.41", "aes256_ecb");
   ("2.16.840.1.101.3.4.1.42", "aes256_cbc");
   ("2.16.840.1.101.3.4.1.43", "aes256_ofb");
   ("2.16.840.1.101.3.4.1.44", "aes256_cfb");
   ("2.16.840.1.101.3.4.1.45", "aes256_wrap");
   ("2.16.840.1.101.3.4.1.46", "aes256_gcm");
   ("2.16.840.1.101.3.4.1.47", "aes256_ccm");
   ("2.16.840.1.101.3.4.1.48", "aes256_wrap_pad");
   ("1.2.840.113549.1.5.13", "pbes2");
   ("1.2.840.113549.1.5.1", "pbes1_md2_des");
   ("1.2.840.113549.1.5.3", "pbes1_md5_des");
   ("1.2.840.113549.1.5.4", "pbes1_md2_rc2");
   ("1.2.840.113549.1.5.6", "pbes1_md5_rc2");
   ("1.2.840.113549.1.5.10", "pbes1_sha1_des");
   ("1.2.840.113549.1.5.11", "pbes1_sha1_rc2");
   ("1.2.840.113549.1.12.1.1", "pkcs12_sha1_rc4_128");
   ("1.2.840.113549.1.12.1.2", "pkcs12_sha1_rc4_40");
   ("1.2.840.113549.1.12.1.3", "pkcs12_sha1_tripledes_3key");
   ("1.2.840.113549.1.12.1.4", "pkcs12_sha1_tripledes_2key");
   ("1.2.840.113549.1.12.1.5", "pkcs12_sha1_rc2_128");
   ("1.2.840.113549.1.12.1.6", "pkcs12_sha1_rc2_40");
   ("1.2.840.113549.1.1.1", "rsaes_pkcs1v15");
   ("1.2.840.113549.1.1.7", "rsaes_oaep")].

(* asn1crypto/algos.py:1297-1299 Pkcs5MacId(ObjectIdentifier)._map *)
Definition map_algos_Pkcs5MacId : list (string * string) :=
  [("1.2.840.113549.1.5.14", "pbmac1")].

(* asn1crypto/algos.py:1318-1318 AnyAlgorithmId(ObjectIdentifier)._map *)
Definition map_algos_AnyAlgorithmId : list (string * string) :=
  [].

(* asn1crypto/cms.py:88-95 CMSVersion(Integer)._map *)
Definition map_cms_CMSVersion : list (Z * string) :=
  [(0%Z, "v0");
   (1%Z, "v1");
   (2%Z, "v2");
   (3%Z, "v3");
   (4%Z, "v4");
   (5%Z, "v5")].

(* asn1crypto/cms.py:99-120 CMSAttributeType(ObjectIdentifier)._map *)
Definition map_cms_CMSAttributeType : list (string * string) :=
  [("1.2.840.113549.1.9.3", "content_type");
   ("1.2.840.113549.1.9.4", "message_digest");
   ("1.2.840.113549.1.9.5", "signing_time");
   ("1.2.840.113549.1.9.6", "counter_signature");
   ("1.2.840.113549.1.9.15", "smime_capabilities");
   ("1.2.840.113549.1.9.16.2.11", "encrypt_key_pref");
   ("1.2.840.113549.1.9.16.2.14", "signature_time_stamp_token");
   ("1.2.840.113549.1.9.52", "cms_algorithm_protection");
   ("1.3.6.1.4.1.311.2.4.1", "microsoft_nested_signature");
   ("1.3.6.1.4.1.311.3.3.1", "microsoft_time_stamp_token")].

(* asn1crypto/cms.py:131-141 ContentType(ObjectIdentifier)._map *)
Definition map_cms_ContentType : list (string * string) :=
  [("1.2.840.113549.1.7.1", "data");
   ("1.2.840.113549.1.7.2", "signed_data");
   ("1.2.840.113549.1.7.3", "enveloped_data");
   ("1.2.840.113549.1.7.4", "signed_and_enveloped_data");
   ("1.2.840.113549.1.7.5", "digested_data");
   ("1.2.840.113549.1.7.6", "encrypted_data");
   ("1.2.840.113549.1.9.16.1.2", "authenticated_data");
   ("1.2.840.113549.1.9.16.1.9", "compressed_data");
   ("1.2.840.113549.1.9.16.1.23", "authenticated_enveloped_data")].

(* asn1crypto/cms.py:201-204 AttCertVersion(Integer)._map *)
Definition map_cms_AttCertVersion : list (Z * string) :=
  [(0%Z, "v1");
   (1%Z, "v2")].

(* asn1crypto/cms.py:244-248 DigestedObjectType(Enumerated)._map *)
Definition map_cms_DigestedObjectType : list (Z * string) :=
  [(0%Z, "public_key");
   (1%Z, "public_key_cert");
   (2%Z, "other_objy_types")].

(* asn1crypto/cms.py:330-337 ClassList(BitString)._map *)
Definition map_cms_ClassList : list (Z * string) :=
  [(0%Z, "unmarked");
   (1%Z, "unclassified");
   (2%Z, "restricted");
   (3%Z, "confidential");
   (4%Z, "secret");
   (5%Z, "top_secret")].

(* asn1crypto/cms.py:409-418 AttCertAttributeType(ObjectIdentifier)._map *)
Definition map_cms_AttCertAttributeType : list (string * string) :=
  [("1.3.6.1.5.5.7.10.1", "authentication_info");
   ("1.3.6.1.5.5.7.10.2", "access_identity");
   ("1.3.6.1.5.5.7.10.3", "charging_identity");
   ("1.3.6.1.5.5.7.10.4", "group");
   ("2.5.4.72", "role");
   ("2.5.4.55", "clearance");
   ("1.3.6.1.4.1.601.10.4.1", "timing_metrics");
   ("1.3.6.1.4.1.601.10.4.2", "timing_policy")].

(* asn1crypto/cms.py:575-578 OtherRevInfoFormatId(ObjectIdentifier)._map *)
Definition map_cms_OtherRevInfoFormatId : list (string * string) :=
  [("1.3.6.1.5.5.7.16.2", "ocsp_response");
   ("1.3.6.1.5.5.7.16.4", "scvp")].

(* asn1crypto/cms.py:665-674 KeyEncryptionAlgorithmId(ObjectIdentifier)._map *)
Definition map_cms_KeyEncryptionAlgorithmId : list (string * string) :=
  [("1.2.840.113549.1.1.1", "rsaes_pkcs1v15");
   ("1.2.840.113549.1.1.7", "rsaes_oaep");
   ("2.16.840.1.101.3.4.1.5", "aes128_wrap");
   ("2.16.840.1.101.3.4.1.8", "aes128_wrap_pad");
   ("2.16.840.1.101.3.4.1.25", "aes192_wrap");
   ("2.16.840.1.101.3.4.1.28", "aes192_wrap_pad");
   ("2.16.840.1.101.3.4.1.45", "aes256_wrap");
   ("2.16.840.1.101.3.4.1.48", "aes256_wrap_pad")].

(* asn1crypto/cms.py:676-686 KeyEncryptionAlgorithmId._reverse_map *)
Definition rev_cms_KeyEncryptionAlgorithmId : list (string * string) :=
  [("rsa", "1.2.840.113549.1.1.1");
   ("rsaes_pkcs1v15", "1.2.840.113549.1.1.1");
   ("rsaes_oaep", "1.2.840.113549.1.1.7");
   ("aes128_wrap", "2.16.840.1.101.3.4.1.5");
   ("aes128_wrap_pad", "2.16.840.1.101.3.4.1.8");
   ("aes192_wrap", "2.16.840.1.101.3.4.1.25");
   ("aes192_wrap_pad", "2.16.840.1.101.3.4.1.28");
   ("aes256_wrap", "2.16.840.1.101.3.4.1.45");
   ("aes256_wrap_pad", "2.16.840.1.101.3.4.1.48")].

(* asn1crypto/cms.py:908-910 CompressionAlgorithmId(ObjectIdentifier)._map *)
Definition map_cms_CompressionAlgorithmId : list (string * string) :=
  [("1.2.840.113549.1.9.16.3.8", "zlib")].

(* asn1crypto/crl.py:44-47 Version(Integer)._map *)
Definition map_crl_Version : list (Z * string) :=
  [(0%Z, "v1");
   (1%Z, "v2")].

(* asn1crypto/crl.py:62-70 TBSCertListExtensionId(ObjectIdentifier)._map *)
Definition map_crl_TBSCertListExtensionId : list (string * string) :=
  [("2.5.29.18", "issuer_alt_name");
   ("2.5.29.20", "crl_number");
   ("2.5.29.27", "delta_crl_indicator");
   ("2.5.29.28", "issuing_distribution_point");
   ("2.5.29.35", "authority_key_identifier");
   ("2.5.29.46", "freshest_crl");
   ("1.3.6.1.5.5.7.1.1", "authority_information_access")].

(* asn1crypto/crl.py:97-108 CRLReason(Enumerated)._map *)
Definition map_crl_CRLReason : list (Z * string) :=
  [(0%Z, "unspecified");
   (1%Z, "key_compromise");
   (2%Z, "ca_compromise");
   (3%Z, "affiliation_changed");
   (4%Z, "superseded");
   (5%Z, "cessation_of_operation");
   (6%Z, "certificate_hold");
   (8%Z, "remove_from_crl");
   (9%Z, "privilege_withdrawn");
   (10%Z, "aa_compromise")].

(* asn1crypto/crl.py:135-140 CRLEntryExtensionId(ObjectIdentifier)._map *)
Definition map_crl_CRLEntryExtensionId : list (string * string) :=
  [("2.5.29.21", "crl_reason");
   ("2.5.29.23", "hold_instruction_code");
   ("2.5.29.24", "invalidity_date");
   ("2.5.29.29", "certificate_issuer")].

(* asn1crypto/csr.py:35-37 Version(Integer)._map *)
Definition map_csr_Version : list (Z * string) :=
  [(0%Z, "v1")].

(* asn1crypto/csr.py:41-51 CSRAttributeType(ObjectIdentifier)._map *)
Definition map_csr_CSRAttributeType : list (string * string) :=
  [("1.2.840.113549.1.9.7", "challenge_password");
   ("1.2.840.113549.1.9.9", "extended_certificate_attributes");
   ("1.2.840.113549.1.9.14", "extension_request");
   ("1.3.6.1.4.1.311.13.2.2", "microsoft_enrollment_csp_provider");
   ("1.3.6.1.4.1.311.13.2.3", "microsoft_os_version");
   ("1.3.6.1.4.1.311.21.20", "microsoft_request_client_info")].

(* asn1crypto/keys.py:71-74 RSAPrivateKeyVersion(Integer)._map *)
Definition map_keys_RSAPrivateKeyVersion : list (Z * string) :=
  [(0%Z, "two-prime");
   (1%Z, "multi")].

(* asn1crypto/keys.py:211-215 SpecifiedECDomainVersion(Integer)._map *)
Definition map_keys_SpecifiedECDomainVersion : list (Z * string) :=
  [(1%Z, "ecdpVer1");
   (2%Z, "ecdpVer2");
   (3%Z, "ecdpVer3")].

(* asn1crypto/keys.py:224-227 FieldType(ObjectIdentifier)._map *)
Definition map_keys_FieldType : list (string * string) :=
  [("1.2.840.10045.1.1", "prime_field");
   ("1.2.840.10045.1.2", "characteristic_two_field")].

(* asn1crypto/keys.py:236-240 CharacteristicTwoBasis(ObjectIdentifier)._map *)
Definition map_keys_CharacteristicTwoBasis : list (string * string) :=
  [("1.2.840.10045.1.2.1.1", "gn_basis");
   ("1.2.840.10045.1.2.1.2", "tp_basis");
   ("1.2.840.10045.1.2.1.3", "pp_basis")].

(* asn1crypto/keys.py:329-406 NamedCurve(ObjectIdentifier)._map *)
Definition map_keys_NamedCurve : list (string * string) :=
  [("1.2.840.10045.3.0.1", "c2pnb163v1");
   ("1.2.840.10045.3.0.2", "c2pnb163v2");
   ("1.2.840.10045.3.0.3", "c2pnb163v3");
   ("1.2.840.10045.3.0.4", "c2pnb176w1");
   ("1.2.840.10045.3.0.5", "c2tnb191v1");
   ("1.2.840.10045.3.0.6", "c2tnb191v2");
   ("1.2.840.10045.3.0.7", "c2tnb191v3");
   ("1.2.840.10045.3.0.8", "c2onb191v4");
   ("1.2.840.10045.3.0.9", "c2onb191v5");
   ("1.2.840.10045.3.0.10", "c2pnb208w1");
   ("1.2.840.10045.3.0.11", "c2tnb239v1");
   ("1.2.840.10045.3.0.12", "c2tnb239v2");
   ("1.2.840.10045.3.0.13", "c2tnb239v3");
   ("1.2.840.10045.3.0.14", "c2onb239v4");
   ("1.2.840.10045.3.0.15", "c2onb239v5");
   ("1.2.840.10045.3.0.16", "c2pnb272w1");
   ("1.2.840.10045.3.0.17", "c2pnb304w1");
   ("1.2.840.10045.3.0.18", "c2tnb359v1");
   ("1.2.840.10045.3.0.19", "c2pnb368w1");
   ("1.2.840.10045.3.0.20", "c2tnb431r1");
   ("1.2.840.10045.3.1.2", "prime192v2");
   ("1.2.840.10045.3.1.3", "prime192v3");
   ("1.2.840.10045.3.1.4", "prime239v1");
   ("1.2.840.10045.3.1.5", "prime239v2");
   ("1.2.840.10045.3.1.6", "prime239v3");
   ("1.2.840.10045.3.1.1", "secp192r1");
   ("1.2.840.10045.3.1.7", "secp256r1");
   ("1.3.132.0.1", "sect163k1");
   ("1.3.132.0.2", "sect163r1");
   ("1.3.132.0.3", "sect239k1");
   ("1.3.132.0.4", "sect113r1");
   ("1.3.132.0.5", "sect113r2");
   ("1.3.132.0.6", "secp112r1");
   ("1.3.132.0.7", "secp112r2");
   ("1.3.132.0.8", "secp160r1");
   ("1.3.132.0.9", "secp160k1");
   ("1.3.132.0.10", "secp256k1");
   ("1.3.132.0.15", "sect163r2");
   ("1.3.132.0.16", "sect283k1");
   ("1.3.132.0.17", "sect283r1");
   ("1.3.132.0.22", "sect131r1");
   ("1.3.132.0.23", "sect131r2");
   ("1.3.132.0.24", "sect193r1");
   ("1.3.132.0.25", "sect193r2");
   ("1.3.132.0.26", "sect233k1");
   ("1.3.132.0.27", "sect233r1");
   ("1.3.132.0.28", "secp128r1");
   ("1.3.132.0.29", "secp128r2");
   ("1.3.132.0.30", "secp160r2");
   ("1.3.132.0.31", "secp192k1");
   ("1.3.132.0.32", "secp224k1");
   ("1.3.132.0.33", "secp224r1");
   ("1.3.132.0.34", "secp384r1");
   ("1.3.132.0.35", "secp521r1");
   ("1.3.132.0.36", "sect409k1");
   ("1.3.132.0.37", "sect409r1");
   ("1.3.132.0.38", "sect571k1");
   ("1.3.132.0.39", "sect571r1");
   ("1.3.36.3.3.2.8.1.1.1", "brainpoolp160r1");
   ("1.3.36.3.3.2.8.1.1.2", "brainpoolp160t1");
   ("1.3.36.3.3.2.8.1.1.3", "brainpoolp192r1");
   ("1.3.36.3.3.2.8.1.1.4", "brainpoolp192t1");
   ("1.3.36.3.3.2.8.1.1.5", "brainpoolp224r1");
   ("1.3.36.3.3.2.8.1.1.6", "brainpoolp224t1");
   ("1.3.36.3.3.2.8.1.1.7", "brainpoolp256r1");
   ("1.3.36.3.3.2.8.1.1.8", "brainpoolp256t1");
   ("1.3.36.3.3.2.8.1.1.9", "brainpoolp320r1");
   ("1.3.36.3.3.2.8.1.1.10", "brainpoolp320t1");
   ("1.3.36.3.3.2.8.1.1.11", "brainpoolp384r1");
   ("1.3.36.3.3.2.8.1.1.12", "brainpoolp384t1");
   ("1.3.36.3.3.2.8.1.1.13", "brainpoolp512r1");
   ("1.3.36.3.3.2.8.1.1.14", "brainpoolp512t1")].

(* asn1crypto/keys.py:557-559 ECPrivateKeyVersion(Integer)._map *)
Definition map_keys_ECPrivateKeyVersion : list (Z * string) :=
  [(1%Z, "ecPrivkeyVer1")].

(* asn1crypto/keys.py:672-686 PrivateKeyAlgorithmId(ObjectIdentifier)._map *)
Definition map_keys_PrivateKeyAlgorithmId : list (string * string) :=
  [("1.2.840.113549.1.1.1", "rsa");
   ("1.2.840.113549.1.1.10", "rsassa_pss");
   ("1.2.840.10040.4.1", "dsa");
   ("1.2.840.10045.2.1", "ec");
   ("1.3.101.110", "x25519");
   ("1.3.101.111", "x448");
   ("1.3.101.112", "ed25519");
   ("1.3.101.113", "ed448")].

(* asn1crypto/keys.py:1030-1048 PublicKeyAlgorithmId(ObjectIdentifier)._map *)
Definition map_keys_PublicKeyAlgorithmId : list (string * string) :=
  [("1.2.840.113549.1.1.1", "rsa");
   ("1.2.840.113549.1.1.7", "rsaes_oaep");
   ("1.2.840.113549.1.1.10", "rsassa_pss");
   ("1.2.840.10040.4.1", "dsa");
   ("1.2.840.10045.2.1", "ec");
   ("1.2.840.10046.2.1", "dh");
   ("1.3.101.110", "x25519");
   ("1.3.101.111", "x448");
   ("1.3.101.112", "ed25519");
   ("1.3.101.113", "ed448")].

(* asn1crypto/ocsp.py:41-43 Version(Integer)._map *)
Definition map_ocsp_Version : list (Z * string) :=
  [(0%Z, "v1")].

(* asn1crypto/ocsp.py:63-65 RequestExtensionId(ObjectIdentifier)._map *)
Definition map_ocsp_RequestExtensionId : list (string * string) :=
  [("1.3.6.1.5.5.7.48.1.7", "service_locator")].

(* asn1crypto/ocsp.py:147-149 ResponseType(ObjectIdentifier)._map *)
Definition map_ocsp_ResponseType : list (string * string) :=
  [("1.3.6.1.5.5.7.48.1.1", "basic_ocsp_response")].

(* asn1crypto/ocsp.py:168-172 TBSRequestExtensionId(ObjectIdentifier)._map *)
Definition map_ocsp_TBSRequestExtensionId : list (string * string) :=
  [("1.3.6.1.5.5.7.48.1.2", "nonce");
   ("1.3.6.1.5.5.7.48.1.4", "acceptable_responses");
   ("1.3.6.1.5.5.7.48.1.8", "preferred_signature_algorithms")].

(* asn1crypto/ocsp.py:306-313 OCSPResponseStatus(Enumerated)._map *)
Definition map_ocsp_OCSPResponseStatus : list (Z * string) :=
  [(0%Z, "successful");
   (1%Z, "malformed_request");
   (2%Z, "internal_error");
   (3%Z, "try_later");
   (5%Z, "sign_required");
   (6%Z, "unauthorized")].

(* asn1crypto/ocsp.py:397-407 SingleResponseExtensionId(ObjectIdentifier)._map *)
Definition map_ocsp_SingleResponseExtensionId : list (string * string) :=
  [("1.3.6.1.5.5.7.48.1.3", "crl");
   ("1.3.6.1.5.5.7.48.1.6", "archive_cutoff");
   ("2.5.29.21", "crl_reason");
   ("2.5.29.24", "invalidity_date");
   ("2.5.29.29", "certificate_issuer");
   ("1.3.6.1.4.1.11129.2.4.5", "signed_certificate_timestamp_list")].

(* asn1crypto/ocsp.py:557-560 ResponseDataExtensionId(ObjectIdentifier)._map *)
Definition map_ocsp_ResponseDataExtensionId : list (string * string) :=
  [("1.3.6.1.5.5.7.48.1.2", "nonce");
   ("1.3.6.1.5.5.7.48.1.9", "extended_revoke")].

(* asn1crypto/pkcs12.py:45-47 Version(Integer)._map *)
Definition map_pkcs12_Version : list (Z * string) :=
  [(3%Z, "v3")].

(* asn1crypto/pkcs12.py:51-60 AttributeType(ObjectIdentifier)._map *)
Definition map_pkcs12_AttributeType : list (string * string) :=
  [("1.2.840.113549.1.9.20", "friendly_name");
   ("1.2.840.113549.1.9.21", "local_key_id");
   ("1.3.6.1.4.1.311.17.1", "microsoft_local_machine_keyset");
   ("2.16.840.1.113894.746875.1.1", "trusted_key_usage")].

(* asn1crypto/pkcs12.py:128-135 BagId(ObjectIdentifier)._map *)
Definition map_pkcs12_BagId : list (string * string) :=
  [("1.2.840.113549.1.12.10.1.1", "key_bag");
   ("1.2.840.113549.1.12.10.1.2", "pkcs8_shrouded_key_bag");
   ("1.2.840.113549.1.12.10.1.3", "cert_bag");
   ("1.2.840.113549.1.12.10.1.4", "crl_bag");
   ("1.2.840.113549.1.12.10.1.5", "secret_bag");
   ("1.2.840.113549.1.12.10.1.6", "safe_contents")].

(* asn1crypto/pkcs12.py:139-142 CertId(ObjectIdentifier)._map *)
Definition map_pkcs12_CertId : list (string * string) :=
  [("1.2.840.113549.1.9.22.1", "x509");
   ("1.2.840.113549.1.9.22.2", "sdsi")].

(* asn1crypto/tsp.py:57-64 Version(Integer)._map *)
Definition map_tsp_Version : list (Z * string) :=
  [(0%Z, "v0");
   (1%Z, "v1");
   (2%Z, "v2");
   (3%Z, "v3");
   (4%Z, "v4");
   (5%Z, "v5")].

(* asn1crypto/tsp.py:121-128 PKIStatus(Integer)._map *)
Definition map_tsp_PKIStatus : list (Z * string) :=
  [(0%Z, "granted");
   (1%Z, "granted_with_mods");
   (2%Z, "rejection");
   (3%Z, "waiting");
   (4%Z, "revocation_warning");
   (5%Z, "revocation_notification")].

(* asn1crypto/tsp.py:136-145 PKIFailureInfo(BitString)._map *)
Definition map_tsp_PKIFailureInfo : list (Z * string) :=
  [(0%Z, "bad_alg");
   (2%Z, "bad_request");
   (5%Z, "bad_data_format");
   (14%Z, "time_not_available");
   (15%Z, "unaccepted_policy");
   (16%Z, "unaccepted_extensions");
   (17%Z, "add_info_not_available");
   (25%Z, "system_failure")].

(* asn1crypto/x509.py:439-449 KeyUsage(BitString)._map *)
Definition map_x509_KeyUsage : list (Z * string) :=
  [(0%Z, "digital_signature");
   (1%Z, "non_repudiation");
   (2%Z, "key_encipherment");
   (3%Z, "data_encipherment");
   (4%Z, "key_agreement");
   (5%Z, "key_cert_sign");
   (6%Z, "crl_sign");
   (7%Z, "encipher_only");
   (8%Z, "decipher_only")].

(* asn1crypto/x509.py:505-546 NameType(ObjectIdentifier)._map *)
Definition map_x509_NameType : list (string * string) :=
  [("2.5.4.3", "common_name");
   ("2.5.4.4", "surname");
   ("2.5.4.5", "serial_number");
   ("2.5.4.6", "country_name");
   ("2.5.4.7", "locality_name");
   ("2.5.4.8", "state_or_province_name");
   ("2.5.4.9", "street_address");
   ("2.5.4.10", "organization_name");
   ("2.5.4.11", "organizational_unit_name");
   ("2.5.4.12", "title");
   ("2.5.4.15", "business_category");
   ("2.5.4.17", "postal_code");
   ("2.5.4.20", "telephone_number");
   ("2.5.4.41", "name");
   ("2.5.4.42", "given_name");
   ("2.5.4.43", "initials");
   ("2.5.4.44", "generation_qualifier");
   ("2.5.4.45", "unique_identifier");
   ("2.5.4.46", "dn_qualifier");
   ("2.5.4.65", "pseudonym");
   ("2.5.4.97", "organization_identifier");
   ("2.23.133.2.1", "tpm_manufacturer");
   ("2.23.133.2.2", "tpm_model");
   ("2.23.133.2.3", "tpm_version");
   ("2.23.133.2.4", "platform_manufacturer");
   ("2.23.133.2.5", "platform_model");
   ("2.23.133.2.6", "platform_version");
   ("1.2.840.113549.1.9.1", "email_address");
   ("1.3.6.1.4.1.311.60.2.1.1", "incorporation_locality");
   ("1.3.6.1.4.1.311.60.2.1.2", "incorporation_state_or_province");
   ("1.3.6.1.4.1.311.60.2.1.3", "incorporation_country");
   ("0.9.2342.19200300.100.1.1", "user_id");
   ("0.9.2342.19200300.100.1.25", "domain_component");
   ("0.2.262.1.10.7.20", "name_distinguisher")].

(* asn1crypto/x509.py:1341-1348 TerminalType(Integer)._map *)
Definition map_x509_TerminalType : list (Z * string) :=
  [(3%Z, "telex");
   (4%Z, "teletex");
   (5%Z, "g3_facsimile");
   (6%Z, "g4_facsimile");
   (7%Z, "ia5_terminal");
   (8%Z, "videotex")].

(* asn1crypto/x509.py:1352-1376 ExtensionAttributeType(Integer)._map *)
Definition map_x509_ExtensionAttributeType : list (Z * string) :=
  [(1%Z, "common_name");
   (2%Z, "teletex_common_name");
   (3%Z, "teletex_organization_name");
   (4%Z, "teletex_personal_name");
   (5%Z, "teletex_organization_unit_names");
   (6%Z, "teletex_domain_defined_attributes");
   (7%Z, "pds_name");
   (8%Z, "physical_delivery_country_name");
   (9%Z, "postal_code");
   (10%Z, "physical_delivery_office_name");
   (11%Z, "physical_delivery_office_number");
   (12%Z, "extension_of_address_components");
   (13%Z, "physical_delivery_personal_name");
   (14%Z, "physical_delivery_organization_name");
   (15%Z, "extension_physical_delivery_address_components");
   (16%Z, "unformatted_postal_address");
   (17%Z, "street_address");
   (18%Z, "post_office_box_address");
   (19%Z, "poste_restante_address");
   (20%Z, "unique_postal_name");
   (21%Z, "local_postal_attributes");
   (22%Z, "extended_network_address");
   (23%Z, "terminal_type")].

(* asn1crypto/x509.py:1523-1533 ReasonFlags(BitString)._map *)
Definition map_x509_ReasonFlags : list (Z * string) :=
  [(0%Z, "unused");
   (1%Z, "key_compromise");
   (2%Z, "ca_compromise");
   (3%Z, "affiliation_changed");
   (4%Z, "superseded");
   (5%Z, "cessation_of_operation");
   (6%Z, "certificate_hold");
   (7%Z, "privilege_withdrawn");
   (8%Z, "aa_compromise")].

(* asn1crypto/x509.py:1624-1627 PolicyQualifierId(ObjectIdentifier)._map *)
Definition map_x509_PolicyQualifierId : list (string * string) :=
  [("1.3.6.1.5.5.7.2.1", "certification_practice_statement");
   ("1.3.6.1.5.5.7.2.2", "user_notice")].

(* asn1crypto/x509.py:1648-1650 PolicyIdentifier(ObjectIdentifier)._map *)
Definition map_x509_PolicyIdentifier : list (string * string) :=
  [("2.5.29.32.0", "any_policy")].

(* asn1crypto/x509.py:1683-1791 KeyPurposeId(ObjectIdentifier)._map *)
Definition map_x509_KeyPurposeId : list (string * string) :=
  [("2.5.29.37.0", "any_extended_key_usage");
   ("1.3.6.1.5.5.7.3.1", "server_auth");
   ("1.3.6.1.5.5.7.3.2", "client_auth");
   ("1.3.6.1.5.5.7.3.3", "code_signing");
   ("1.3.6.1.5.5.7.3.4", "email_protection");
   ("1.3.6.1.5.5.7.3.5", "ipsec_end_system");
   ("1.3.6.1.5.5.7.3.6", "ipsec_tunnel");
   ("1.3.6.1.5.5.7.3.7", "ipsec_user");
   ("1.3.6.1.5.5.7.3.8", "time_stamping");
   ("1.3.6.1.5.5.7.3.9", "ocsp_signing");
   ("1.3.6.1.5.5.7.3.10", "dvcs");
   ("1.3.6.1.5.5.7.3.13", "eap_over_ppp");
   ("1.3.6.1.5.5.7.3.14", "eap_over_lan");
   ("1.3.6.1.5.5.7.3.15", "scvp_server");
   ("1.3.6.1.5.5.7.3.16", "scvp_client");
   ("1.3.6.1.5.5.7.3.17", "ipsec_ike");
   ("1.3.6.1.5.5.7.3.18", "capwap_ac");
   ("1.3.6.1.5.5.7.3.19", "capwap_wtp");
   ("1.3.6.1.5.5.7.3.20", "sip_domain");
   ("1.3.6.1.5.5.7.3.21", "secure_shell_client");
   ("1.3.6.1.5.5.7.3.22", "secure_shell_server");
   ("1.3.6.1.5.5.7.3.23", "send_router");
   ("1.3.6.1.5.5.7.3.24", "send_proxied_router");
   ("1.3.6.1.5.5.7.3.25", "send_owner");
   ("1.3.6.1.5.5.7.3.26", "send_proxied_owner");
   ("1.3.6.1.5.5.7.3.27", "cmc_ca");
   ("1.3.6.1.5.5.7.3.28", "cmc_ra");
   ("1.3.6.1.5.5.7.3.29", "cmc_archive");
   ("1.3.6.1.5.5.7.3.30", "bgpspec_router");
   ("1.3.6.1.5.5.8.2.2", "ike_intermediate");
   ("1.3.6.1.4.1.311.10.3.1", "microsoft_trust_list_signing");
   ("1.3.6.1.4.1.311.10.3.2", "microsoft_time_stamp_signing");
   ("1.3.6.1.4.1.311.10.3.3", "microsoft_server_gated");
   ("1.3.6.1.4.1.311.10.3.3.1", "microsoft_serialized");
   ("1.3.6.1.4.1.311.10.3.4", "microsoft_efs");
   ("1.3.6.1.4.1.311.10.3.4.1", "microsoft_efs_recovery");
   ("1.3.6.1.4.1.311.10.3.5", "microsoft_whql");
   ("1.3.6.1.4.1.311.10.3.6", "microsoft_nt5");
   ("1.3.6.1.4.1.311.10.3.7", "microsoft_oem_whql");
   ("1.3.6.1.4.1.311.10.3.8", "microsoft_embedded_nt");
   ("1.3.6.1.4.1.311.10.3.9", "microsoft_root_list_signer");
   ("1.3.6.1.4.1.311.10.3.10", "microsoft_qualified_subordination");
   ("1.3.6.1.4.1.311.10.3.11", "microsoft_key_recovery");
   ("1.3.6.1.4.1.311.10.3.12", "microsoft_document_signing");
   ("1.3.6.1.4.1.311.10.3.13", "microsoft_lifetime_signing");
   ("1.3.6.1.4.1.311.10.3.14", "microsoft_mobile_device_software");
   ("1.3.6.1.4.1.311.20.2.2", "microsoft_smart_card_logon");
   ("1.2.840.113635.100.1.2", "apple_x509_basic");
   ("1.2.840.113635.100.1.3", "apple_ssl");
   ("1.2.840.113635.100.1.4", "apple_local_cert_gen");
   ("1.2.840.113635.100.1.5", "apple_csr_gen");
   ("1.2.840.113635.100.1.6", "apple_revocation_crl");
   ("1.2.840.113635.100.1.7", "apple_revocation_ocsp");
   ("1.2.840.113635.100.1.8", "apple_smime");
   ("1.2.840.113635.100.1.9", "apple_eap");
   ("1.2.840.113635.100.1.10", "apple_software_update_signing");
   ("1.2.840.113635.100.1.11", "apple_ipsec");
   ("1.2.840.113635.100.1.12", "apple_ichat");
   ("1.2.840.113635.100.1.13", "apple_resource_signing");
   ("1.2.840.113635.100.1.14", "apple_pkinit_client");
   ("1.2.840.113635.100.1.15", "apple_pkinit_server");
   ("1.2.840.113635.100.1.16", "apple_code_signing");
   ("1.2.840.113635.100.1.17", "apple_package_signing");
   ("1.2.840.113635.100.1.18", "apple_id_validation");
   ("1.2.840.113635.100.1.20", "apple_time_stamping");
   ("1.2.840.113635.100.1.21", "apple_revocation");
   ("1.2.840.113635.100.1.22", "apple_passbook_signing");
   ("1.2.840.113635.100.1.23", "apple_mobile_store");
   ("1.2.840.113635.100.1.24", "apple_escrow_service");
   ("1.2.840.113635.100.1.25", "apple_profile_signer");
   ("1.2.840.113635.100.1.26", "apple_qa_profile_signer");
   ("1.2.840.113635.100.1.27", "apple_test_mobile_store");
   ("1.2.840.113635.100.1.28", "apple_otapki_signer");
   ("1.2.840.113635.100.1.29", "apple_test_otapki_signer");
   ("1.2.840.113625.100.1.30", "apple_id_validation_record_signing_policy");
   ("1.2.840.113625.100.1.31", "apple_smp_encryption");
   ("1.2.840.113625.100.1.32", "apple_test_smp_encryption");
   ("1.2.840.113635.100.1.33", "apple_server_authentication");
   ("1.2.840.113635.100.1.34", "apple_pcs_escrow_service");
   ("2.16.840.1.101.3.6.8", "piv_card_authentication");
   ("2.16.840.1.101.3.6.7", "piv_content_signing");
   ("1.3.6.1.5.2.3.4", "pkinit_kpclientauth");
   ("1.3.6.1.5.2.3.5", "pkinit_kpkdc");
   ("1.2.840.113583.1.1.5", "adobe_authentic_documents_trust");
   ("2.16.840.1.101.3.8.7", "fpki_pivi_content_signing")].

(* asn1crypto/x509.py:1799-1804 AccessMethod(ObjectIdentifier)._map *)
Definition map_x509_AccessMethod : list (string * string) :=
  [("1.3.6.1.5.5.7.48.1", "ocsp");
   ("1.3.6.1.5.5.7.48.2", "ca_issuers");
   ("1.3.6.1.5.5.7.48.3", "time_stamping");
   ("1.3.6.1.5.5.7.48.5", "ca_repository")].

(* asn1crypto/x509.py:1835-1844 NetscapeCertificateType(BitString)._map *)
Definition map_x509_NetscapeCertificateType : list (Z * string) :=
  [(0%Z, "ssl_client");
   (1%Z, "ssl_server");
   (2%Z, "email");
   (3%Z, "object_signing");
   (4%Z, "reserved");
   (5%Z, "ssl_ca");
   (6%Z, "email_ca");
   (7%Z, "object_signing_ca")].

(* asn1crypto/x509.py:1848-1852 Version(Integer)._map *)
Definition map_x509_Version : list (Z * string) :=
  [(0%Z, "v1");
   (1%Z, "v2");
   (2%Z, "v3")].

(* asn1crypto/x509.py:1887-1892 EKGenerationType(Enumerated)._map *)
Definition map_x509_EKGenerationType : list (Z * string) :=
  [(0%Z, "internal");
   (1%Z, "injected");
   (2%Z, "internal_revocable");
   (3%Z, "injected_revocable")].

(* asn1crypto/x509.py:1896-1900 EKGenerationLocation(Enumerated)._map *)
Definition map_x509_EKGenerationLocation : list (Z * string) :=
  [(0%Z, "tpm_manufacturer");
   (1%Z, "platform_manufacturer");
   (2%Z, "ek_cert_signer")].

(* asn1crypto/x509.py:1904-1908 EKCertificateGenerationLocation(Enumerated)._map *)
Definition map_x509_EKCertificateGenerationLocation : list (Z * string) :=
  [(0%Z, "tpm_manufacturer");
   (1%Z, "platform_manufacturer");
   (2%Z, "ek_cert_signer")].

(* asn1crypto/x509.py:1912-1920 EvaluationAssuranceLevel(Enumerated)._map *)
Definition map_x509_EvaluationAssuranceLevel : list (Z * string) :=
  [(1%Z, "level1");
   (2%Z, "level2");
   (3%Z, "level3");
   (4%Z, "level4");
   (5%Z, "level5");
   (6%Z, "level6");
   (7%Z, "level7")].

(* asn1crypto/x509.py:1924-1928 EvaluationStatus(Enumerated)._map *)
Definition map_x509_EvaluationStatus : list (Z * string) :=
  [(0%Z, "designed_to_meet");
   (1%Z, "evaluation_in_progress");
   (2%Z, "evaluation_completed")].

(* asn1crypto/x509.py:1932-1936 StrengthOfFunction(Enumerated)._map *)
Definition map_x509_StrengthOfFunction : list (Z * string) :=
  [(0%Z, "basic");
   (1%Z, "medium");
   (2%Z, "high")].

(* asn1crypto/x509.py:1962-1967 SecurityLevel(Enumerated)._map *)
Definition map_x509_SecurityLevel : list (Z * string) :=
  [(1%Z, "level1");
   (2%Z, "level2");
   (3%Z, "level3");
   (4%Z, "level4")].

(* asn1crypto/x509.py:1997-2012 SubjectDirectoryAttributeId(ObjectIdentifier)._map *)
Definition map_x509_SubjectDirectoryAttributeId : list (string * string) :=
  [("2.5.4.52", "supported_algorithms");
   ("2.23.133.2.16", "tpm_specification");
   ("2.23.133.2.17", "tcg_platform_specification");
   ("2.23.133.2.18", "tpm_security_assertions");
   ("1.3.6.1.5.5.7.9.1", "pda_date_of_birth");
   ("1.3.6.1.5.5.7.9.2", "pda_place_of_birth");
   ("1.3.6.1.5.5.7.9.3", "pda_gender");
   ("1.3.6.1.5.5.7.9.4", "pda_country_of_citizenship");
   ("1.3.6.1.5.5.7.9.5", "pda_country_of_residence");
   ("1.2.840.113533.7.68.29", "entrust_user_role")].

(* asn1crypto/x509.py:2074-2102 ExtensionId(ObjectIdentifier)._map *)
Definition map_x509_ExtensionId : list (string * string) :=
  [("2.5.29.9", "subject_directory_attributes");
   ("2.5.29.14", "key_identifier");
   ("2.5.29.15", "key_usage");
   ("2.5.29.16", "private_key_usage_period");
   ("2.5.29.17", "subject_alt_name");
   ("2.5.29.18", "issuer_alt_name");
   ("2.5.29.19", "basic_constraints");
   ("2.5.29.30", "name_constraints");
   ("2.5.29.31", "crl_distribution_points");
   ("2.5.29.32", "certificate_policies");
   ("2.5.29.33", "policy_mappings");
   ("2.5.29.35", "authority_key_identifier");
   ("2.5.29.36", "policy_constraints");
   ("2.5.29.37", "extended_key_usage");
   ("2.5.29.46", "freshest_crl");
   ("2.5.29.54", "inhibit_any_policy");
   ("1.3.6.1.5.5.7.1.1", "authority_information_access");
   ("1.3.6.1.5.5.7.1.11", "subject_information_access");
   ("1.3.6.1.5.5.7.1.24", "tls_feature");
   ("1.3.6.1.5.5.7.48.1.5", "ocsp_no_check");
   ("1.2.840.113533.7.65.0", "entrust_version_extension");
   ("2.16.840.1.113730.1.1", "netscape_certificate_type");
   ("1.3.6.1.4.1.11129.2.4.2", "signed_certificate_timestamp_list");
   ("1.3.6.1.4.1.311.20.2", "microsoft_enroll_certtype")].

(* asn1crypto/pdf.py:76-83, entries added to the _map of other classes on import *)
Definition added_pdf : list (string * (string * string)) :=
  [("x509.ExtensionId", ("1.2.840.113583.1.1.9.2", "adobe_archive_rev_info"));
   ("x509.ExtensionId", ("1.2.840.113583.1.1.9.1", "adobe_timestamp"));
   ("x509.ExtensionId", ("1.2.840.113583.1.1.10", "adobe_ppklite_credential"));
   ("x509.KeyPurposeId", ("1.2.840.113583.1.1.5", "pdf_signing"));
   ("cms.CMSAttributeType", ("1.2.840.113583.1.1.8", "adobe_revocation_info_archival"))].

(* asn1crypto/tsp.py:305-309, entries added to the _map of other classes on import *)
Definition added_tsp : list (string * (string * string)) :=
  [("cms.ContentType", ("1.2.840.113549.1.9.16.1.4", "tst_info"));
   ("cms.ContentType", ("1.2.840.113549.1.9.16.1.31", "timestamped_data"));
   ("cms.CMSAttributeType", ("1.2.840.113549.1.9.16.2.12", "signing_certificate"));
   ("cms.CMSAttributeType", ("1.2.840.113549.1.9.16.2.47", "signing_certificate_v2"))].

Definition oid_maps : list (string * list (string * string)) :=
  [("algos.HmacAlgorithmId", map_algos_HmacAlgorithmId);
   ("algos.DigestAlgorithmId", map_algos_DigestAlgorithmId);
   ("algos.MaskGenAlgorithmId", map_algos_MaskGenAlgorithmId);
   ("algos.SignedDigestAlgorithmId", map_algos_SignedDigestAlgorithmId);
   ("algos.KdfAlgorithmId", map_algos_KdfAlgorithmId);
   ("algos.KeyExchangeAlgorithmId", map_algos_KeyExchangeAlgorithmId);
   ("algos.PSourceAlgorithmId", map_algos_PSourceAlgorithmId);
   ("algos.EncryptionAlgorithmId", map_algos_EncryptionAlgorithmId);
   ("algos.Pkcs5MacId", map_algos_Pkcs5MacId);
   ("algos.AnyAlgorithmId", map_algos_AnyAlgorithmId);
   ("cms.CMSAttributeType", map_cms_CMSAttributeType);
   ("cms.ContentType", map_cms_ContentType);
   ("cms.AttCertAttributeType", map_cms_AttCertAttributeType);
   ("cms.OtherRevInfoFormatId", map_cms_OtherRevInfoFormatId);
   ("cms.KeyEncryptionAlgorithmId", map_cms_KeyEncryptionAlgorithmId);
   ("cms.CompressionAlgorithmId", map_cms_CompressionAlgorithmId);
   ("crl.TBSCertListExtensionId", map_crl_TBSCertListExtensionId);
   ("crl.CRLEntryExtensionId", map_crl_CRLEntryExtensionId);
   ("csr.CSRAttributeType", map_csr_CSRAttributeType);
   ("keys.FieldType", map_keys_FieldType);
   ("keys.CharacteristicTwoBasis", map_keys_CharacteristicTwoBasis);
   ("keys.NamedCurve", map_keys_NamedCurve);
   ("keys.PrivateKeyAlgorithmId", map_keys_PrivateKeyAlgorithmId);
   ("keys.PublicKeyAlgorithmId", map_keys_PublicKeyAlgorithmId);
   ("ocsp.RequestExtensionId", map_ocsp_RequestExtensionId);
   ("ocsp.ResponseType", map_ocsp_ResponseType);
   ("ocsp.TBSRequestExtensionId", map_ocsp_TBSRequestExtensionId);
   ("ocsp.SingleResponseExtensionId", map_ocsp_SingleResponseExtensionId);
   ("ocsp.ResponseDataExtensionId", map_ocsp_ResponseDataExtensionId);
   ("pkcs12.AttributeType", map_pkcs12_AttributeType);
   ("pkcs12.BagId", map_pkcs12_BagId);
   ("pkcs12.CertId", map_pkcs12_CertId);
   ("x509.NameType", map_x509_NameType);
   ("x509.PolicyQualifierId", map_x509_PolicyQualifierId);
   ("x509.PolicyIdentifier", map_x509_PolicyIdentifier);
   ("x509.KeyPurposeId", map_x509_KeyPurposeId);
   ("x509.AccessMethod", map_x509_AccessMethod);
   ("x509.SubjectDirectoryAttributeId", map_x509_SubjectDirectoryAttributeId);
   ("x509.ExtensionId", map_x509_ExtensionId)].

Definition int_maps : list (string * list (Z * string)) :=
  [("algos.TrailerField", map_algos_TrailerField);
   ("algos.Rc5ParamVersion", map_algos_Rc5ParamVersion);
   ("cms.CMSVersion", map_cms_CMSVersion);
   ("cms.AttCertVersion", map_cms_AttCertVersion);
   ("crl.Version", map_crl_Version);
   ("csr.Version", map_csr_Version);
   ("keys.RSAPrivateKeyVersion", map_keys_RSAPrivateKeyVersion);
   ("keys.SpecifiedECDomainVersion", map_keys_SpecifiedECDomainVersion);
   ("keys.ECPrivateKeyVersion", map_keys_ECPrivateKeyVersion);
   ("ocsp.Version", map_ocsp_Version);
   ("pkcs12.Version", map_pkcs12_Version);
   ("tsp.Version", map_tsp_Version);
   ("tsp.PKIStatus", map_tsp_PKIStatus);
   ("x509.TerminalType", map_x509_TerminalType);
   ("x509.ExtensionAttributeType", map_x509_ExtensionAttributeType);
   ("x509.Version", map_x509_Version)].

Definition enum_maps : list (string * list (Z * string)) :=
  [("cms.DigestedObjectType", map_cms_DigestedObjectType);
   ("crl.CRLReason", map_crl_CRLReason);
   ("ocsp.OCSPResponseStatus", map_ocsp_OCSPResponseStatus);
   ("x509.EKGenerationType", map_x509_EKGenerationType);
   ("x509.EKGenerationLocation", map_x509_EKGenerationLocation);
   ("x509.EKCertificateGenerationLocation", map_x509_EKCertificateGenerationLocation);
   ("x509.EvaluationAssuranceLevel", map_x509_EvaluationAssuranceLevel);
   ("x509.EvaluationStatus", map_x509_EvaluationStatus);
   ("x509.StrengthOfFunction", map_x509_StrengthOfFunction);
   ("x509.SecurityLevel", map_x509_SecurityLevel)].

Definition bit_maps : list (string * list (Z * string)) :=
  [("cms.ClassList", map_cms_ClassList);
   ("tsp.PKIFailureInfo", map_tsp_PKIFailureInfo);
   ("x509.KeyUsage", map_x509_KeyUsage);
   ("x509.ReasonFlags", map_x509_ReasonFlags);
   ("x509.NetscapeCertificateType", map_x509_NetscapeCertificateType)].

Definition reverse_maps : list (string * list (string * string)) :=
  [("algos.SignedDigestAlgorithmId", rev_algos_SignedDigestAlgorithmId);
   ("cms.KeyEncryptionAlgorithmId", rev_cms_KeyEncryptionAlgorithmId)].

(* asn1crypto/algos.py:181-183 MaskGenAlgorithm._oid_specs *)
Definition specs_algos_MaskGenAlgorithm : list (string * string) :=
  [("mgf1", "DigestAlgorithm")].

(* asn1crypto/algos.py:346-348 SignedDigestAlgorithm._oid_specs *)
Definition specs_algos_SignedDigestAlgorithm : list (string * string) :=
  [("rsassa_pss", "RSASSAPSSParams")].

(* asn1crypto/algos.py:563-566 KdfAlgorithm._oid_specs *)
Definition specs_algos_KdfAlgorithm : list (string * string) :=
  [("pbkdf2", "Pbkdf2Params");
   ("scrypt", "ScryptParams")].

(* asn1crypto/algos.py:594-596 KeyExchangeAlgorithm._oid_specs *)
Definition specs_algos_KeyExchangeAlgorithm : list (string * string) :=
  [("dh", "DHParameters")].

(* asn1crypto/algos.py:650-652 PSourceAlgorithm._oid_specs *)
Definition specs_algos_PSourceAlgorithm : list (string * string) :=
  [("p_specified", "OctetString")].

(* asn1crypto/algos.py:810-841 EncryptionAlgorithm._oid_specs, asn1crypto/algos.py:1314-1314 *)
Definition specs_algos_EncryptionAlgorithm : list (string * string) :=
  [("des", "OctetString");
   ("tripledes_3key", "OctetString");
   ("rc2", "Rc2Params");
   ("rc5", "Rc5Params");
   ("aes128_cbc", "OctetString");
   ("aes192_cbc", "OctetString");
   ("aes256_cbc", "OctetString");
   ("aes128_ofb", "OctetString");
   ("aes192_ofb", "OctetString");
   ("aes256_ofb", "OctetString");
   ("aes128_ccm", "CcmParams");
   ("aes192_ccm", "CcmParams");
   ("aes256_ccm", "CcmParams");
   ("pbes1_md2_des", "Pbes1Params");
   ("pbes1_md5_des", "Pbes1Params");
   ("pbes1_md2_rc2", "Pbes1Params");
   ("pbes1_md5_rc2", "Pbes1Params");
   ("pbes1_sha1_des", "Pbes1Params");
   ("pbes1_sha1_rc2", "Pbes1Params");
   ("pkcs12_sha1_rc4_128", "Pbes1Params");
   ("pkcs12_sha1_rc4_40", "Pbes1Params");
   ("pkcs12_sha1_tripledes_3key", "Pbes1Params");
   ("pkcs12_sha1_tripledes_2key", "Pbes1Params");
   ("pkcs12_sha1_rc2_128", "Pbes1Params");
   ("pkcs12_sha1_rc2_40", "Pbes1Params");
   ("rsaes_oaep", "RSAESOAEPParams");
   ("pbes2", "Pbes2Params")].

(* asn1crypto/algos.py:1309-1311 Pkcs5MacAlgorithm._oid_specs *)
Definition specs_algos_Pkcs5MacAlgorithm : list (string * string) :=
  [("pbmac1", "Pbmac1Params")].

(* asn1crypto/algos.py:1334-1334 AnyAlgorithmIdentifier._oid_specs *)
Definition specs_algos_AnyAlgorithmIdentifier : list (string * string) :=
  [].

(* asn1crypto/cms.py:997-1008 CMSAttribute._oid_specs, asn1crypto/pdf.py:84-84, asn1crypto/tsp.py:308-308, asn1crypto/tsp.py:310-310 *)
Definition specs_cms_CMSAttribute : list (string * string) :=
  [("content_type", "SetOfContentType");
   ("message_digest", "SetOfOctetString");
   ("signing_time", "SetOfTime");
   ("counter_signature", "SignerInfos");
   ("signature_time_stamp_token", "SetOfContentInfo");
   ("cms_algorithm_protection", "SetOfCMSAlgorithmProtection");
   ("microsoft_nested_signature", "SetOfContentInfo");
   ("microsoft_time_stamp_token", "SetOfContentInfo");
   ("encrypt_key_pref", "SMIMEEncryptionKeyPreferences");
   ("smime_capabilities", "SetOfSMIMECapabilites");
   ("adobe_revocation_info_archival", "SetOfRevocationInfoArchival");
   ("signing_certificate", "SetOfSigningCertificates");
   ("signing_certificate_v2", "SetOfSigningCertificatesV2")].

(* asn1crypto/cms.py:427-436 AttCertAttribute._oid_specs *)
Definition specs_cms_AttCertAttribute : list (string * string) :=
  [("authentication_info", "SetOfSvceAuthInfo");
   ("access_identity", "SetOfSvceAuthInfo");
   ("charging_identity", "SetOfIetfAttrSyntax");
   ("group", "SetOfIetfAttrSyntax");
   ("role", "SetOfRoleSyntax");
   ("clearance", "SetOfClearance");
   ("timing_metrics", "SetOfTimingMetrics");
   ("timing_policy", "SetOfTimingPolicy")].

(* asn1crypto/cms.py:972-982 ContentInfo._oid_specs, asn1crypto/tsp.py:304-304 *)
Definition specs_cms_ContentInfo : list (string * string) :=
  [("data", "OctetString");
   ("signed_data", "SignedData");
   ("enveloped_data", "EnvelopedData");
   ("signed_and_enveloped_data", "SignedAndEnvelopedData");
   ("digested_data", "DigestedData");
   ("encrypted_data", "EncryptedData");
   ("authenticated_data", "AuthenticatedData");
   ("compressed_data", "CompressedData");
   ("authenticated_enveloped_data", "AuthEnvelopedData");
   ("timestamped_data", "TimeStampedData")].

(* asn1crypto/cms.py:985-994 EncapsulatedContentInfo._oid_specs, asn1crypto/tsp.py:302-302, asn1crypto/tsp.py:303-303 *)
Definition specs_cms_EncapsulatedContentInfo : list (string * string) :=
  [("signed_data", "SignedData");
   ("enveloped_data", "EnvelopedData");
   ("signed_and_enveloped_data", "SignedAndEnvelopedData");
   ("digested_data", "DigestedData");
   ("encrypted_data", "EncryptedData");
   ("authenticated_data", "AuthenticatedData");
   ("compressed_data", "CompressedData");
   ("authenticated_enveloped_data", "AuthEnvelopedData");
   ("tst_info", "TSTInfo");
   ("timestamped_data", "TimeStampedData")].

(* asn1crypto/cms.py:588-591 OtherRevocationInfoFormat._oid_specs *)
Definition specs_cms_OtherRevocationInfoFormat : list (string * string) :=
  [("ocsp_response", "OCSPResponse");
   ("scvp", "SCVPReqRes")].

(* asn1crypto/cms.py:696-698 KeyEncryptionAlgorithm._oid_specs *)
Definition specs_cms_KeyEncryptionAlgorithm : list (string * string) :=
  [("rsaes_oaep", "RSAESOAEPParams")].

(* asn1crypto/crl.py:81-89 TBSCertListExtension._oid_specs *)
Definition specs_crl_TBSCertListExtension : list (string * string) :=
  [("issuer_alt_name", "GeneralNames");
   ("crl_number", "Integer");
   ("delta_crl_indicator", "Integer");
   ("issuing_distribution_point", "IssuingDistributionPoint");
   ("authority_key_identifier", "AuthorityKeyIdentifier");
   ("freshest_crl", "CRLDistributionPoints");
   ("authority_information_access", "AuthorityInfoAccessSyntax")].

(* asn1crypto/crl.py:151-156 CRLEntryExtension._oid_specs *)
Definition specs_crl_CRLEntryExtension : list (string * string) :=
  [("crl_reason", "CRLReason");
   ("hold_instruction_code", "ObjectIdentifier");
   ("invalidity_date", "GeneralizedTime");
   ("certificate_issuer", "GeneralNames")].

(* asn1crypto/csr.py:105-112 CRIAttribute._oid_specs *)
Definition specs_csr_CRIAttribute : list (string * string) :=
  [("challenge_password", "SetOfDirectoryString");
   ("extended_certificate_attributes", "SetOfAttributes");
   ("extension_request", "SetOfExtensions");
   ("microsoft_enrollment_csp_provider", "SetOfMicrosoftEnrollmentCSProvider");
   ("microsoft_os_version", "SetOfDirectoryString");
   ("microsoft_request_client_info", "SetOfMicrosoftRequestClientInfo")].

(* asn1crypto/keys.py:268-272 CharacteristicTwo._oid_specs *)
Definition specs_keys_CharacteristicTwo : list (string * string) :=
  [("gn_basis", "Null");
   ("tp_basis", "Integer");
   ("pp_basis", "Pentanomial")].

(* asn1crypto/keys.py:286-289 FieldID._oid_specs *)
Definition specs_keys_FieldID : list (string * string) :=
  [("prime_field", "Integer");
   ("characteristic_two_field", "CharacteristicTwo")].

(* asn1crypto/keys.py:701-705 PrivateKeyAlgorithm._oid_specs *)
Definition specs_keys_PrivateKeyAlgorithm : list (string * string) :=
  [("dsa", "DSAParams");
   ("ec", "ECDomainParameters");
   ("rsassa_pss", "RSASSAPSSParams")].

(* asn1crypto/keys.py:1063-1069 PublicKeyAlgorithm._oid_specs *)
Definition specs_keys_PublicKeyAlgorithm : list (string * string) :=
  [("dsa", "DSAParams");
   ("ec", "ECDomainParameters");
   ("dh", "DomainParameters");
   ("rsaes_oaep", "RSAESOAEPParams");
   ("rsassa_pss", "RSASSAPSSParams")].

(* asn1crypto/ocsp.py:76-78 RequestExtension._oid_specs *)
Definition specs_ocsp_RequestExtension : list (string * string) :=
  [("service_locator", "ServiceLocator")].

(* asn1crypto/ocsp.py:183-187 TBSRequestExtension._oid_specs *)
Definition specs_ocsp_TBSRequestExtension : list (string * string) :=
  [("nonce", "OctetString");
   ("acceptable_responses", "AcceptableResponses");
   ("preferred_signature_algorithms", "PreferredSignatureAlgorithms")].

(* asn1crypto/ocsp.py:418-425 SingleResponseExtension._oid_specs *)
Definition specs_ocsp_SingleResponseExtension : list (string * string) :=
  [("crl", "CrlId");
   ("archive_cutoff", "GeneralizedTime");
   ("crl_reason", "CRLReason");
   ("invalidity_date", "GeneralizedTime");
   ("certificate_issuer", "GeneralNames");
   ("signed_certificate_timestamp_list", "OctetString")].

(* asn1crypto/ocsp.py:571-574 ResponseDataExtension._oid_specs *)
Definition specs_ocsp_ResponseDataExtension : list (string * string) :=
  [("nonce", "OctetString");
   ("extended_revoke", "Null")].

(* asn1crypto/ocsp.py:607-609 ResponseBytes._oid_specs *)
Definition specs_ocsp_ResponseBytes : list (string * string) :=
  [("basic_ocsp_response", "BasicOCSPResponse")].

(* asn1crypto/pkcs12.py:85-90 Attribute._oid_specs *)
Definition specs_pkcs12_Attribute : list (string * string) :=
  [("friendly_name", "SetOfBMPString");
   ("local_key_id", "SetOfOctetString");
   ("microsoft_csp_name", "SetOfBMPString");
   ("trusted_key_usage", "SetOfKeyPurposeId")].

(* asn1crypto/pkcs12.py:152-154 CertBag._oid_specs *)
Definition specs_pkcs12_CertBag : list (string * string) :=
  [("x509", "Certificate")].

(* asn1crypto/pkcs12.py:183-190 SafeBag._oid_specs *)
Definition specs_pkcs12_SafeBag : list (string * string) :=
  [("key_bag", "PrivateKeyInfo");
   ("pkcs8_shrouded_key_bag", "EncryptedPrivateKeyInfo");
   ("cert_bag", "CertBag");
   ("crl_bag", "CrlBag");
   ("secret_bag", "SecretBag");
   ("safe_contents", "SafeContents")].

(* asn1crypto/x509.py:659-696 NameTypeAndValue._oid_specs *)
Definition specs_x509_NameTypeAndValue : list (string * string) :=
  [("common_name", "DirectoryString");
   ("surname", "DirectoryString");
   ("serial_number", "DirectoryString");
   ("country_name", "DirectoryString");
   ("locality_name", "DirectoryString");
   ("state_or_province_name", "DirectoryString");
   ("street_address", "DirectoryString");
   ("organization_name", "DirectoryString");
   ("organizational_unit_name", "DirectoryString");
   ("title", "DirectoryString");
   ("business_category", "DirectoryString");
   ("postal_code", "DirectoryString");
   ("telephone_number", "PrintableString");
   ("name", "DirectoryString");
   ("given_name", "DirectoryString");
   ("initials", "DirectoryString");
   ("generation_qualifier", "DirectoryString");
   ("unique_identifier", "OctetBitString");
   ("dn_qualifier", "DirectoryString");
   ("pseudonym", "DirectoryString");
   ("email_address", "EmailAddress");
   ("incorporation_locality", "DirectoryString");
   ("incorporation_state_or_province", "DirectoryString");
   ("incorporation_country", "DirectoryString");
   ("domain_component", "DNSName");
   ("name_distinguisher", "DirectoryString");
   ("organization_identifier", "DirectoryString");
   ("tpm_manufacturer", "UTF8String");
   ("tpm_model", "UTF8String");
   ("tpm_version", "UTF8String");
   ("platform_manufacturer", "UTF8String");
   ("platform_model", "UTF8String");
   ("platform_version", "UTF8String");
   ("user_id", "DirectoryString")].

(* asn1crypto/x509.py:1386-1410 ExtensionAttribute._oid_specs *)
Definition specs_x509_ExtensionAttribute : list (string * string) :=
  [("common_name", "PrintableString");
   ("teletex_common_name", "TeletexString");
   ("teletex_organization_name", "TeletexString");
   ("teletex_personal_name", "TeletexPersonalName");
   ("teletex_organization_unit_names", "TeletexOrganizationalUnitNames");
   ("teletex_domain_defined_attributes", "TeletexDomainDefinedAttributes");
   ("pds_name", "PrintableString");
   ("physical_delivery_country_name", "PhysicalDeliveryCountryName");
   ("postal_code", "PostalCode");
   ("physical_delivery_office_name", "PDSParameter");
   ("physical_delivery_office_number", "PDSParameter");
   ("extension_of_address_components", "PDSParameter");
   ("physical_delivery_personal_name", "PDSParameter");
   ("physical_delivery_organization_name", "PDSParameter");
   ("extension_physical_delivery_address_components", "PDSParameter");
   ("unformatted_postal_address", "UnformattedPostalAddress");
   ("street_address", "PDSParameter");
   ("post_office_box_address", "PDSParameter");
   ("poste_restante_address", "PDSParameter");
   ("unique_postal_name", "PDSParameter");
   ("local_postal_attributes", "PDSParameter");
   ("extended_network_address", "ExtendedNetworkAddress");
   ("terminal_type", "TerminalType")].

(* asn1crypto/x509.py:1637-1640 PolicyQualifierInfo._oid_specs *)
Definition specs_x509_PolicyQualifierInfo : list (string * string) :=
  [("certification_practice_statement", "IA5String");
   ("user_notice", "UserNotice")].

(* asn1crypto/x509.py:2046-2056 SubjectDirectoryAttribute._oid_specs *)
Definition specs_x509_SubjectDirectoryAttribute : list (string * string) :=
  [("supported_algorithms", "SetOfSupportedAlgorithm");
   ("tpm_specification", "SetOfTPMSpecification");
   ("tcg_platform_specification", "SetOfTCGPlatformSpecification");
   ("tpm_security_assertions", "SetOfTPMSecurityAssertions");
   ("pda_date_of_birth", "SetOfGeneralizedTime");
   ("pda_place_of_birth", "SetOfDirectoryString");
   ("pda_gender", "SetOfPrintableString");
   ("pda_country_of_citizenship", "SetOfPrintableString");
   ("pda_country_of_residence", "SetOfPrintableString")].

(* asn1crypto/x509.py:2113-2140 Extension._oid_specs, asn1crypto/pdf.py:79-79, asn1crypto/pdf.py:80-80, asn1crypto/pdf.py:81-81 *)
Definition specs_x509_Extension : list (string * string) :=
  [("subject_directory_attributes", "SubjectDirectoryAttributes");
   ("key_identifier", "OctetString");
   ("key_usage", "KeyUsage");
   ("private_key_usage_period", "PrivateKeyUsagePeriod");
   ("subject_alt_name", "GeneralNames");
   ("issuer_alt_name", "GeneralNames");
   ("basic_constraints", "BasicConstraints");
   ("name_constraints", "NameConstraints");
   ("crl_distribution_points", "CRLDistributionPoints");
   ("certificate_policies", "CertificatePolicies");
   ("policy_mappings", "PolicyMappings");
   ("authority_key_identifier", "AuthorityKeyIdentifier");
   ("policy_constraints", "PolicyConstraints");
   ("extended_key_usage", "ExtKeyUsageSyntax");
   ("freshest_crl", "CRLDistributionPoints");
   ("inhibit_any_policy", "Integer");
   ("authority_information_access", "AuthorityInfoAccessSyntax");
   ("subject_information_access", "SubjectInfoAccessSyntax");
   ("tls_feature", "Features");
   ("ocsp_no_check", "Null");
   ("entrust_version_extension", "EntrustVersionInfo");
   ("netscape_certificate_type", "NetscapeCertificateType");
   ("signed_certificate_timestamp_list", "OctetString");
   ("microsoft_enroll_certtype", "BMPString");
   ("adobe_archive_rev_info", "AdobeArchiveRevInfo");
   ("adobe_timestamp", "AdobeTimestamp");
   ("adobe_ppklite_credential", "Null")].

(* the structure, the class of its identifier field, its _oid_specs *)
Definition spec_tables : list (string * (string * list (string * string))) :=
  [("algos.MaskGenAlgorithm", ("algos.MaskGenAlgorithmId", specs_algos_MaskGenAlgorithm));
   ("algos.SignedDigestAlgorithm", ("algos.SignedDigestAlgorithmId", specs_algos_SignedDigestAlgorithm));
   ("algos.KdfAlgorithm", ("algos.KdfAlgorithmId", specs_algos_KdfAlgorithm));
   ("algos.KeyExchangeAlgorithm", ("algos.KeyExchangeAlgorithmId", specs_algos_KeyExchangeAlgorithm));
   ("algos.PSourceAlgorithm", ("algos.PSourceAlgorithmId", specs_algos_PSourceAlgorithm));
   ("algos.EncryptionAlgorithm", ("algos.EncryptionAlgorithmId", specs_algos_EncryptionAlgorithm));
   ("algos.Pkcs5MacAlgorithm", ("algos.Pkcs5MacId", specs_algos_Pkcs5MacAlgorithm));
   ("algos.AnyAlgorithmIdentifier", ("algos.AnyAlgorithmId", specs_algos_AnyAlgorithmIdentifier));
   ("cms.CMSAttribute", ("cms.CMSAttributeType", specs_cms_CMSAttribute));
   ("cms.AttCertAttribute", ("cms.AttCertAttributeType", specs_cms_AttCertAttribute));
   ("cms.ContentInfo", ("cms.ContentType", specs_cms_ContentInfo));
   ("cms.EncapsulatedContentInfo", ("cms.ContentType", specs_cms_EncapsulatedContentInfo));
   ("cms.OtherRevocationInfoFormat", ("cms.OtherRevInfoFormatId", specs_cms_OtherRevocationInfoFormat));
   ("cms.KeyEncryptionAlgorithm", ("cms.KeyEncryptionAlgorithmId", specs_cms_KeyEncryptionAlgorithm));
   ("crl.TBSCertListExtension", ("crl.TBSCertListExtensionId", specs_crl_TBSCertListExtension));
   ("crl.CRLEntryExtension", ("crl.CRLEntryExtensionId", specs_crl_CRLEntryExtension));
   ("csr.CRIAttribute", ("csr.CSRAttributeType", specs_csr_CRIAttribute));
   ("keys.CharacteristicTwo", ("keys.CharacteristicTwoBasis", specs_keys_CharacteristicTwo));
   ("keys.FieldID", ("keys.FieldType", specs_keys_FieldID));
   ("keys.PrivateKeyAlgorithm", ("keys.PrivateKeyAlgorithmId", specs_keys_PrivateKeyAlgorithm));
   ("keys.PublicKeyAlgorithm", ("keys.PublicKeyAlgorithmId", specs_keys_PublicKeyAlgorithm));
   ("ocsp.RequestExtension", ("ocsp.RequestExtensionId", specs_ocsp_RequestExtension));
   ("ocsp.TBSRequestExtension", ("ocsp.TBSRequestExtensionId", specs_ocsp_TBSRequestExtension));
   ("ocsp.SingleResponseExtension", ("ocsp.SingleResponseExtensionId", specs_ocsp_SingleResponseExtension));
   ("ocsp.ResponseDataExtension", ("ocsp.ResponseDataExtensionId", specs_ocsp_ResponseDataExtension));
   ("ocsp.ResponseBytes", ("ocsp.ResponseType", specs_ocsp_ResponseBytes));
   ("pkcs12.Attribute", ("pkcs12.AttributeType", specs_pkcs12_Attribute));
   ("pkcs12.CertBag", ("pkcs12.CertId", specs_pkcs12_CertBag));
   ("pkcs12.SafeBag", ("pkcs12.BagId", specs_pkcs12_SafeBag));
   ("x509.NameTypeAndValue", ("x509.NameType", specs_x509_NameTypeAndValue));
   ("x509.ExtensionAttribute", ("x509.ExtensionAttributeType", specs_x509_ExtensionAttribute));
   ("x509.PolicyQualifierInfo", ("x509.PolicyQualifierId", specs_x509_PolicyQualifierInfo));
   ("x509.SubjectDirectoryAttribute", ("x509.SubjectDirectoryAttributeId", specs_x509_SubjectDirectoryAttribute));
   ("x509.Extension", ("x509.ExtensionId", specs_x509_Extension))].

(* asn1crypto/algos.py:350-389 SignedDigestAlgorithm._algo_map *)
Definition algo_map : list (string * string) :=
  [("md2_rsa", "md2");
   ("md5_rsa", "md5");
   ("sha1_rsa", "sha1");
   ("sha224_rsa", "sha224");
   ("sha256_rsa", "sha256");
   ("sha384_rsa", "sha384");
   ("sha512_rsa", "sha512");
   ("sha1_dsa", "sha1");
   ("sha224_dsa", "sha224");
   ("sha256_dsa", "sha256");
   ("sha384_dsa", "sha384");
   ("sha512_dsa", "sha512");
   ("sha1_ecdsa", "sha1");
   ("sha1_ecdsa_plain", "sha1");
   ("sha224_ecdsa", "sha224");
   ("sha256_ecdsa", "sha256");
   ("sha384_ecdsa", "sha384");
   ("sha512_ecdsa", "sha512");
   ("sha224_ecdsa_plain", "sha224");
   ("sha256_ecdsa_plain", "sha256");
   ("sha384_ecdsa_plain", "sha384");
   ("sha512_ecdsa_plain", "sha512");
   ("sha3_224_dsa", "sha3_224");
   ("sha3_256_dsa", "sha3_256");
   ("sha3_384_dsa", "sha3_384");
   ("sha3_512_dsa", "sha3_512");
   ("sha3_224_ecdsa", "sha3_224");
   ("sha3_256_ecdsa", "sha3_256");
   ("sha3_384_ecdsa", "sha3_384");
   ("sha3_512_ecdsa", "sha3_512");
   ("sha3_224_ecdsa_plain", "sha3_224");
   ("sha3_256_ecdsa_plain", "sha3_256");
   ("sha3_384_ecdsa_plain", "sha3_384");
   ("sha3_512_ecdsa_plain", "sha3_512");
   ("sha3_224_rsa", "sha3_224");
   ("sha3_256_rsa", "sha3_256");
   ("sha3_384_rsa", "sha3_384");
   ("sha3_512_rsa", "sha3_512")].

(* asn1crypto/algos.py:401-446 algo_map in signature_algo *)
Definition signature_map : list (string * string) :=
  [("md2_rsa", "rsassa_pkcs1v15");
   ("md5_rsa", "rsassa_pkcs1v15");
   ("sha1_rsa", "rsassa_pkcs1v15");
   ("sha224_rsa", "rsassa_pkcs1v15");
   ("sha256_rsa", "rsassa_pkcs1v15");
   ("sha384_rsa", "rsassa_pkcs1v15");
   ("sha512_rsa", "rsassa_pkcs1v15");
   ("sha3_224_rsa", "rsassa_pkcs1v15");
   ("sha3_256_rsa", "rsassa_pkcs1v15");
   ("sha3_384_rsa", "rsassa_pkcs1v15");
   ("sha3_512_rsa", "rsassa_pkcs1v15");
   ("rsassa_pkcs1v15", "rsassa_pkcs1v15");
   ("rsassa_pss", "rsassa_pss");
   ("sha1_dsa", "dsa");
   ("sha224_dsa", "dsa");
   ("sha256_dsa", "dsa");
   ("sha384_dsa", "dsa");
   ("sha512_dsa", "dsa");
   ("sha3_224_dsa", "dsa");
   ("sha3_256_dsa", "dsa");
   ("sha3_384_dsa", "dsa");
   ("sha3_512_dsa", "dsa");
   ("dsa", "dsa");
   ("sha1_ecdsa", "ecdsa");
   ("sha224_ecdsa", "ecdsa");
   ("sha256_ecdsa", "ecdsa");
   ("sha384_ecdsa", "ecdsa");
   ("sha512_ecdsa", "ecdsa");
   ("sha3_224_ecdsa", "ecdsa");
   ("sha3_256_ecdsa", "ecdsa");
   ("sha3_384_ecdsa", "ecdsa");
   ("sha3_512_ecdsa", "ecdsa");
   ("sha1_ecdsa_plain", "ecdsa");
   ("sha224_ecdsa_plain", "ecdsa");
   ("sha256_ecdsa_plain", "ecdsa");
   ("sha384_ecdsa_plain", "ecdsa");
   ("sha512_ecdsa_plain", "ecdsa");
   ("sha3_224_ecdsa_plain", "ecdsa");
   ("sha3_256_ecdsa_plain", "ecdsa");
   ("sha3_384_ecdsa_plain", "ecdsa");
   ("sha3_512_ecdsa_plain", "ecdsa");
   ("ecdsa", "ecdsa");
   ("ed25519", "ed25519");
   ("ed448", "ed448")].

(* asn1crypto/algos.py:508-511 cms_algo_map in cms_hash_algo *)
Definition cms_hash_map : list (string * string) :=
  [("ed25519", "sha512");
   ("ed448", "shake256")].

(* asn1crypto/keys.py:408-489 NamedCurve._key_sizes *)
Definition key_sizes : list (string * Z) :=
  [("1.2.840.10045.3.0.1", 21%Z);
   ("1.2.840.10045.3.0.2", 21%Z);
   ("1.2.840.10045.3.0.3", 21%Z);
   ("1.2.840.10045.3.0.4", 21%Z);
   ("1.2.840.10045.3.0.5", 24%Z);
   ("1.2.840.10045.3.0.6", 24%Z);
   ("1.2.840.10045.3.0.7", 24%Z);
   ("1.2.840.10045.3.0.8", 24%Z);
   ("1.2.840.10045.3.0.9", 24%Z);
   ("1.2.840.10045.3.0.10", 25%Z);
   ("1.2.840.10045.3.0.11", 30%Z);
   ("1.2.840.10045.3.0.12", 30%Z);
   ("1.2.840.10045.3.0.13", 30%Z);
   ("1.2.840.10045.3.0.14", 30%Z);
   ("1.2.840.10045.3.0.15", 30%Z);
   ("1.2.840.10045.3.0.16", 33%Z);
   ("1.2.840.10045.3.0.17", 37%Z);
   ("1.2.840.10045.3.0.18", 45%Z);
   ("1.2.840.10045.3.0.19", 45%Z);
   ("1.2.840.10045.3.0.20", 53%Z);
   ("1.2.840.10045.3.1.2", 24%Z);
   ("1.2.840.10045.3.1.3", 24%Z);
   ("1.2.840.10045.3.1.4", 30%Z);
   ("1.2.840.10045.3.1.5", 30%Z);
   ("1.2.840.10045.3.1.6", 30%Z);
   ("1.2.840.10045.3.1.1", 24%Z);
   ("1.2.840.10045.3.1.7", 32%Z);
   ("1.3.132.0.1", 21%Z);
   ("1.3.132.0.2", 21%Z);
   ("1.3.132.0.3", 30%Z);
   ("1.3.132.0.4", 15%Z);
   ("1.3.132.0.5", 15%Z);
   ("1.3.132.0.6", 14%Z);
   ("1.3.132.0.7", 14%Z);
   ("1.3.132.0.8", 21%Z);
   ("1.3.132.0.9", 21%Z);
   ("1.3.132.0.10", 32%Z);
   ("1.3.132.0.15", 21%Z);
   ("1.3.132.0.16", 36%Z);
   ("1.3.132.0.17", 36%Z);
   ("1.3.132.0.22", 17%Z);
   ("1.3.132.0.23", 17%Z);
   ("1.3.132.0.24", 25%Z);
   ("1.3.132.0.25", 25%Z);
   ("1.3.132.0.26", 29%Z);
   ("1.3.132.0.27", 30%Z);
   ("1.3.132.0.28", 16%Z);
   ("1.3.132.0.29", 16%Z);
   ("1.3.132.0.30", 21%Z);
   ("1.3.132.0.31", 24%Z);
   ("1.3.132.0.32", 29%Z);
   ("1.3.132.0.33", 28%Z);
   ("1.3.132.0.34", 48%Z);
   ("1.3.132.0.35", 66%Z);
   ("1.3.132.0.36", 51%Z);
   ("1.3.132.0.37", 52%Z);
   ("1.3.132.0.38", 72%Z);
   ("1.3.132.0.39", 72%Z);
   ("1.3.36.3.3.2.8.1.1.1", 20%Z);
   ("1.3.36.3.3.2.8.1.1.2", 20%Z);
   ("1.3.36.3.3.2.8.1.1.3", 24%Z);
   ("1.3.36.3.3.2.8.1.1.4", 24%Z);
   ("1.3.36.3.3.2.8.1.1.5", 28%Z);
   ("1.3.36.3.3.2.8.1.1.6", 28%Z);
   ("1.3.36.3.3.2.8.1.1.7", 32%Z);
   ("1.3.36.3.3.2.8.1.1.8", 32%Z);
   ("1.3.36.3.3.2.8.1.1.9", 40%Z);
   ("1.3.36.3.3.2.8.1.1.10", 40%Z);
   ("1.3.36.3.3.2.8.1.1.11", 48%Z);
   ("1.3.36.3.3.2.8.1.1.12", 48%Z);
   ("1.3.36.3.3.2.8.1.1.13", 64%Z);
   ("1.3.36.3.3.2.8.1.1.14", 64%Z)].

(* asn1crypto/algos.py:61-72 _ForceNullParameters._null_algos *)
Definition null_algos : list string :=
  ["1.2.840.113549.1.1.1";
   "1.2.840.113549.1.1.11";
   "1.2.840.113549.1.1.12";
   "1.2.840.113549.1.1.13";
   "1.2.840.113549.1.1.14";
   "1.3.14.3.2.26";
   "2.16.840.1.101.3.4.2.4";
   "2.16.840.1.101.3.4.2.1";
   "2.16.840.1.101.3.4.2.2";
   "2.16.840.1.101.3.4.2.3"].

(* asn1crypto/crl.py:172-174 RevokedCertificate: the attributes named _..._value; the loop (line 185) runs over
   self['crl_entry_extensions'] *)
Definition attrs_crl_RevokedCertificate : list string :=
  ["_crl_reason_value";
   "_invalidity_date_value";
   "_certificate_issuer_value"].
(* asn1crypto/crl.py:210-251: each property ..._value and the attribute it returns *)
Definition accessors_crl_RevokedCertificate : list (string * string) :=
  [("crl_reason_value", "_crl_reason_value");
   ("invalidity_date_value", "_invalidity_date_value");
   ("certificate_issuer_value", "_certificate_issuer_value")].

(* asn1crypto/crl.py:295-301 CertificateList: the attributes named _..._value; the loop (line 315) runs over
   self['tbs_cert_list']['crl_extensions'] *)
Definition attrs_crl_CertificateList : list string :=
  ["_issuer_alt_name_value";
   "_crl_number_value";
   "_delta_crl_indicator_value";
   "_issuing_distribution_point_value";
   "_authority_key_identifier_value";
   "_freshest_crl_value";
   "_authority_information_access_value"].
(* asn1crypto/crl.py:340-435: each property ..._value and the attribute it returns *)
Definition accessors_crl_CertificateList : list (string * string) :=
  [("issuer_alt_name_value", "_issuer_alt_name_value");
   ("crl_number_value", "_crl_number_value");
   ("delta_crl_indicator_value", "_delta_crl_indicator_value");
   ("issuing_distribution_point_value", "_issuing_distribution_point_value");
   ("authority_key_identifier_value", "_authority_key_identifier_value");
   ("freshest_crl_value", "_freshest_crl_value");
   ("authority_information_access_value", "_authority_information_access_value")].

(* asn1crypto/ocsp.py:93-93 Request: the attributes named _..._value; the loop (line 103) runs over
   self['single_request_extensions'] *)
Definition attrs_ocsp_Request : list string :=
  ["_service_locator_value"].
(* asn1crypto/ocsp.py:128-139: each property ..._value and the attribute it returns *)
Definition accessors_ocsp_Request : list (string * string) :=
  [("service_locator_value", "_service_locator_value")].

(* asn1crypto/ocsp.py:223-225 OCSPRequest: the attributes named _..._value; the loop (line 235) runs over
   self['tbs_request']['request_extensions'] *)
Definition attrs_ocsp_OCSPRequest : list string :=
  ["_nonce_value";
   "_acceptable_responses_value";
   "_preferred_signature_algorithms_value"].
(* asn1crypto/ocsp.py:260-302: each property ..._value and the attribute it returns *)
Definition accessors_ocsp_OCSPRequest : list (string * string) :=
  [("nonce_value", "_nonce_value");
   ("acceptable_responses_value", "_acceptable_responses_value");
   ("preferred_signature_algorithms_value", "_preferred_signature_algorithms_value")].

(* asn1crypto/ocsp.py:443-447 SingleResponse: the attributes named _..._value; the loop (line 457) runs over
   self['single_extensions'] *)
Definition attrs_ocsp_SingleResponse : list string :=
  ["_crl_value";
   "_archive_cutoff_value";
   "_crl_reason_value";
   "_invalidity_date_value";
   "_certificate_issuer_value"].
(* asn1crypto/ocsp.py:482-549: each property ..._value and the attribute it returns *)
Definition accessors_ocsp_SingleResponse : list (string * string) :=
  [("crl_value", "_crl_value");
   ("archive_cutoff_value", "_archive_cutoff_value");
   ("crl_reason_value", "_crl_reason_value");
   ("invalidity_date_value", "_invalidity_date_value");
   ("certificate_issuer_value", "_certificate_issuer_value")].

(* asn1crypto/ocsp.py:620-621 OCSPResponse: the attributes named _..._value; the loop (line 631) runs over
   self['response_bytes']['response'].parsed['tbs_response_data']['response_extensions'] *)
Definition attrs_ocsp_OCSPResponse : list string :=
  ["_nonce_value";
   "_extended_revoke_value"].
(* asn1crypto/ocsp.py:656-681: each property ..._value and the attribute it returns *)
Definition accessors_ocsp_OCSPResponse : list (string * string) :=
  [("nonce_value", "_nonce_value");
   ("extended_revoke_value", "_extended_revoke_value")].

(* asn1crypto/x509.py:2171-2190 Certificate: the attributes named _..._value; the loop (line 2210) runs over
   self['tbs_certificate']['extensions'] *)
Definition attrs_x509_Certificate : list string :=
  ["_subject_directory_attributes_value";
   "_key_identifier_value";
   "_key_usage_value";
   "_subject_alt_name_value";
   "_issuer_alt_name_value";
   "_basic_constraints_value";
   "_name_constraints_value";
   "_crl_distribution_points_value";
   "_certificate_policies_value";
   "_policy_mappings_value";
   "_authority_key_identifier_value";
   "_policy_constraints_value";
   "_freshest_crl_value";
   "_inhibit_any_policy_value";
   "_extended_key_usage_value";
   "_authority_information_access_value";
   "_subject_information_access_value";
   "_private_key_usage_period_value";
   "_tls_feature_value";
   "_ocsp_no_check_value"].
(* asn1crypto/x509.py:2235-2519: each property ..._value and the attribute it returns *)
Definition accessors_x509_Certificate : list (string * string) :=
  [("private_key_usage_period_value", "_private_key_usage_period_value");
   ("subject_directory_attributes_value", "_subject_directory_attributes_value");
   ("key_identifier_value", "_key_identifier_value");
   ("key_usage_value", "_key_usage_value");
   ("subject_alt_name_value", "_subject_alt_name_value");
   ("issuer_alt_name_value", "_issuer_alt_name_value");
   ("basic_constraints_value", "_basic_constraints_value");
   ("name_constraints_value", "_name_constraints_value");
   ("crl_distribution_points_value", "_crl_distribution_points_value");
   ("certificate_policies_value", "_certificate_policies_value");
   ("policy_mappings_value", "_policy_mappings_value");
   ("authority_key_identifier_value", "_authority_key_identifier_value");
   ("policy_constraints_value", "_policy_constraints_value");
   ("freshest_crl_value", "_freshest_crl_value");
   ("inhibit_any_policy_value", "_inhibit_any_policy_value");
   ("extended_key_usage_value", "_extended_key_usage_value");
   ("authority_information_access_value", "_authority_information_access_value");
   ("subject_information_access_value", "_subject_information_access_value");
   ("tls_feature_value", "_tls_feature_value");
   ("ocsp_no_check_value", "_ocsp_no_check_value")].

(* class, (attributes, accessors) *)
Definition extension_classes : list (string * (list string * list (string * string))) :=
  [("crl.RevokedCertificate", (attrs_crl_RevokedCertificate, accessors_crl_RevokedCertificate));
   ("crl.CertificateList", (attrs_crl_CertificateList, accessors_crl_CertificateList));
   ("ocsp.Request", (attrs_ocsp_Request, accessors_ocsp_Request));
   ("ocsp.OCSPRequest", (attrs_ocsp_OCSPRequest, accessors_ocsp_OCSPRequest));
   ("ocsp.SingleResponse", (attrs_ocsp_SingleResponse, accessors_ocsp_SingleResponse));
   ("ocsp.OCSPResponse", (attrs_ocsp_OCSPResponse, accessors_ocsp_OCSPResponse));
   ("x509.Certificate", (attrs_x509_Certificate, accessors_x509_Certificate))].
