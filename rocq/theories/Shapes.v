(* Generated by tools/gen_shapes.py from the text of /repo; do not edit.
   The class definitions of the library: bases, tags, fields, alternatives and items. *)
Require Import ZArith List.
Require Import Coq.Strings.String.
Require Import Verif.ShapeModel.
Import ListNotations.
Local Open Scope string_scope.
Local Open Scope Z_scope.

(* asn1crypto/core.py:178-663 *)
Definition class_core_Asn1Value : sclass :=
  SClass "core.Asn1Value" [] None None
    None
    None
    None.

(* asn1crypto/core.py:666-690 *)
Definition class_core_ValueMap : sclass :=
  SClass "core.ValueMap" [] None None
    None
    None
    None.

(* asn1crypto/core.py:693-734 *)
Definition class_core_Castable : sclass :=
  SClass "core.Castable" [] None None
    None
    None
    None.

(* asn1crypto/core.py:737-815 *)
Definition class_core_Constructable : sclass :=
  SClass "core.Constructable" [] None None
    None
    None
    None.

(* asn1crypto/core.py:818-869 *)
Definition class_core_Void : sclass :=
  SClass "core.Void" ["core.Asn1Value"] None None
    None
    None
    None.

(* asn1crypto/core.py:875-1022 *)
Definition class_core_Any : sclass :=
  SClass "core.Any" ["core.Asn1Value"] None None
    None
    None
    None.

(* asn1crypto/core.py:1025-1362 *)
Definition class_core_Choice : sclass :=
  SClass "core.Choice" ["core.Asn1Value"] None None
    None
    None
    None.

(* asn1crypto/core.py:1365-1651 *)
Definition class_core_Concat : sclass :=
  SClass "core.Concat" [] None None
    None
    None
    None.

(* asn1crypto/core.py:1654-1778 *)
Definition class_core_Primitive : sclass :=
  SClass "core.Primitive" ["core.Asn1Value"] (Some 0) None
    None
    None
    None.

(* asn1crypto/core.py:1781-1859 *)
Definition class_core_AbstractString : sclass :=
  SClass "core.AbstractString" ["core.Constructable"; "core.Primitive"] None None
    None
    None
    None.

(* asn1crypto/core.py:1862-1912 *)
Definition class_core_Boolean : sclass :=
  SClass "core.Boolean" ["core.Primitive"] None (Some 1)
    None
    None
    None.

(* asn1crypto/core.py:1915-1993 *)
Definition class_core_Integer : sclass :=
  SClass "core.Integer" ["core.Primitive"; "core.ValueMap"] None (Some 2)
    None
    None
    None.

(* asn1crypto/core.py:1996-2101 *)
Definition class_core__IntegerBitString : sclass :=
  SClass "core._IntegerBitString" [] None None
    None
    None
    None.

(* asn1crypto/core.py:2104-2356 *)
Definition class_core_BitString : sclass :=
  SClass "core.BitString" ["core._IntegerBitString"; "core.Constructable"; "core.Castable"; "core.Primitive"; "core.ValueMap"] None (Some 3)
    None
    None
    None.

(* asn1crypto/core.py:2359-2502 *)
Definition class_core_OctetBitString : sclass :=
  SClass "core.OctetBitString" ["core.Constructable"; "core.Castable"; "core.Primitive"] None (Some 3)
    None
    None
    None.

(* asn1crypto/core.py:2505-2567 *)
Definition class_core_IntegerBitString : sclass :=
  SClass "core.IntegerBitString" ["core._IntegerBitString"; "core.Constructable"; "core.Castable"; "core.Primitive"] None (Some 3)
    None
    None
    None.

(* asn1crypto/core.py:2570-2645 *)
Definition class_core_OctetString : sclass :=
  SClass "core.OctetString" ["core.Constructable"; "core.Castable"; "core.Primitive"] None (Some 4)
    None
    None
    None.

(* asn1crypto/core.py:2648-2726 *)
Definition class_core_IntegerOctetString : sclass :=
  SClass "core.IntegerOctetString" ["core.Constructable"; "core.Castable"; "core.Primitive"] None (Some 4)
    None
    None
    None.

(* asn1crypto/core.py:2729-2904 *)
Definition class_core_ParsableOctetString : sclass :=
  SClass "core.ParsableOctetString" ["core.Constructable"; "core.Castable"; "core.Primitive"] None (Some 4)
    None
    None
    None.

(* asn1crypto/core.py:2907-2956 *)
Definition class_core_ParsableOctetBitString : sclass :=
  SClass "core.ParsableOctetBitString" ["core.ParsableOctetString"] None (Some 3)
    None
    None
    None.

(* asn1crypto/core.py:2959-2987 *)
Definition class_core_Null : sclass :=
  SClass "core.Null" ["core.Primitive"] None (Some 5)
    None
    None
    None.

(* asn1crypto/core.py:2990-3212 *)
Definition class_core_ObjectIdentifier : sclass :=
  SClass "core.ObjectIdentifier" ["core.Primitive"; "core.ValueMap"] None (Some 6)
    None
    None
    None.

(* asn1crypto/core.py:3215-3220 *)
Definition class_core_ObjectDescriptor : sclass :=
  SClass "core.ObjectDescriptor" ["core.Primitive"] None (Some 7)
    None
    None
    None.

(* asn1crypto/core.py:3223-3228 *)
Definition class_core_InstanceOf : sclass :=
  SClass "core.InstanceOf" ["core.Primitive"] None (Some 8)
    None
    None
    None.

(* asn1crypto/core.py:3231-3236 *)
Definition class_core_Real : sclass :=
  SClass "core.Real" ["core.Primitive"] None (Some 9)
    None
    None
    None.

(* asn1crypto/core.py:3239-3304 *)
Definition class_core_Enumerated : sclass :=
  SClass "core.Enumerated" ["core.Integer"] None (Some 10)
    None
    None
    None.

(* asn1crypto/core.py:3307-3313 *)
Definition class_core_UTF8String : sclass :=
  SClass "core.UTF8String" ["core.AbstractString"] None (Some 12)
    None
    None
    None.

(* asn1crypto/core.py:3316-3322 *)
Definition class_core_RelativeOid : sclass :=
  SClass "core.RelativeOid" ["core.ObjectIdentifier"] None (Some 13)
    None
    None
    None.

(* asn1crypto/core.py:3325-4163 *)
Definition class_core_Sequence : sclass :=
  SClass "core.Sequence" ["core.Asn1Value"] (Some 0) (Some 16)
    (Some [])
    None
    None.

(* asn1crypto/core.py:4166-4619 *)
Definition class_core_SequenceOf : sclass :=
  SClass "core.SequenceOf" ["core.Asn1Value"] (Some 0) (Some 16)
    None
    None
    None.

(* asn1crypto/core.py:4622-4806 *)
Definition class_core_Set : sclass :=
  SClass "core.Set" ["core.Sequence"] (Some 0) (Some 17)
    None
    None
    None.

(* asn1crypto/core.py:4809-4840 *)
Definition class_core_SetOf : sclass :=
  SClass "core.SetOf" ["core.SequenceOf"] None (Some 17)
    None
    None
    None.

(* asn1crypto/core.py:4843-4848 *)
Definition class_core_EmbeddedPdv : sclass :=
  SClass "core.EmbeddedPdv" ["core.Sequence"] None (Some 11)
    None
    None
    None.

(* asn1crypto/core.py:4851-4857 *)
Definition class_core_NumericString : sclass :=
  SClass "core.NumericString" ["core.AbstractString"] None (Some 18)
    None
    None
    None.

(* asn1crypto/core.py:4860-4866 *)
Definition class_core_PrintableString : sclass :=
  SClass "core.PrintableString" ["core.AbstractString"] None (Some 19)
    None
    None
    None.

(* asn1crypto/core.py:4869-4875 *)
Definition class_core_TeletexString : sclass :=
  SClass "core.TeletexString" ["core.AbstractString"] None (Some 20)
    None
    None
    None.

(* asn1crypto/core.py:4878-4883 *)
Definition class_core_VideotexString : sclass :=
  SClass "core.VideotexString" ["core.OctetString"] None (Some 21)
    None
    None
    None.

(* asn1crypto/core.py:4886-4892 *)
Definition class_core_IA5String : sclass :=
  SClass "core.IA5String" ["core.AbstractString"] None (Some 22)
    None
    None
    None.

(* asn1crypto/core.py:4895-4990 *)
Definition class_core_AbstractTime : sclass :=
  SClass "core.AbstractTime" ["core.AbstractString"] None None
    None
    None
    None.

(* asn1crypto/core.py:4993-5076 *)
Definition class_core_UTCTime : sclass :=
  SClass "core.UTCTime" ["core.AbstractTime"] None (Some 23)
    None
    None
    None.

(* asn1crypto/core.py:5079-5171 *)
Definition class_core_GeneralizedTime : sclass :=
  SClass "core.GeneralizedTime" ["core.AbstractTime"] None (Some 24)
    None
    None
    None.

(* asn1crypto/core.py:5174-5181 *)
Definition class_core_GraphicString : sclass :=
  SClass "core.GraphicString" ["core.AbstractString"] None (Some 25)
    None
    None
    None.

(* asn1crypto/core.py:5184-5190 *)
Definition class_core_VisibleString : sclass :=
  SClass "core.VisibleString" ["core.AbstractString"] None (Some 26)
    None
    None
    None.

(* asn1crypto/core.py:5193-5200 *)
Definition class_core_GeneralString : sclass :=
  SClass "core.GeneralString" ["core.AbstractString"] None (Some 27)
    None
    None
    None.

(* asn1crypto/core.py:5203-5209 *)
Definition class_core_UniversalString : sclass :=
  SClass "core.UniversalString" ["core.AbstractString"] None (Some 28)
    None
    None
    None.

(* asn1crypto/core.py:5212-5219 *)
Definition class_core_CharacterString : sclass :=
  SClass "core.CharacterString" ["core.AbstractString"] None (Some 29)
    None
    None
    None.

(* asn1crypto/core.py:5222-5228 *)
Definition class_core_BMPString : sclass :=
  SClass "core.BMPString" ["core.AbstractString"] None (Some 30)
    None
    None
    None.

(* asn1crypto/algos.py:43-47 *)
Definition class_algos_AlgorithmIdentifier : sclass :=
  SClass "algos.AlgorithmIdentifier" ["core.Sequence"] None None
    (Some [SField "algorithm" (RClass "core.ObjectIdentifier") None None false None;
      SField "parameters" (RClass "core.Any") None None true None])
    None
    None.

(* asn1crypto/algos.py:50-104 *)
Definition class_algos__ForceNullParameters : sclass :=
  SClass "algos._ForceNullParameters" [] None None
    None
    None
    None.

(* asn1crypto/algos.py:107-121 *)
Definition class_algos_HmacAlgorithmId : sclass :=
  SClass "algos.HmacAlgorithmId" ["core.ObjectIdentifier"] None None
    None
    None
    None.

(* asn1crypto/algos.py:124-128 *)
Definition class_algos_HmacAlgorithm : sclass :=
  SClass "algos.HmacAlgorithm" ["core.Sequence"] None None
    (Some [SField "algorithm" (RClass "algos.HmacAlgorithmId") None None false None;
      SField "parameters" (RClass "core.Any") None None true None])
    None
    None.

(* asn1crypto/algos.py:131-150 *)
Definition class_algos_DigestAlgorithmId : sclass :=
  SClass "algos.DigestAlgorithmId" ["core.ObjectIdentifier"] None None
    None
    None
    None.

(* asn1crypto/algos.py:153-157 *)
Definition class_algos_DigestAlgorithm : sclass :=
  SClass "algos.DigestAlgorithm" ["algos._ForceNullParameters"; "core.Sequence"] None None
    (Some [SField "algorithm" (RClass "algos.DigestAlgorithmId") None None false None;
      SField "parameters" (RClass "core.Any") None None true None])
    None
    None.

(* asn1crypto/algos.py:161-165 *)
Definition class_algos_DigestInfo : sclass :=
  SClass "algos.DigestInfo" ["core.Sequence"] None None
    (Some [SField "digest_algorithm" (RClass "algos.DigestAlgorithm") None None false None;
      SField "digest" (RClass "core.OctetString") None None false None])
    None
    None.

(* asn1crypto/algos.py:168-171 *)
Definition class_algos_MaskGenAlgorithmId : sclass :=
  SClass "algos.MaskGenAlgorithmId" ["core.ObjectIdentifier"] None None
    None
    None
    None.

(* asn1crypto/algos.py:174-183 *)
Definition class_algos_MaskGenAlgorithm : sclass :=
  SClass "algos.MaskGenAlgorithm" ["core.Sequence"] None None
    (Some [SField "algorithm" (RClass "algos.MaskGenAlgorithmId") None None false None;
      SField "parameters" (RClass "core.Any") None None true None])
    None
    None.

(* asn1crypto/algos.py:186-189 *)
Definition class_algos_TrailerField : sclass :=
  SClass "algos.TrailerField" ["core.Integer"] None None
    None
    None
    None.

(* asn1crypto/algos.py:192-229 *)
Definition class_algos_RSASSAPSSParams : sclass :=
  SClass "algos.RSASSAPSSParams" ["core.Sequence"] None None
    (Some [SField "hash_algorithm" (RClass "algos.DigestAlgorithm") (Some 0) None false (Some (DDict [("algorithm", (DName "sha1"))]));
      SField "mask_gen_algorithm" (RClass "algos.MaskGenAlgorithm") (Some 1) None false (Some (DDict [("algorithm", (DName "mgf1")); ("parameters", (DDict [("algorithm", (DName "sha1"))]))]));
      SField "salt_length" (RClass "core.Integer") (Some 2) None false (Some (DNum 20));
      SField "trailer_field" (RClass "algos.TrailerField") (Some 3) None false (Some (DName "trailer_field_bc"))])
    None
    None.

(* asn1crypto/algos.py:232-336 *)
Definition class_algos_SignedDigestAlgorithmId : sclass :=
  SClass "algos.SignedDigestAlgorithmId" ["core.ObjectIdentifier"] None None
    None
    None
    None.

(* asn1crypto/algos.py:339-520 *)
Definition class_algos_SignedDigestAlgorithm : sclass :=
  SClass "algos.SignedDigestAlgorithm" ["algos._ForceNullParameters"; "core.Sequence"] None None
    (Some [SField "algorithm" (RClass "algos.SignedDigestAlgorithmId") None None false None;
      SField "parameters" (RClass "core.Any") None None true None])
    None
    None.

(* asn1crypto/algos.py:523-527 *)
Definition class_algos_Pbkdf2Salt : sclass :=
  SClass "algos.Pbkdf2Salt" ["core.Choice"] None None
    None
    (Some [SField "specified" (RClass "core.OctetString") None None false None;
      SField "other_source" (RClass "algos.AlgorithmIdentifier") None None false None])
    None.

(* asn1crypto/algos.py:530-536 *)
Definition class_algos_Pbkdf2Params : sclass :=
  SClass "algos.Pbkdf2Params" ["core.Sequence"] None None
    (Some [SField "salt" (RClass "algos.Pbkdf2Salt") None None false None;
      SField "iteration_count" (RClass "core.Integer") None None false None;
      SField "key_length" (RClass "core.Integer") None None true None;
      SField "prf" (RClass "algos.HmacAlgorithm") None None false (Some (DDict [("algorithm", (DName "sha1"))]))])
    None
    None.

(* asn1crypto/algos.py:539-547 *)
Definition class_algos_ScryptParams : sclass :=
  SClass "algos.ScryptParams" ["core.Sequence"] None None
    (Some [SField "salt" (RClass "core.OctetString") None None false None;
      SField "cost_parameter" (RClass "core.Integer") None None false None;
      SField "block_size" (RClass "core.Integer") None None false None;
      SField "parallelization_parameter" (RClass "core.Integer") None None false None;
      SField "key_length" (RClass "core.Integer") None None true None])
    None
    None.

(* asn1crypto/algos.py:550-554 *)
Definition class_algos_KdfAlgorithmId : sclass :=
  SClass "algos.KdfAlgorithmId" ["core.ObjectIdentifier"] None None
    None
    None
    None.

(* asn1crypto/algos.py:557-566 *)
Definition class_algos_KdfAlgorithm : sclass :=
  SClass "algos.KdfAlgorithm" ["core.Sequence"] None None
    (Some [SField "algorithm" (RClass "algos.KdfAlgorithmId") None None false None;
      SField "parameters" (RClass "core.Any") None None true None])
    None
    None.

(* asn1crypto/algos.py:569-579 *)
Definition class_algos_DHParameters : sclass :=
  SClass "algos.DHParameters" ["core.Sequence"] None None
    (Some [SField "p" (RClass "core.Integer") None None false None;
      SField "g" (RClass "core.Integer") None None false None;
      SField "private_value_length" (RClass "core.Integer") None None true None])
    None
    None.

(* asn1crypto/algos.py:582-585 *)
Definition class_algos_KeyExchangeAlgorithmId : sclass :=
  SClass "algos.KeyExchangeAlgorithmId" ["core.ObjectIdentifier"] None None
    None
    None
    None.

(* asn1crypto/algos.py:588-596 *)
Definition class_algos_KeyExchangeAlgorithm : sclass :=
  SClass "algos.KeyExchangeAlgorithm" ["core.Sequence"] None None
    (Some [SField "algorithm" (RClass "algos.KeyExchangeAlgorithmId") None None false None;
      SField "parameters" (RClass "core.Any") None None true None])
    None
    None.

(* asn1crypto/algos.py:599-603 *)
Definition class_algos_Rc2Params : sclass :=
  SClass "algos.Rc2Params" ["core.Sequence"] None None
    (Some [SField "rc2_parameter_version" (RClass "core.Integer") None None true None;
      SField "iv" (RClass "core.OctetString") None None false None])
    None
    None.

(* asn1crypto/algos.py:606-609 *)
Definition class_algos_Rc5ParamVersion : sclass :=
  SClass "algos.Rc5ParamVersion" ["core.Integer"] None None
    None
    None
    None.

(* asn1crypto/algos.py:612-618 *)
Definition class_algos_Rc5Params : sclass :=
  SClass "algos.Rc5Params" ["core.Sequence"] None None
    (Some [SField "version" (RClass "algos.Rc5ParamVersion") None None false None;
      SField "rounds" (RClass "core.Integer") None None false None;
      SField "block_size_in_bits" (RClass "core.Integer") None None false None;
      SField "iv" (RClass "core.OctetString") None None true None])
    None
    None.

(* asn1crypto/algos.py:621-625 *)
Definition class_algos_Pbes1Params : sclass :=
  SClass "algos.Pbes1Params" ["core.Sequence"] None None
    (Some [SField "salt" (RClass "core.OctetString") None None false None;
      SField "iterations" (RClass "core.Integer") None None false None])
    None
    None.

(* asn1crypto/algos.py:628-634 *)
Definition class_algos_CcmParams : sclass :=
  SClass "algos.CcmParams" ["core.Sequence"] None None
    (Some [SField "aes_nonce" (RClass "core.OctetString") None None false None;
      SField "aes_icvlen" (RClass "core.Integer") None None false None])
    None
    None.

(* asn1crypto/algos.py:637-640 *)
Definition class_algos_PSourceAlgorithmId : sclass :=
  SClass "algos.PSourceAlgorithmId" ["core.ObjectIdentifier"] None None
    None
    None
    None.

(* asn1crypto/algos.py:643-652 *)
Definition class_algos_PSourceAlgorithm : sclass :=
  SClass "algos.PSourceAlgorithm" ["core.Sequence"] None None
    (Some [SField "algorithm" (RClass "algos.PSourceAlgorithmId") None None false None;
      SField "parameters" (RClass "core.Any") None None true None])
    None
    None.

(* asn1crypto/algos.py:655-687 *)
Definition class_algos_RSAESOAEPParams : sclass :=
  SClass "algos.RSAESOAEPParams" ["core.Sequence"] None None
    (Some [SField "hash_algorithm" (RClass "algos.DigestAlgorithm") (Some 0) None false (Some (DDict [("algorithm", (DName "sha1"))]));
      SField "mask_gen_algorithm" (RClass "algos.MaskGenAlgorithm") (Some 1) None false (Some (DDict [("algorithm", (DName "mgf1")); ("parameters", (DDict [("algorithm", (DName "sha1"))]))]));
      SField "p_source_algorithm" (RClass "algos.PSourceAlgorithm") (Some 2) None false (Some (DDict [("algorithm", (DName "p_specified")); ("parameters", (DBytes []))]))])
    None
    None.

(* asn1crypto/algos.py:690-747 *)
Definition class_algos_DSASignature : sclass :=
  SClass "algos.DSASignature" ["core.Sequence"] None None
    (Some [SField "r" (RClass "core.Integer") None None false None;
      SField "s" (RClass "core.Integer") None None false None])
    None
    None.

(* asn1crypto/algos.py:750-800 *)
Definition class_algos_EncryptionAlgorithmId : sclass :=
  SClass "algos.EncryptionAlgorithmId" ["core.ObjectIdentifier"] None None
    None
    None
    None.

(* asn1crypto/algos.py:803-1279 *)
Definition class_algos_EncryptionAlgorithm : sclass :=
  SClass "algos.EncryptionAlgorithm" ["algos._ForceNullParameters"; "core.Sequence"] None None
    (Some [SField "algorithm" (RClass "algos.EncryptionAlgorithmId") None None false None;
      SField "parameters" (RClass "core.Any") None None true None])
    None
    None.

(* asn1crypto/algos.py:1282-1286 *)
Definition class_algos_Pbes2Params : sclass :=
  SClass "algos.Pbes2Params" ["core.Sequence"] None None
    (Some [SField "key_derivation_func" (RClass "algos.KdfAlgorithm") None None false None;
      SField "encryption_scheme" (RClass "algos.EncryptionAlgorithm") None None false None])
    None
    None.

(* asn1crypto/algos.py:1289-1293 *)
Definition class_algos_Pbmac1Params : sclass :=
  SClass "algos.Pbmac1Params" ["core.Sequence"] None None
    (Some [SField "key_derivation_func" (RClass "algos.KdfAlgorithm") None None false None;
      SField "message_auth_scheme" (RClass "algos.HmacAlgorithm") None None false None])
    None
    None.

(* asn1crypto/algos.py:1296-1299 *)
Definition class_algos_Pkcs5MacId : sclass :=
  SClass "algos.Pkcs5MacId" ["core.ObjectIdentifier"] None None
    None
    None
    None.

(* asn1crypto/algos.py:1302-1311 *)
Definition class_algos_Pkcs5MacAlgorithm : sclass :=
  SClass "algos.Pkcs5MacAlgorithm" ["core.Sequence"] None None
    (Some [SField "algorithm" (RClass "algos.Pkcs5MacId") None None false None;
      SField "parameters" (RClass "core.Any") None None false None])
    None
    None.

(* asn1crypto/algos.py:1317-1324 *)
Definition class_algos_AnyAlgorithmId : sclass :=
  SClass "algos.AnyAlgorithmId" ["core.ObjectIdentifier"] None None
    None
    None
    None.

(* asn1crypto/algos.py:1327-1341 *)
Definition class_algos_AnyAlgorithmIdentifier : sclass :=
  SClass "algos.AnyAlgorithmIdentifier" ["algos._ForceNullParameters"; "core.Sequence"] None None
    (Some [SField "algorithm" (RClass "algos.AnyAlgorithmId") None None false None;
      SField "parameters" (RClass "core.Any") None None true None])
    None
    None.

(* asn1crypto/keys.py:45-54 *)
Definition class_keys_OtherPrimeInfo : sclass :=
  SClass "keys.OtherPrimeInfo" ["core.Sequence"] None None
    (Some [SField "prime" (RClass "core.Integer") None None false None;
      SField "exponent" (RClass "core.Integer") None None false None;
      SField "coefficient" (RClass "core.Integer") None None false None])
    None
    None.

(* asn1crypto/keys.py:57-62 *)
Definition class_keys_OtherPrimeInfos : sclass :=
  SClass "keys.OtherPrimeInfos" ["core.SequenceOf"] None None
    None
    None
    (Some "keys.OtherPrimeInfo").

(* asn1crypto/keys.py:65-74 *)
Definition class_keys_RSAPrivateKeyVersion : sclass :=
  SClass "keys.RSAPrivateKeyVersion" ["core.Integer"] None None
    None
    None
    None.

(* asn1crypto/keys.py:77-93 *)
Definition class_keys_RSAPrivateKey : sclass :=
  SClass "keys.RSAPrivateKey" ["core.Sequence"] None None
    (Some [SField "version" (RClass "keys.RSAPrivateKeyVersion") None None false None;
      SField "modulus" (RClass "core.Integer") None None false None;
      SField "public_exponent" (RClass "core.Integer") None None false None;
      SField "private_exponent" (RClass "core.Integer") None None false None;
      SField "prime1" (RClass "core.Integer") None None false None;
      SField "prime2" (RClass "core.Integer") None None false None;
      SField "exponent1" (RClass "core.Integer") None None false None;
      SField "exponent2" (RClass "core.Integer") None None false None;
      SField "coefficient" (RClass "core.Integer") None None false None;
      SField "other_prime_infos" (RClass "keys.OtherPrimeInfos") None None true None])
    None
    None.

(* asn1crypto/keys.py:96-104 *)
Definition class_keys_RSAPublicKey : sclass :=
  SClass "keys.RSAPublicKey" ["core.Sequence"] None None
    (Some [SField "modulus" (RClass "core.Integer") None None false None;
      SField "public_exponent" (RClass "core.Integer") None None false None])
    None
    None.

(* asn1crypto/keys.py:107-124 *)
Definition class_keys_DSAPrivateKey : sclass :=
  SClass "keys.DSAPrivateKey" ["core.Sequence"] None None
    (Some [SField "version" (RClass "core.Integer") None None false None;
      SField "p" (RClass "core.Integer") None None false None;
      SField "q" (RClass "core.Integer") None None false None;
      SField "g" (RClass "core.Integer") None None false None;
      SField "public_key" (RClass "core.Integer") None None false None;
      SField "private_key" (RClass "core.Integer") None None false None])
    None
    None.

(* asn1crypto/keys.py:127-194 *)
Definition class_keys__ECPoint : sclass :=
  SClass "keys._ECPoint" [] None None
    None
    None
    None.

(* asn1crypto/keys.py:197-199 *)
Definition class_keys_ECPoint : sclass :=
  SClass "keys.ECPoint" ["core.OctetString"; "keys._ECPoint"] None None
    None
    None
    None.

(* asn1crypto/keys.py:202-204 *)
Definition class_keys_ECPointBitString : sclass :=
  SClass "keys.ECPointBitString" ["core.OctetBitString"; "keys._ECPoint"] None None
    None
    None
    None.

(* asn1crypto/keys.py:207-215 *)
Definition class_keys_SpecifiedECDomainVersion : sclass :=
  SClass "keys.SpecifiedECDomainVersion" ["core.Integer"] None None
    None
    None
    None.

(* asn1crypto/keys.py:218-227 *)
Definition class_keys_FieldType : sclass :=
  SClass "keys.FieldType" ["core.ObjectIdentifier"] None None
    None
    None
    None.

(* asn1crypto/keys.py:230-240 *)
Definition class_keys_CharacteristicTwoBasis : sclass :=
  SClass "keys.CharacteristicTwoBasis" ["core.ObjectIdentifier"] None None
    None
    None
    None.

(* asn1crypto/keys.py:243-252 *)
Definition class_keys_Pentanomial : sclass :=
  SClass "keys.Pentanomial" ["core.Sequence"] None None
    (Some [SField "k1" (RClass "core.Integer") None None false None;
      SField "k2" (RClass "core.Integer") None None false None;
      SField "k3" (RClass "core.Integer") None None false None])
    None
    None.

(* asn1crypto/keys.py:255-272 *)
Definition class_keys_CharacteristicTwo : sclass :=
  SClass "keys.CharacteristicTwo" ["core.Sequence"] None None
    (Some [SField "m" (RClass "core.Integer") None None false None;
      SField "basis" (RClass "keys.CharacteristicTwoBasis") None None false None;
      SField "parameters" (RClass "core.Any") None None false None])
    None
    None.

(* asn1crypto/keys.py:275-289 *)
Definition class_keys_FieldID : sclass :=
  SClass "keys.FieldID" ["core.Sequence"] None None
    (Some [SField "field_type" (RClass "keys.FieldType") None None false None;
      SField "parameters" (RClass "core.Any") None None false None])
    None
    None.

(* asn1crypto/keys.py:292-301 *)
Definition class_keys_Curve : sclass :=
  SClass "keys.Curve" ["core.Sequence"] None None
    (Some [SField "a" (RClass "core.OctetString") None None false None;
      SField "b" (RClass "core.OctetString") None None false None;
      SField "seed" (RClass "core.OctetBitString") None None true None])
    None
    None.

(* asn1crypto/keys.py:304-317 *)
Definition class_keys_SpecifiedECDomain : sclass :=
  SClass "keys.SpecifiedECDomain" ["core.Sequence"] None None
    (Some [SField "version" (RClass "keys.SpecifiedECDomainVersion") None None false None;
      SField "field_id" (RClass "keys.FieldID") None None false None;
      SField "curve" (RClass "keys.Curve") None None false None;
      SField "base" (RClass "keys.ECPoint") None None false None;
      SField "order" (RClass "core.Integer") None None false None;
      SField "cofactor" (RClass "core.Integer") None None true None;
      SField "hash" (RClass "algos.DigestAlgorithm") None None true None])
    None
    None.

(* asn1crypto/keys.py:320-511 *)
Definition class_keys_NamedCurve : sclass :=
  SClass "keys.NamedCurve" ["core.ObjectIdentifier"] None None
    None
    None
    None.

(* asn1crypto/keys.py:514-548 *)
Definition class_keys_ECDomainParameters : sclass :=
  SClass "keys.ECDomainParameters" ["core.Choice"] None None
    None
    (Some [SField "specified" (RClass "keys.SpecifiedECDomain") None None false None;
      SField "named" (RClass "keys.NamedCurve") None None false None;
      SField "implicit_ca" (RClass "core.Null") None None false None])
    None.

(* asn1crypto/keys.py:551-559 *)
Definition class_keys_ECPrivateKeyVersion : sclass :=
  SClass "keys.ECPrivateKeyVersion" ["core.Integer"] None None
    None
    None
    None.

(* asn1crypto/keys.py:562-614 *)
Definition class_keys_ECPrivateKey : sclass :=
  SClass "keys.ECPrivateKey" ["core.Sequence"] None None
    (Some [SField "version" (RClass "keys.ECPrivateKeyVersion") None None false None;
      SField "private_key" (RClass "core.IntegerOctetString") None None false None;
      SField "parameters" (RClass "keys.ECDomainParameters") (Some 0) None true None;
      SField "public_key" (RClass "keys.ECPointBitString") (Some 1) None true None])
    None
    None.

(* asn1crypto/keys.py:617-641 *)
Definition class_keys_DSAParams : sclass :=
  SClass "keys.DSAParams" ["core.Sequence"] None None
    (Some [SField "p" (RClass "core.Integer") None None false None;
      SField "q" (RClass "core.Integer") None None false None;
      SField "g" (RClass "core.Integer") None None false None])
    None
    None.

(* asn1crypto/keys.py:644-652 *)
Definition class_keys_Attribute : sclass :=
  SClass "keys.Attribute" ["core.Sequence"] None None
    (Some [SField "type" (RClass "core.ObjectIdentifier") None None false None;
      SField "values" (ROf "core.SetOf" "core.Any") None None false None])
    None
    None.

(* asn1crypto/keys.py:655-660 *)
Definition class_keys_Attributes : sclass :=
  SClass "keys.Attributes" ["core.SetOf"] None None
    None
    None
    (Some "keys.Attribute").

(* asn1crypto/keys.py:663-686 *)
Definition class_keys_PrivateKeyAlgorithmId : sclass :=
  SClass "keys.PrivateKeyAlgorithmId" ["core.ObjectIdentifier"] None None
    None
    None
    None.

(* asn1crypto/keys.py:689-705 *)
Definition class_keys_PrivateKeyAlgorithm : sclass :=
  SClass "keys.PrivateKeyAlgorithm" ["algos._ForceNullParameters"; "core.Sequence"] None None
    (Some [SField "algorithm" (RClass "keys.PrivateKeyAlgorithmId") None None false None;
      SField "parameters" (RClass "core.Any") None None true None])
    None
    None.

(* asn1crypto/keys.py:708-983 *)
Definition class_keys_PrivateKeyInfo : sclass :=
  SClass "keys.PrivateKeyInfo" ["core.Sequence"] None None
    (Some [SField "version" (RClass "core.Integer") None None false None;
      SField "private_key_algorithm" (RClass "keys.PrivateKeyAlgorithm") None None false None;
      SField "private_key" (RClass "core.ParsableOctetString") None None false None;
      SField "attributes" (RClass "keys.Attributes") None (Some 0) true None])
    None
    None.

(* asn1crypto/keys.py:986-994 *)
Definition class_keys_EncryptedPrivateKeyInfo : sclass :=
  SClass "keys.EncryptedPrivateKeyInfo" ["core.Sequence"] None None
    (Some [SField "encryption_algorithm" (RClass "algos.EncryptionAlgorithm") None None false None;
      SField "encrypted_data" (RClass "core.OctetString") None None false None])
    None
    None.

(* asn1crypto/keys.py:999-1007 *)
Definition class_keys_ValidationParms : sclass :=
  SClass "keys.ValidationParms" ["core.Sequence"] None None
    (Some [SField "seed" (RClass "core.BitString") None None false None;
      SField "pgen_counter" (RClass "core.Integer") None None false None])
    None
    None.

(* asn1crypto/keys.py:1010-1021 *)
Definition class_keys_DomainParameters : sclass :=
  SClass "keys.DomainParameters" ["core.Sequence"] None None
    (Some [SField "p" (RClass "core.Integer") None None false None;
      SField "g" (RClass "core.Integer") None None false None;
      SField "q" (RClass "core.Integer") None None false None;
      SField "j" (RClass "core.Integer") None None true None;
      SField "validation_params" (RClass "keys.ValidationParms") None None true None])
    None
    None.

(* asn1crypto/keys.py:1024-1048 *)
Definition class_keys_PublicKeyAlgorithmId : sclass :=
  SClass "keys.PublicKeyAlgorithmId" ["core.ObjectIdentifier"] None None
    None
    None
    None.

(* asn1crypto/keys.py:1051-1069 *)
Definition class_keys_PublicKeyAlgorithm : sclass :=
  SClass "keys.PublicKeyAlgorithm" ["algos._ForceNullParameters"; "core.Sequence"] None None
    (Some [SField "algorithm" (RClass "keys.PublicKeyAlgorithmId") None None false None;
      SField "parameters" (RClass "core.Any") None None true None])
    None
    None.

(* asn1crypto/keys.py:1072-1313 *)
Definition class_keys_PublicKeyInfo : sclass :=
  SClass "keys.PublicKeyInfo" ["core.Sequence"] None None
    (Some [SField "algorithm" (RClass "keys.PublicKeyAlgorithm") None None false None;
      SField "public_key" (RClass "core.ParsableOctetBitString") None None false None])
    None
    None.

(* asn1crypto/x509.py:71-121 *)
Definition class_x509_DNSName : sclass :=
  SClass "x509.DNSName" ["core.IA5String"] None None
    None
    None
    None.

(* asn1crypto/x509.py:124-178 *)
Definition class_x509_URI : sclass :=
  SClass "x509.URI" ["core.IA5String"] None None
    None
    None
    None.

(* asn1crypto/x509.py:181-291 *)
Definition class_x509_EmailAddress : sclass :=
  SClass "x509.EmailAddress" ["core.IA5String"] None None
    None
    None
    None.

(* asn1crypto/x509.py:294-424 *)
Definition class_x509_IPAddress : sclass :=
  SClass "x509.IPAddress" ["core.OctetString"] None None
    None
    None
    None.

(* asn1crypto/x509.py:427-431 *)
Definition class_x509_Attribute : sclass :=
  SClass "x509.Attribute" ["core.Sequence"] None None
    (Some [SField "type" (RClass "core.ObjectIdentifier") None None false None;
      SField "values" (ROf "core.SetOf" "core.Any") None None false None])
    None
    None.

(* asn1crypto/x509.py:434-435 *)
Definition class_x509_Attributes : sclass :=
  SClass "x509.Attributes" ["core.SequenceOf"] None None
    None
    None
    (Some "x509.Attribute").

(* asn1crypto/x509.py:438-449 *)
Definition class_x509_KeyUsage : sclass :=
  SClass "x509.KeyUsage" ["core.BitString"] None None
    None
    None
    None.

(* asn1crypto/x509.py:452-456 *)
Definition class_x509_PrivateKeyUsagePeriod : sclass :=
  SClass "x509.PrivateKeyUsagePeriod" ["core.Sequence"] None None
    (Some [SField "not_before" (RClass "core.GeneralizedTime") None (Some 0) true None;
      SField "not_after" (RClass "core.GeneralizedTime") None (Some 1) true None])
    None
    None.

(* asn1crypto/x509.py:459-480 *)
Definition class_x509_NotReallyTeletexString : sclass :=
  SClass "x509.NotReallyTeletexString" ["core.TeletexString"] None None
    None
    None
    None.

(* asn1crypto/x509.py:492-501 *)
Definition class_x509_DirectoryString : sclass :=
  SClass "x509.DirectoryString" ["core.Choice"] None None
    None
    (Some [SField "teletex_string" (RClass "x509.NotReallyTeletexString") None None false None;
      SField "printable_string" (RClass "core.PrintableString") None None false None;
      SField "universal_string" (RClass "core.UniversalString") None None false None;
      SField "utf8_string" (RClass "core.UTF8String") None None false None;
      SField "bmp_string" (RClass "core.BMPString") None None false None;
      SField "ia5_string" (RClass "core.IA5String") None None false None])
    None.

(* asn1crypto/x509.py:504-649 *)
Definition class_x509_NameType : sclass :=
  SClass "x509.NameType" ["core.ObjectIdentifier"] None None
    None
    None
    None.

(* asn1crypto/x509.py:652-848 *)
Definition class_x509_NameTypeAndValue : sclass :=
  SClass "x509.NameTypeAndValue" ["core.Sequence"] None None
    (Some [SField "type" (RClass "x509.NameType") None None false None;
      SField "value" (RClass "core.Any") None None false None])
    None
    None.

(* asn1crypto/x509.py:851-933 *)
Definition class_x509_RelativeDistinguishedName : sclass :=
  SClass "x509.RelativeDistinguishedName" ["core.SetOf"] None None
    None
    None
    (Some "x509.NameTypeAndValue").

(* asn1crypto/x509.py:936-975 *)
Definition class_x509_RDNSequence : sclass :=
  SClass "x509.RDNSequence" ["core.SequenceOf"] None None
    None
    None
    (Some "x509.RelativeDistinguishedName").

(* asn1crypto/x509.py:978-1182 *)
Definition class_x509_Name : sclass :=
  SClass "x509.Name" ["core.Choice"] None None
    None
    (Some [SField "" (RClass "x509.RDNSequence") None None false None])
    None.

(* asn1crypto/x509.py:1185-1189 *)
Definition class_x509_AnotherName : sclass :=
  SClass "x509.AnotherName" ["core.Sequence"] None None
    (Some [SField "type_id" (RClass "core.ObjectIdentifier") None None false None;
      SField "value" (RClass "core.Any") (Some 0) None false None])
    None
    None.

(* asn1crypto/x509.py:1192-1199 *)
Definition class_x509_CountryName : sclass :=
  SClass "x509.CountryName" ["core.Choice"] (Some 1) (Some 1)
    None
    (Some [SField "x121_dcc_code" (RClass "core.NumericString") None None false None;
      SField "iso_3166_alpha2_code" (RClass "core.PrintableString") None None false None])
    None.

(* asn1crypto/x509.py:1202-1209 *)
Definition class_x509_AdministrationDomainName : sclass :=
  SClass "x509.AdministrationDomainName" ["core.Choice"] (Some 1) (Some 2)
    None
    (Some [SField "numeric" (RClass "core.NumericString") None None false None;
      SField "printable" (RClass "core.PrintableString") None None false None])
    None.

(* asn1crypto/x509.py:1212-1216 *)
Definition class_x509_PrivateDomainName : sclass :=
  SClass "x509.PrivateDomainName" ["core.Choice"] None None
    None
    (Some [SField "numeric" (RClass "core.NumericString") None None false None;
      SField "printable" (RClass "core.PrintableString") None None false None])
    None.

(* asn1crypto/x509.py:1219-1225 *)
Definition class_x509_PersonalName : sclass :=
  SClass "x509.PersonalName" ["core.Set"] None None
    (Some [SField "surname" (RClass "core.PrintableString") None (Some 0) false None;
      SField "given_name" (RClass "core.PrintableString") None (Some 1) true None;
      SField "initials" (RClass "core.PrintableString") None (Some 2) true None;
      SField "generation_qualifier" (RClass "core.PrintableString") None (Some 3) true None])
    None
    None.

(* asn1crypto/x509.py:1228-1234 *)
Definition class_x509_TeletexPersonalName : sclass :=
  SClass "x509.TeletexPersonalName" ["core.Set"] None None
    (Some [SField "surname" (RClass "core.TeletexString") None (Some 0) false None;
      SField "given_name" (RClass "core.TeletexString") None (Some 1) true None;
      SField "initials" (RClass "core.TeletexString") None (Some 2) true None;
      SField "generation_qualifier" (RClass "core.TeletexString") None (Some 3) true None])
    None
    None.

(* asn1crypto/x509.py:1237-1238 *)
Definition class_x509_OrganizationalUnitNames : sclass :=
  SClass "x509.OrganizationalUnitNames" ["core.SequenceOf"] None None
    None
    None
    (Some "core.PrintableString").

(* asn1crypto/x509.py:1241-1242 *)
Definition class_x509_TeletexOrganizationalUnitNames : sclass :=
  SClass "x509.TeletexOrganizationalUnitNames" ["core.SequenceOf"] None None
    None
    None
    (Some "core.TeletexString").

(* asn1crypto/x509.py:1245-1256 *)
Definition class_x509_BuiltInStandardAttributes : sclass :=
  SClass "x509.BuiltInStandardAttributes" ["core.Sequence"] None None
    (Some [SField "country_name" (RClass "x509.CountryName") None None true None;
      SField "administration_domain_name" (RClass "x509.AdministrationDomainName") None None true None;
      SField "network_address" (RClass "core.NumericString") None (Some 0) true None;
      SField "terminal_identifier" (RClass "core.PrintableString") None (Some 1) true None;
      SField "private_domain_name" (RClass "x509.PrivateDomainName") (Some 2) None true None;
      SField "organization_name" (RClass "core.PrintableString") None (Some 3) true None;
      SField "numeric_user_identifier" (RClass "core.NumericString") None (Some 4) true None;
      SField "personal_name" (RClass "x509.PersonalName") None (Some 5) true None;
      SField "organizational_unit_names" (RClass "x509.OrganizationalUnitNames") None (Some 6) true None])
    None
    None.

(* asn1crypto/x509.py:1259-1263 *)
Definition class_x509_BuiltInDomainDefinedAttribute : sclass :=
  SClass "x509.BuiltInDomainDefinedAttribute" ["core.Sequence"] None None
    (Some [SField "type" (RClass "core.PrintableString") None None false None;
      SField "value" (RClass "core.PrintableString") None None false None])
    None
    None.

(* asn1crypto/x509.py:1266-1267 *)
Definition class_x509_BuiltInDomainDefinedAttributes : sclass :=
  SClass "x509.BuiltInDomainDefinedAttributes" ["core.SequenceOf"] None None
    None
    None
    (Some "x509.BuiltInDomainDefinedAttribute").

(* asn1crypto/x509.py:1270-1274 *)
Definition class_x509_TeletexDomainDefinedAttribute : sclass :=
  SClass "x509.TeletexDomainDefinedAttribute" ["core.Sequence"] None None
    (Some [SField "type" (RClass "core.TeletexString") None None false None;
      SField "value" (RClass "core.TeletexString") None None false None])
    None
    None.

(* asn1crypto/x509.py:1277-1278 *)
Definition class_x509_TeletexDomainDefinedAttributes : sclass :=
  SClass "x509.TeletexDomainDefinedAttributes" ["core.SequenceOf"] None None
    None
    None
    (Some "x509.TeletexDomainDefinedAttribute").

(* asn1crypto/x509.py:1281-1285 *)
Definition class_x509_PhysicalDeliveryCountryName : sclass :=
  SClass "x509.PhysicalDeliveryCountryName" ["core.Choice"] None None
    None
    (Some [SField "x121_dcc_code" (RClass "core.NumericString") None None false None;
      SField "iso_3166_alpha2_code" (RClass "core.PrintableString") None None false None])
    None.

(* asn1crypto/x509.py:1288-1292 *)
Definition class_x509_PostalCode : sclass :=
  SClass "x509.PostalCode" ["core.Choice"] None None
    None
    (Some [SField "numeric_code" (RClass "core.NumericString") None None false None;
      SField "printable_code" (RClass "core.PrintableString") None None false None])
    None.

(* asn1crypto/x509.py:1295-1299 *)
Definition class_x509_PDSParameter : sclass :=
  SClass "x509.PDSParameter" ["core.Set"] None None
    (Some [SField "printable_string" (RClass "core.PrintableString") None None true None;
      SField "teletex_string" (RClass "core.TeletexString") None None true None])
    None
    None.

(* asn1crypto/x509.py:1302-1303 *)
Definition class_x509_PrintableAddress : sclass :=
  SClass "x509.PrintableAddress" ["core.SequenceOf"] None None
    None
    None
    (Some "core.PrintableString").

(* asn1crypto/x509.py:1306-1310 *)
Definition class_x509_UnformattedPostalAddress : sclass :=
  SClass "x509.UnformattedPostalAddress" ["core.Set"] None None
    (Some [SField "printable_address" (RClass "x509.PrintableAddress") None None true None;
      SField "teletex_string" (RClass "core.TeletexString") None None true None])
    None
    None.

(* asn1crypto/x509.py:1313-1317 *)
Definition class_x509_E1634Address : sclass :=
  SClass "x509.E1634Address" ["core.Sequence"] None None
    (Some [SField "number" (RClass "core.NumericString") None (Some 0) false None;
      SField "sub_address" (RClass "core.NumericString") None (Some 1) true None])
    None
    None.

(* asn1crypto/x509.py:1320-1321 *)
Definition class_x509_NAddresses : sclass :=
  SClass "x509.NAddresses" ["core.SetOf"] None None
    None
    None
    (Some "core.OctetString").

(* asn1crypto/x509.py:1324-1330 *)
Definition class_x509_PresentationAddress : sclass :=
  SClass "x509.PresentationAddress" ["core.Sequence"] None None
    (Some [SField "p_selector" (RClass "core.OctetString") (Some 0) None true None;
      SField "s_selector" (RClass "core.OctetString") (Some 1) None true None;
      SField "t_selector" (RClass "core.OctetString") (Some 2) None true None;
      SField "n_addresses" (RClass "x509.NAddresses") (Some 3) None false None])
    None
    None.

(* asn1crypto/x509.py:1333-1337 *)
Definition class_x509_ExtendedNetworkAddress : sclass :=
  SClass "x509.ExtendedNetworkAddress" ["core.Choice"] None None
    None
    (Some [SField "e163_4_address" (RClass "x509.E1634Address") None None false None;
      SField "psap_address" (RClass "x509.PresentationAddress") None (Some 0) false None])
    None.

(* asn1crypto/x509.py:1340-1348 *)
Definition class_x509_TerminalType : sclass :=
  SClass "x509.TerminalType" ["core.Integer"] None None
    None
    None
    None.

(* asn1crypto/x509.py:1351-1376 *)
Definition class_x509_ExtensionAttributeType : sclass :=
  SClass "x509.ExtensionAttributeType" ["core.Integer"] None None
    None
    None
    None.

(* asn1crypto/x509.py:1379-1410 *)
Definition class_x509_ExtensionAttribute : sclass :=
  SClass "x509.ExtensionAttribute" ["core.Sequence"] None None
    (Some [SField "extension_attribute_type" (RClass "x509.ExtensionAttributeType") None (Some 0) false None;
      SField "extension_attribute_value" (RClass "core.Any") (Some 1) None false None])
    None
    None.

(* asn1crypto/x509.py:1413-1414 *)
Definition class_x509_ExtensionAttributes : sclass :=
  SClass "x509.ExtensionAttributes" ["core.SequenceOf"] None None
    None
    None
    (Some "x509.ExtensionAttribute").

(* asn1crypto/x509.py:1417-1422 *)
Definition class_x509_ORAddress : sclass :=
  SClass "x509.ORAddress" ["core.Sequence"] None None
    (Some [SField "built_in_standard_attributes" (RClass "x509.BuiltInStandardAttributes") None None false None;
      SField "built_in_domain_defined_attributes" (RClass "x509.BuiltInDomainDefinedAttributes") None None true None;
      SField "extension_attributes" (RClass "x509.ExtensionAttributes") None None true None])
    None
    None.

(* asn1crypto/x509.py:1425-1429 *)
Definition class_x509_EDIPartyName : sclass :=
  SClass "x509.EDIPartyName" ["core.Sequence"] None None
    (Some [SField "name_assigner" (RClass "x509.DirectoryString") None (Some 0) true None;
      SField "party_name" (RClass "x509.DirectoryString") None (Some 1) false None])
    None
    None.

(* asn1crypto/x509.py:1432-1479 *)
Definition class_x509_GeneralName : sclass :=
  SClass "x509.GeneralName" ["core.Choice"] None None
    None
    (Some [SField "other_name" (RClass "x509.AnotherName") None (Some 0) false None;
      SField "rfc822_name" (RClass "x509.EmailAddress") None (Some 1) false None;
      SField "dns_name" (RClass "x509.DNSName") None (Some 2) false None;
      SField "x400_address" (RClass "x509.ORAddress") None (Some 3) false None;
      SField "directory_name" (RClass "x509.Name") (Some 4) None false None;
      SField "edi_party_name" (RClass "x509.EDIPartyName") None (Some 5) false None;
      SField "uniform_resource_identifier" (RClass "x509.URI") None (Some 6) false None;
      SField "ip_address" (RClass "x509.IPAddress") None (Some 7) false None;
      SField "registered_id" (RClass "core.ObjectIdentifier") None (Some 8) false None])
    None.

(* asn1crypto/x509.py:1482-1483 *)
Definition class_x509_GeneralNames : sclass :=
  SClass "x509.GeneralNames" ["core.SequenceOf"] None None
    None
    None
    (Some "x509.GeneralName").

(* asn1crypto/x509.py:1486-1490 *)
Definition class_x509_Time : sclass :=
  SClass "x509.Time" ["core.Choice"] None None
    None
    (Some [SField "utc_time" (RClass "core.UTCTime") None None false None;
      SField "general_time" (RClass "core.GeneralizedTime") None None false None])
    None.

(* asn1crypto/x509.py:1493-1497 *)
Definition class_x509_Validity : sclass :=
  SClass "x509.Validity" ["core.Sequence"] None None
    (Some [SField "not_before" (RClass "x509.Time") None None false None;
      SField "not_after" (RClass "x509.Time") None None false None])
    None
    None.

(* asn1crypto/x509.py:1500-1504 *)
Definition class_x509_BasicConstraints : sclass :=
  SClass "x509.BasicConstraints" ["core.Sequence"] None None
    (Some [SField "ca" (RClass "core.Boolean") None None false (Some (DBool false));
      SField "path_len_constraint" (RClass "core.Integer") None None true None])
    None
    None.

(* asn1crypto/x509.py:1507-1512 *)
Definition class_x509_AuthorityKeyIdentifier : sclass :=
  SClass "x509.AuthorityKeyIdentifier" ["core.Sequence"] None None
    (Some [SField "key_identifier" (RClass "core.OctetString") None (Some 0) true None;
      SField "authority_cert_issuer" (RClass "x509.GeneralNames") None (Some 1) true None;
      SField "authority_cert_serial_number" (RClass "core.Integer") None (Some 2) true None])
    None
    None.

(* asn1crypto/x509.py:1515-1519 *)
Definition class_x509_DistributionPointName : sclass :=
  SClass "x509.DistributionPointName" ["core.Choice"] None None
    None
    (Some [SField "full_name" (RClass "x509.GeneralNames") None (Some 0) false None;
      SField "name_relative_to_crl_issuer" (RClass "x509.RelativeDistinguishedName") None (Some 1) false None])
    None.

(* asn1crypto/x509.py:1522-1533 *)
Definition class_x509_ReasonFlags : sclass :=
  SClass "x509.ReasonFlags" ["core.BitString"] None None
    None
    None
    None.

(* asn1crypto/x509.py:1536-1541 *)
Definition class_x509_GeneralSubtree : sclass :=
  SClass "x509.GeneralSubtree" ["core.Sequence"] None None
    (Some [SField "base" (RClass "x509.GeneralName") None None false None;
      SField "minimum" (RClass "core.Integer") None (Some 0) false (Some (DNum 0));
      SField "maximum" (RClass "core.Integer") None (Some 1) true None])
    None
    None.

(* asn1crypto/x509.py:1544-1545 *)
Definition class_x509_GeneralSubtrees : sclass :=
  SClass "x509.GeneralSubtrees" ["core.SequenceOf"] None None
    None
    None
    (Some "x509.GeneralSubtree").

(* asn1crypto/x509.py:1548-1552 *)
Definition class_x509_NameConstraints : sclass :=
  SClass "x509.NameConstraints" ["core.Sequence"] None None
    (Some [SField "permitted_subtrees" (RClass "x509.GeneralSubtrees") None (Some 0) true None;
      SField "excluded_subtrees" (RClass "x509.GeneralSubtrees") None (Some 1) true None])
    None
    None.

(* asn1crypto/x509.py:1555-1589 *)
Definition class_x509_DistributionPoint : sclass :=
  SClass "x509.DistributionPoint" ["core.Sequence"] None None
    (Some [SField "distribution_point" (RClass "x509.DistributionPointName") (Some 0) None true None;
      SField "reasons" (RClass "x509.ReasonFlags") None (Some 1) true None;
      SField "crl_issuer" (RClass "x509.GeneralNames") None (Some 2) true None])
    None
    None.

(* asn1crypto/x509.py:1592-1593 *)
Definition class_x509_CRLDistributionPoints : sclass :=
  SClass "x509.CRLDistributionPoints" ["core.SequenceOf"] None None
    None
    None
    (Some "x509.DistributionPoint").

(* asn1crypto/x509.py:1596-1602 *)
Definition class_x509_DisplayText : sclass :=
  SClass "x509.DisplayText" ["core.Choice"] None None
    None
    (Some [SField "ia5_string" (RClass "core.IA5String") None None false None;
      SField "visible_string" (RClass "core.VisibleString") None None false None;
      SField "bmp_string" (RClass "core.BMPString") None None false None;
      SField "utf8_string" (RClass "core.UTF8String") None None false None])
    None.

(* asn1crypto/x509.py:1605-1606 *)
Definition class_x509_NoticeNumbers : sclass :=
  SClass "x509.NoticeNumbers" ["core.SequenceOf"] None None
    None
    None
    (Some "core.Integer").

(* asn1crypto/x509.py:1609-1613 *)
Definition class_x509_NoticeReference : sclass :=
  SClass "x509.NoticeReference" ["core.Sequence"] None None
    (Some [SField "organization" (RClass "x509.DisplayText") None None false None;
      SField "notice_numbers" (RClass "x509.NoticeNumbers") None None false None])
    None
    None.

(* asn1crypto/x509.py:1616-1620 *)
Definition class_x509_UserNotice : sclass :=
  SClass "x509.UserNotice" ["core.Sequence"] None None
    (Some [SField "notice_ref" (RClass "x509.NoticeReference") None None true None;
      SField "explicit_text" (RClass "x509.DisplayText") None None true None])
    None
    None.

(* asn1crypto/x509.py:1623-1627 *)
Definition class_x509_PolicyQualifierId : sclass :=
  SClass "x509.PolicyQualifierId" ["core.ObjectIdentifier"] None None
    None
    None
    None.

(* asn1crypto/x509.py:1630-1640 *)
Definition class_x509_PolicyQualifierInfo : sclass :=
  SClass "x509.PolicyQualifierInfo" ["core.Sequence"] None None
    (Some [SField "policy_qualifier_id" (RClass "x509.PolicyQualifierId") None None false None;
      SField "qualifier" (RClass "core.Any") None None false None])
    None
    None.

(* asn1crypto/x509.py:1643-1644 *)
Definition class_x509_PolicyQualifierInfos : sclass :=
  SClass "x509.PolicyQualifierInfos" ["core.SequenceOf"] None None
    None
    None
    (Some "x509.PolicyQualifierInfo").

(* asn1crypto/x509.py:1647-1650 *)
Definition class_x509_PolicyIdentifier : sclass :=
  SClass "x509.PolicyIdentifier" ["core.ObjectIdentifier"] None None
    None
    None
    None.

(* asn1crypto/x509.py:1653-1657 *)
Definition class_x509_PolicyInformation : sclass :=
  SClass "x509.PolicyInformation" ["core.Sequence"] None None
    (Some [SField "policy_identifier" (RClass "x509.PolicyIdentifier") None None false None;
      SField "policy_qualifiers" (RClass "x509.PolicyQualifierInfos") None None true None])
    None
    None.

(* asn1crypto/x509.py:1660-1661 *)
Definition class_x509_CertificatePolicies : sclass :=
  SClass "x509.CertificatePolicies" ["core.SequenceOf"] None None
    None
    None
    (Some "x509.PolicyInformation").

(* asn1crypto/x509.py:1664-1668 *)
Definition class_x509_PolicyMapping : sclass :=
  SClass "x509.PolicyMapping" ["core.Sequence"] None None
    (Some [SField "issuer_domain_policy" (RClass "x509.PolicyIdentifier") None None false None;
      SField "subject_domain_policy" (RClass "x509.PolicyIdentifier") None None false None])
    None
    None.

(* asn1crypto/x509.py:1671-1672 *)
Definition class_x509_PolicyMappings : sclass :=
  SClass "x509.PolicyMappings" ["core.SequenceOf"] None None
    None
    None
    (Some "x509.PolicyMapping").

(* asn1crypto/x509.py:1675-1679 *)
Definition class_x509_PolicyConstraints : sclass :=
  SClass "x509.PolicyConstraints" ["core.Sequence"] None None
    (Some [SField "require_explicit_policy" (RClass "core.Integer") None (Some 0) true None;
      SField "inhibit_policy_mapping" (RClass "core.Integer") None (Some 1) true None])
    None
    None.

(* asn1crypto/x509.py:1682-1791 *)
Definition class_x509_KeyPurposeId : sclass :=
  SClass "x509.KeyPurposeId" ["core.ObjectIdentifier"] None None
    None
    None
    None.

(* asn1crypto/x509.py:1794-1795 *)
Definition class_x509_ExtKeyUsageSyntax : sclass :=
  SClass "x509.ExtKeyUsageSyntax" ["core.SequenceOf"] None None
    None
    None
    (Some "x509.KeyPurposeId").

(* asn1crypto/x509.py:1798-1804 *)
Definition class_x509_AccessMethod : sclass :=
  SClass "x509.AccessMethod" ["core.ObjectIdentifier"] None None
    None
    None
    None.

(* asn1crypto/x509.py:1807-1811 *)
Definition class_x509_AccessDescription : sclass :=
  SClass "x509.AccessDescription" ["core.Sequence"] None None
    (Some [SField "access_method" (RClass "x509.AccessMethod") None None false None;
      SField "access_location" (RClass "x509.GeneralName") None None false None])
    None
    None.

(* asn1crypto/x509.py:1814-1815 *)
Definition class_x509_AuthorityInfoAccessSyntax : sclass :=
  SClass "x509.AuthorityInfoAccessSyntax" ["core.SequenceOf"] None None
    None
    None
    (Some "x509.AccessDescription").

(* asn1crypto/x509.py:1818-1819 *)
Definition class_x509_SubjectInfoAccessSyntax : sclass :=
  SClass "x509.SubjectInfoAccessSyntax" ["core.SequenceOf"] None None
    None
    None
    (Some "x509.AccessDescription").

(* asn1crypto/x509.py:1823-1824 *)
Definition class_x509_Features : sclass :=
  SClass "x509.Features" ["core.SequenceOf"] None None
    None
    None
    (Some "core.Integer").

(* asn1crypto/x509.py:1827-1831 *)
Definition class_x509_EntrustVersionInfo : sclass :=
  SClass "x509.EntrustVersionInfo" ["core.Sequence"] None None
    (Some [SField "entrust_vers" (RClass "core.GeneralString") None None false None;
      SField "entrust_info_flags" (RClass "core.BitString") None None false None])
    None
    None.

(* asn1crypto/x509.py:1834-1844 *)
Definition class_x509_NetscapeCertificateType : sclass :=
  SClass "x509.NetscapeCertificateType" ["core.BitString"] None None
    None
    None
    None.

(* asn1crypto/x509.py:1847-1852 *)
Definition class_x509_Version : sclass :=
  SClass "x509.Version" ["core.Integer"] None None
    None
    None
    None.

(* asn1crypto/x509.py:1855-1860 *)
Definition class_x509_TPMSpecification : sclass :=
  SClass "x509.TPMSpecification" ["core.Sequence"] None None
    (Some [SField "family" (RClass "core.UTF8String") None None false None;
      SField "level" (RClass "core.Integer") None None false None;
      SField "revision" (RClass "core.Integer") None None false None])
    None
    None.

(* asn1crypto/x509.py:1863-1864 *)
Definition class_x509_SetOfTPMSpecification : sclass :=
  SClass "x509.SetOfTPMSpecification" ["core.SetOf"] None None
    None
    None
    (Some "x509.TPMSpecification").

(* asn1crypto/x509.py:1867-1872 *)
Definition class_x509_TCGSpecificationVersion : sclass :=
  SClass "x509.TCGSpecificationVersion" ["core.Sequence"] None None
    (Some [SField "major_version" (RClass "core.Integer") None None false None;
      SField "minor_version" (RClass "core.Integer") None None false None;
      SField "revision" (RClass "core.Integer") None None false None])
    None
    None.

(* asn1crypto/x509.py:1875-1879 *)
Definition class_x509_TCGPlatformSpecification : sclass :=
  SClass "x509.TCGPlatformSpecification" ["core.Sequence"] None None
    (Some [SField "version" (RClass "x509.TCGSpecificationVersion") None None false None;
      SField "platform_class" (RClass "core.OctetString") None None false None])
    None
    None.

(* asn1crypto/x509.py:1882-1883 *)
Definition class_x509_SetOfTCGPlatformSpecification : sclass :=
  SClass "x509.SetOfTCGPlatformSpecification" ["core.SetOf"] None None
    None
    None
    (Some "x509.TCGPlatformSpecification").

(* asn1crypto/x509.py:1886-1892 *)
Definition class_x509_EKGenerationType : sclass :=
  SClass "x509.EKGenerationType" ["core.Enumerated"] None None
    None
    None
    None.

(* asn1crypto/x509.py:1895-1900 *)
Definition class_x509_EKGenerationLocation : sclass :=
  SClass "x509.EKGenerationLocation" ["core.Enumerated"] None None
    None
    None
    None.

(* asn1crypto/x509.py:1903-1908 *)
Definition class_x509_EKCertificateGenerationLocation : sclass :=
  SClass "x509.EKCertificateGenerationLocation" ["core.Enumerated"] None None
    None
    None
    None.

(* asn1crypto/x509.py:1911-1920 *)
Definition class_x509_EvaluationAssuranceLevel : sclass :=
  SClass "x509.EvaluationAssuranceLevel" ["core.Enumerated"] None None
    None
    None
    None.

(* asn1crypto/x509.py:1923-1928 *)
Definition class_x509_EvaluationStatus : sclass :=
  SClass "x509.EvaluationStatus" ["core.Enumerated"] None None
    None
    None
    None.

(* asn1crypto/x509.py:1931-1936 *)
Definition class_x509_StrengthOfFunction : sclass :=
  SClass "x509.StrengthOfFunction" ["core.Enumerated"] None None
    None
    None
    None.

(* asn1crypto/x509.py:1939-1944 *)
Definition class_x509_URIReference : sclass :=
  SClass "x509.URIReference" ["core.Sequence"] None None
    (Some [SField "uniform_resource_identifier" (RClass "core.IA5String") None None false None;
      SField "hash_algorithm" (RClass "algos.DigestAlgorithm") None None true None;
      SField "hash_value" (RClass "core.BitString") None None true None])
    None
    None.

(* asn1crypto/x509.py:1947-1958 *)
Definition class_x509_CommonCriteriaMeasures : sclass :=
  SClass "x509.CommonCriteriaMeasures" ["core.Sequence"] None None
    (Some [SField "version" (RClass "core.IA5String") None None false None;
      SField "assurance_level" (RClass "x509.EvaluationAssuranceLevel") None None false None;
      SField "evaluation_status" (RClass "x509.EvaluationStatus") None None false None;
      SField "plus" (RClass "core.Boolean") None None false (Some (DBool false));
      SField "strengh_of_function" (RClass "x509.StrengthOfFunction") None (Some 0) true None;
      SField "profile_oid" (RClass "core.ObjectIdentifier") None (Some 1) true None;
      SField "profile_url" (RClass "x509.URIReference") None (Some 2) true None;
      SField "target_oid" (RClass "core.ObjectIdentifier") None (Some 3) true None;
      SField "target_uri" (RClass "x509.URIReference") None (Some 4) true None])
    None
    None.

(* asn1crypto/x509.py:1961-1967 *)
Definition class_x509_SecurityLevel : sclass :=
  SClass "x509.SecurityLevel" ["core.Enumerated"] None None
    None
    None
    None.

(* asn1crypto/x509.py:1970-1975 *)
Definition class_x509_FIPSLevel : sclass :=
  SClass "x509.FIPSLevel" ["core.Sequence"] None None
    (Some [SField "version" (RClass "core.IA5String") None None false None;
      SField "level" (RClass "x509.SecurityLevel") None None false None;
      SField "plus" (RClass "core.Boolean") None None false (Some (DBool false))])
    None
    None.

(* asn1crypto/x509.py:1978-1989 *)
Definition class_x509_TPMSecurityAssertions : sclass :=
  SClass "x509.TPMSecurityAssertions" ["core.Sequence"] None None
    (Some [SField "version" (RClass "x509.Version") None None false (Some (DName "v1"));
      SField "field_upgradable" (RClass "core.Boolean") None None false (Some (DBool false));
      SField "ek_generation_type" (RClass "x509.EKGenerationType") None (Some 0) true None;
      SField "ek_generation_location" (RClass "x509.EKGenerationLocation") None (Some 1) true None;
      SField "ek_certificate_generation_location" (RClass "x509.EKCertificateGenerationLocation") None (Some 2) true None;
      SField "cc_info" (RClass "x509.CommonCriteriaMeasures") None (Some 3) true None;
      SField "fips_level" (RClass "x509.FIPSLevel") None (Some 4) true None;
      SField "iso_9000_certified" (RClass "core.Boolean") None (Some 5) false (Some (DBool false));
      SField "iso_9000_uri" (RClass "core.IA5String") None None true None])
    None
    None.

(* asn1crypto/x509.py:1992-1993 *)
Definition class_x509_SetOfTPMSecurityAssertions : sclass :=
  SClass "x509.SetOfTPMSecurityAssertions" ["core.SetOf"] None None
    None
    None
    (Some "x509.TPMSecurityAssertions").

(* asn1crypto/x509.py:1996-2012 *)
Definition class_x509_SubjectDirectoryAttributeId : sclass :=
  SClass "x509.SubjectDirectoryAttributeId" ["core.ObjectIdentifier"] None None
    None
    None
    None.

(* asn1crypto/x509.py:2015-2016 *)
Definition class_x509_SetOfGeneralizedTime : sclass :=
  SClass "x509.SetOfGeneralizedTime" ["core.SetOf"] None None
    None
    None
    (Some "core.GeneralizedTime").

(* asn1crypto/x509.py:2019-2020 *)
Definition class_x509_SetOfDirectoryString : sclass :=
  SClass "x509.SetOfDirectoryString" ["core.SetOf"] None None
    None
    None
    (Some "x509.DirectoryString").

(* asn1crypto/x509.py:2023-2024 *)
Definition class_x509_SetOfPrintableString : sclass :=
  SClass "x509.SetOfPrintableString" ["core.SetOf"] None None
    None
    None
    (Some "core.PrintableString").

(* asn1crypto/x509.py:2027-2032 *)
Definition class_x509_SupportedAlgorithm : sclass :=
  SClass "x509.SupportedAlgorithm" ["core.Sequence"] None None
    (Some [SField "algorithm_identifier" (RClass "algos.AnyAlgorithmIdentifier") None None false None;
      SField "intended_usage" (RClass "x509.KeyUsage") (Some 0) None true None;
      SField "intended_certificate_policies" (RClass "x509.CertificatePolicies") (Some 1) None true None])
    None
    None.

(* asn1crypto/x509.py:2035-2036 *)
Definition class_x509_SetOfSupportedAlgorithm : sclass :=
  SClass "x509.SetOfSupportedAlgorithm" ["core.SetOf"] None None
    None
    None
    (Some "x509.SupportedAlgorithm").

(* asn1crypto/x509.py:2039-2066 *)
Definition class_x509_SubjectDirectoryAttribute : sclass :=
  SClass "x509.SubjectDirectoryAttribute" ["core.Sequence"] None None
    (Some [SField "type" (RClass "x509.SubjectDirectoryAttributeId") None None false None;
      SField "values" (RClass "core.Any") None None false None])
    None
    None.

(* asn1crypto/x509.py:2069-2070 *)
Definition class_x509_SubjectDirectoryAttributes : sclass :=
  SClass "x509.SubjectDirectoryAttributes" ["core.SequenceOf"] None None
    None
    None
    (Some "x509.SubjectDirectoryAttribute").

(* asn1crypto/x509.py:2073-2102 *)
Definition class_x509_ExtensionId : sclass :=
  SClass "x509.ExtensionId" ["core.ObjectIdentifier"] None None
    None
    None
    None.

(* asn1crypto/x509.py:2105-2140 *)
Definition class_x509_Extension : sclass :=
  SClass "x509.Extension" ["core.Sequence"] None None
    (Some [SField "extn_id" (RClass "x509.ExtensionId") None None false None;
      SField "critical" (RClass "core.Boolean") None None false (Some (DBool false));
      SField "extn_value" (RClass "core.ParsableOctetString") None None false None])
    None
    None.

(* asn1crypto/x509.py:2143-2144 *)
Definition class_x509_Extensions : sclass :=
  SClass "x509.Extensions" ["core.SequenceOf"] None None
    None
    None
    (Some "x509.Extension").

(* asn1crypto/x509.py:2147-2159 *)
Definition class_x509_TbsCertificate : sclass :=
  SClass "x509.TbsCertificate" ["core.Sequence"] None None
    (Some [SField "version" (RClass "x509.Version") (Some 0) None false (Some (DName "v1"));
      SField "serial_number" (RClass "core.Integer") None None false None;
      SField "signature" (RClass "algos.SignedDigestAlgorithm") None None false None;
      SField "issuer" (RClass "x509.Name") None None false None;
      SField "validity" (RClass "x509.Validity") None None false None;
      SField "subject" (RClass "x509.Name") None None false None;
      SField "subject_public_key_info" (RClass "keys.PublicKeyInfo") None None false None;
      SField "issuer_unique_id" (RClass "core.OctetBitString") None (Some 1) true None;
      SField "subject_unique_id" (RClass "core.OctetBitString") None (Some 2) true None;
      SField "extensions" (RClass "x509.Extensions") (Some 3) None true None])
    None
    None.

(* asn1crypto/x509.py:2162-3028 *)
Definition class_x509_Certificate : sclass :=
  SClass "x509.Certificate" ["core.Sequence"] None None
    (Some [SField "tbs_certificate" (RClass "x509.TbsCertificate") None None false None;
      SField "signature_algorithm" (RClass "algos.SignedDigestAlgorithm") None None false None;
      SField "signature_value" (RClass "core.OctetBitString") None None false None])
    None
    None.

(* asn1crypto/x509.py:3035-3036 *)
Definition class_x509_KeyPurposeIdentifiers : sclass :=
  SClass "x509.KeyPurposeIdentifiers" ["core.SequenceOf"] None None
    None
    None
    (Some "x509.KeyPurposeId").

(* asn1crypto/x509.py:3039-3040 *)
Definition class_x509_SequenceOfAlgorithmIdentifiers : sclass :=
  SClass "x509.SequenceOfAlgorithmIdentifiers" ["core.SequenceOf"] None None
    None
    None
    (Some "algos.AlgorithmIdentifier").

(* asn1crypto/x509.py:3043-3050 *)
Definition class_x509_CertificateAux : sclass :=
  SClass "x509.CertificateAux" ["core.Sequence"] None None
    (Some [SField "trust" (RClass "x509.KeyPurposeIdentifiers") None None true None;
      SField "reject" (RClass "x509.KeyPurposeIdentifiers") None (Some 0) true None;
      SField "alias" (RClass "core.UTF8String") None None true None;
      SField "keyid" (RClass "core.OctetString") None None true None;
      SField "other" (RClass "x509.SequenceOfAlgorithmIdentifiers") None (Some 1) true None])
    None
    None.

(* asn1crypto/x509.py:3053-3054 *)
Definition class_x509_TrustedCertificate : sclass :=
  SClass "x509.TrustedCertificate" ["core.Concat"] None None
    None
    None
    None.

(* asn1crypto/crl.py:43-47 *)
Definition class_crl_Version : sclass :=
  SClass "crl.Version" ["core.Integer"] None None
    None
    None
    None.

(* asn1crypto/crl.py:50-58 *)
Definition class_crl_IssuingDistributionPoint : sclass :=
  SClass "crl.IssuingDistributionPoint" ["core.Sequence"] None None
    (Some [SField "distribution_point" (RClass "x509.DistributionPointName") (Some 0) None true None;
      SField "only_contains_user_certs" (RClass "core.Boolean") None (Some 1) false (Some (DBool false));
      SField "only_contains_ca_certs" (RClass "core.Boolean") None (Some 2) false (Some (DBool false));
      SField "only_some_reasons" (RClass "x509.ReasonFlags") None (Some 3) true None;
      SField "indirect_crl" (RClass "core.Boolean") None (Some 4) false (Some (DBool false));
      SField "only_contains_attribute_certs" (RClass "core.Boolean") None (Some 5) false (Some (DBool false))])
    None
    None.

(* asn1crypto/crl.py:61-70 *)
Definition class_crl_TBSCertListExtensionId : sclass :=
  SClass "crl.TBSCertListExtensionId" ["core.ObjectIdentifier"] None None
    None
    None
    None.

(* asn1crypto/crl.py:73-89 *)
Definition class_crl_TBSCertListExtension : sclass :=
  SClass "crl.TBSCertListExtension" ["core.Sequence"] None None
    (Some [SField "extn_id" (RClass "crl.TBSCertListExtensionId") None None false None;
      SField "critical" (RClass "core.Boolean") None None false (Some (DBool false));
      SField "extn_value" (RClass "core.ParsableOctetString") None None false None])
    None
    None.

(* asn1crypto/crl.py:92-93 *)
Definition class_crl_TBSCertListExtensions : sclass :=
  SClass "crl.TBSCertListExtensions" ["core.SequenceOf"] None None
    None
    None
    (Some "crl.TBSCertListExtension").

(* asn1crypto/crl.py:96-131 *)
Definition class_crl_CRLReason : sclass :=
  SClass "crl.CRLReason" ["core.Enumerated"] None None
    None
    None
    None.

(* asn1crypto/crl.py:134-140 *)
Definition class_crl_CRLEntryExtensionId : sclass :=
  SClass "crl.CRLEntryExtensionId" ["core.ObjectIdentifier"] None None
    None
    None
    None.

(* asn1crypto/crl.py:143-156 *)
Definition class_crl_CRLEntryExtension : sclass :=
  SClass "crl.CRLEntryExtension" ["core.Sequence"] None None
    (Some [SField "extn_id" (RClass "crl.CRLEntryExtensionId") None None false None;
      SField "critical" (RClass "core.Boolean") None None false (Some (DBool false));
      SField "extn_value" (RClass "core.ParsableOctetString") None None false None])
    None
    None.

(* asn1crypto/crl.py:159-160 *)
Definition class_crl_CRLEntryExtensions : sclass :=
  SClass "crl.CRLEntryExtensions" ["core.SequenceOf"] None None
    None
    None
    (Some "crl.CRLEntryExtension").

(* asn1crypto/crl.py:163-267 *)
Definition class_crl_RevokedCertificate : sclass :=
  SClass "crl.RevokedCertificate" ["core.Sequence"] None None
    (Some [SField "user_certificate" (RClass "core.Integer") None None false None;
      SField "revocation_date" (RClass "x509.Time") None None false None;
      SField "crl_entry_extensions" (RClass "crl.CRLEntryExtensions") None None true None])
    None
    None.

(* asn1crypto/crl.py:270-271 *)
Definition class_crl_RevokedCertificates : sclass :=
  SClass "crl.RevokedCertificates" ["core.SequenceOf"] None None
    None
    None
    (Some "crl.RevokedCertificate").

(* asn1crypto/crl.py:274-283 *)
Definition class_crl_TbsCertList : sclass :=
  SClass "crl.TbsCertList" ["core.Sequence"] None None
    (Some [SField "version" (RClass "crl.Version") None None true None;
      SField "signature" (RClass "algos.SignedDigestAlgorithm") None None false None;
      SField "issuer" (RClass "x509.Name") None None false None;
      SField "this_update" (RClass "x509.Time") None None false None;
      SField "next_update" (RClass "x509.Time") None None true None;
      SField "revoked_certificates" (RClass "crl.RevokedCertificates") None None true None;
      SField "crl_extensions" (RClass "crl.TBSCertListExtensions") (Some 0) None true None])
    None
    None.

(* asn1crypto/crl.py:286-535 *)
Definition class_crl_CertificateList : sclass :=
  SClass "crl.CertificateList" ["core.Sequence"] None None
    (Some [SField "tbs_cert_list" (RClass "crl.TbsCertList") None None false None;
      SField "signature_algorithm" (RClass "algos.SignedDigestAlgorithm") None None false None;
      SField "signature" (RClass "core.OctetBitString") None None false None])
    None
    None.

(* asn1crypto/csr.py:34-37 *)
Definition class_csr_Version : sclass :=
  SClass "csr.Version" ["core.Integer"] None None
    None
    None
    None.

(* asn1crypto/csr.py:40-51 *)
Definition class_csr_CSRAttributeType : sclass :=
  SClass "csr.CSRAttributeType" ["core.ObjectIdentifier"] None None
    None
    None
    None.

(* asn1crypto/csr.py:54-55 *)
Definition class_csr_SetOfDirectoryString : sclass :=
  SClass "csr.SetOfDirectoryString" ["core.SetOf"] None None
    None
    None
    (Some "x509.DirectoryString").

(* asn1crypto/csr.py:58-62 *)
Definition class_csr_Attribute : sclass :=
  SClass "csr.Attribute" ["core.Sequence"] None None
    (Some [SField "type" (RClass "core.ObjectIdentifier") None None false None;
      SField "values" (ROf "core.SetOf" "core.Any") None None false None])
    None
    None.

(* asn1crypto/csr.py:65-66 *)
Definition class_csr_SetOfAttributes : sclass :=
  SClass "csr.SetOfAttributes" ["core.SetOf"] None None
    None
    None
    (Some "csr.Attribute").

(* asn1crypto/csr.py:69-70 *)
Definition class_csr_SetOfExtensions : sclass :=
  SClass "csr.SetOfExtensions" ["core.SetOf"] None None
    None
    None
    (Some "x509.Extensions").

(* asn1crypto/csr.py:73-78 *)
Definition class_csr_MicrosoftEnrollmentCSProvider : sclass :=
  SClass "csr.MicrosoftEnrollmentCSProvider" ["core.Sequence"] None None
    (Some [SField "keyspec" (RClass "core.Integer") None None false None;
      SField "cspname" (RClass "core.BMPString") None None false None;
      SField "signature" (RClass "core.BitString") None None false None])
    None
    None.

(* asn1crypto/csr.py:81-82 *)
Definition class_csr_SetOfMicrosoftEnrollmentCSProvider : sclass :=
  SClass "csr.SetOfMicrosoftEnrollmentCSProvider" ["core.SetOf"] None None
    None
    None
    (Some "csr.MicrosoftEnrollmentCSProvider").

(* asn1crypto/csr.py:85-91 *)
Definition class_csr_MicrosoftRequestClientInfo : sclass :=
  SClass "csr.MicrosoftRequestClientInfo" ["core.Sequence"] None None
    (Some [SField "clientid" (RClass "core.Integer") None None false None;
      SField "machinename" (RClass "core.UTF8String") None None false None;
      SField "username" (RClass "core.UTF8String") None None false None;
      SField "processname" (RClass "core.UTF8String") None None false None])
    None
    None.

(* asn1crypto/csr.py:94-95 *)
Definition class_csr_SetOfMicrosoftRequestClientInfo : sclass :=
  SClass "csr.SetOfMicrosoftRequestClientInfo" ["core.SetOf"] None None
    None
    None
    (Some "csr.MicrosoftRequestClientInfo").

(* asn1crypto/csr.py:98-112 *)
Definition class_csr_CRIAttribute : sclass :=
  SClass "csr.CRIAttribute" ["core.Sequence"] None None
    (Some [SField "type" (RClass "csr.CSRAttributeType") None None false None;
      SField "values" (RClass "core.Any") None None false None])
    None
    None.

(* asn1crypto/csr.py:115-116 *)
Definition class_csr_CRIAttributes : sclass :=
  SClass "csr.CRIAttributes" ["core.SetOf"] None None
    None
    None
    (Some "csr.CRIAttribute").

(* asn1crypto/csr.py:119-125 *)
Definition class_csr_CertificationRequestInfo : sclass :=
  SClass "csr.CertificationRequestInfo" ["core.Sequence"] None None
    (Some [SField "version" (RClass "csr.Version") None None false None;
      SField "subject" (RClass "x509.Name") None None false None;
      SField "subject_pk_info" (RClass "keys.PublicKeyInfo") None None false None;
      SField "attributes" (RClass "csr.CRIAttributes") None (Some 0) true None])
    None
    None.

(* asn1crypto/csr.py:128-133 *)
Definition class_csr_CertificationRequest : sclass :=
  SClass "csr.CertificationRequest" ["core.Sequence"] None None
    (Some [SField "certification_request_info" (RClass "csr.CertificationRequestInfo") None None false None;
      SField "signature_algorithm" (RClass "algos.SignedDigestAlgorithm") None None false None;
      SField "signature" (RClass "core.OctetBitString") None None false None])
    None
    None.

(* asn1crypto/ocsp.py:40-43 *)
Definition class_ocsp_Version : sclass :=
  SClass "ocsp.Version" ["core.Integer"] None None
    None
    None
    None.

(* asn1crypto/ocsp.py:46-52 *)
Definition class_ocsp_CertId : sclass :=
  SClass "ocsp.CertId" ["core.Sequence"] None None
    (Some [SField "hash_algorithm" (RClass "algos.DigestAlgorithm") None None false None;
      SField "issuer_name_hash" (RClass "core.OctetString") None None false None;
      SField "issuer_key_hash" (RClass "core.OctetString") None None false None;
      SField "serial_number" (RClass "core.Integer") None None false None])
    None
    None.

(* asn1crypto/ocsp.py:55-59 *)
Definition class_ocsp_ServiceLocator : sclass :=
  SClass "ocsp.ServiceLocator" ["core.Sequence"] None None
    (Some [SField "issuer" (RClass "x509.Name") None None false None;
      SField "locator" (RClass "x509.AuthorityInfoAccessSyntax") None None false None])
    None
    None.

(* asn1crypto/ocsp.py:62-65 *)
Definition class_ocsp_RequestExtensionId : sclass :=
  SClass "ocsp.RequestExtensionId" ["core.ObjectIdentifier"] None None
    None
    None
    None.

(* asn1crypto/ocsp.py:68-78 *)
Definition class_ocsp_RequestExtension : sclass :=
  SClass "ocsp.RequestExtension" ["core.Sequence"] None None
    (Some [SField "extn_id" (RClass "ocsp.RequestExtensionId") None None false None;
      SField "critical" (RClass "core.Boolean") None None false (Some (DBool false));
      SField "extn_value" (RClass "core.ParsableOctetString") None None false None])
    None
    None.

(* asn1crypto/ocsp.py:81-82 *)
Definition class_ocsp_RequestExtensions : sclass :=
  SClass "ocsp.RequestExtensions" ["core.SequenceOf"] None None
    None
    None
    (Some "ocsp.RequestExtension").

(* asn1crypto/ocsp.py:85-139 *)
Definition class_ocsp_Request : sclass :=
  SClass "ocsp.Request" ["core.Sequence"] None None
    (Some [SField "req_cert" (RClass "ocsp.CertId") None None false None;
      SField "single_request_extensions" (RClass "ocsp.RequestExtensions") (Some 0) None true None])
    None
    None.

(* asn1crypto/ocsp.py:142-143 *)
Definition class_ocsp_Requests : sclass :=
  SClass "ocsp.Requests" ["core.SequenceOf"] None None
    None
    None
    (Some "ocsp.Request").

(* asn1crypto/ocsp.py:146-149 *)
Definition class_ocsp_ResponseType : sclass :=
  SClass "ocsp.ResponseType" ["core.ObjectIdentifier"] None None
    None
    None
    None.

(* asn1crypto/ocsp.py:152-153 *)
Definition class_ocsp_AcceptableResponses : sclass :=
  SClass "ocsp.AcceptableResponses" ["core.SequenceOf"] None None
    None
    None
    (Some "ocsp.ResponseType").

(* asn1crypto/ocsp.py:156-160 *)
Definition class_ocsp_PreferredSignatureAlgorithm : sclass :=
  SClass "ocsp.PreferredSignatureAlgorithm" ["core.Sequence"] None None
    (Some [SField "sig_identifier" (RClass "algos.SignedDigestAlgorithm") None None false None;
      SField "cert_identifier" (RClass "keys.PublicKeyAlgorithm") None None true None])
    None
    None.

(* asn1crypto/ocsp.py:163-164 *)
Definition class_ocsp_PreferredSignatureAlgorithms : sclass :=
  SClass "ocsp.PreferredSignatureAlgorithms" ["core.SequenceOf"] None None
    None
    None
    (Some "ocsp.PreferredSignatureAlgorithm").

(* asn1crypto/ocsp.py:167-172 *)
Definition class_ocsp_TBSRequestExtensionId : sclass :=
  SClass "ocsp.TBSRequestExtensionId" ["core.ObjectIdentifier"] None None
    None
    None
    None.

(* asn1crypto/ocsp.py:175-187 *)
Definition class_ocsp_TBSRequestExtension : sclass :=
  SClass "ocsp.TBSRequestExtension" ["core.Sequence"] None None
    (Some [SField "extn_id" (RClass "ocsp.TBSRequestExtensionId") None None false None;
      SField "critical" (RClass "core.Boolean") None None false (Some (DBool false));
      SField "extn_value" (RClass "core.ParsableOctetString") None None false None])
    None
    None.

(* asn1crypto/ocsp.py:190-191 *)
Definition class_ocsp_TBSRequestExtensions : sclass :=
  SClass "ocsp.TBSRequestExtensions" ["core.SequenceOf"] None None
    None
    None
    (Some "ocsp.TBSRequestExtension").

(* asn1crypto/ocsp.py:194-200 *)
Definition class_ocsp_TBSRequest : sclass :=
  SClass "ocsp.TBSRequest" ["core.Sequence"] None None
    (Some [SField "version" (RClass "ocsp.Version") (Some 0) None false (Some (DName "v1"));
      SField "requestor_name" (RClass "x509.GeneralName") (Some 1) None true None;
      SField "request_list" (RClass "ocsp.Requests") None None false None;
      SField "request_extensions" (RClass "ocsp.TBSRequestExtensions") (Some 2) None true None])
    None
    None.

(* asn1crypto/ocsp.py:203-204 *)
Definition class_ocsp_Certificates : sclass :=
  SClass "ocsp.Certificates" ["core.SequenceOf"] None None
    None
    None
    (Some "x509.Certificate").

(* asn1crypto/ocsp.py:207-212 *)
Definition class_ocsp_Signature : sclass :=
  SClass "ocsp.Signature" ["core.Sequence"] None None
    (Some [SField "signature_algorithm" (RClass "algos.SignedDigestAlgorithm") None None false None;
      SField "signature" (RClass "core.OctetBitString") None None false None;
      SField "certs" (RClass "ocsp.Certificates") (Some 0) None true None])
    None
    None.

(* asn1crypto/ocsp.py:215-302 *)
Definition class_ocsp_OCSPRequest : sclass :=
  SClass "ocsp.OCSPRequest" ["core.Sequence"] None None
    (Some [SField "tbs_request" (RClass "ocsp.TBSRequest") None None false None;
      SField "optional_signature" (RClass "ocsp.Signature") (Some 0) None true None])
    None
    None.

(* asn1crypto/ocsp.py:305-313 *)
Definition class_ocsp_OCSPResponseStatus : sclass :=
  SClass "ocsp.OCSPResponseStatus" ["core.Enumerated"] None None
    None
    None
    None.

(* asn1crypto/ocsp.py:316-320 *)
Definition class_ocsp_ResponderId : sclass :=
  SClass "ocsp.ResponderId" ["core.Choice"] None None
    None
    (Some [SField "by_name" (RClass "x509.Name") (Some 1) None false None;
      SField "by_key" (RClass "core.OctetString") (Some 2) None false None])
    None.

(* asn1crypto/ocsp.py:324-345 *)
Definition class_ocsp_StatusGood : sclass :=
  SClass "ocsp.StatusGood" ["core.Null"] None None
    None
    None
    None.

(* asn1crypto/ocsp.py:349-370 *)
Definition class_ocsp_StatusUnknown : sclass :=
  SClass "ocsp.StatusUnknown" ["core.Null"] None None
    None
    None
    None.

(* asn1crypto/ocsp.py:373-377 *)
Definition class_ocsp_RevokedInfo : sclass :=
  SClass "ocsp.RevokedInfo" ["core.Sequence"] None None
    (Some [SField "revocation_time" (RClass "core.GeneralizedTime") None None false None;
      SField "revocation_reason" (RClass "crl.CRLReason") (Some 0) None true None])
    None
    None.

(* asn1crypto/ocsp.py:380-385 *)
Definition class_ocsp_CertStatus : sclass :=
  SClass "ocsp.CertStatus" ["core.Choice"] None None
    None
    (Some [SField "good" (RClass "ocsp.StatusGood") None (Some 0) false None;
      SField "revoked" (RClass "ocsp.RevokedInfo") None (Some 1) false None;
      SField "unknown" (RClass "ocsp.StatusUnknown") None (Some 2) false None])
    None.

(* asn1crypto/ocsp.py:388-393 *)
Definition class_ocsp_CrlId : sclass :=
  SClass "ocsp.CrlId" ["core.Sequence"] None None
    (Some [SField "crl_url" (RClass "core.IA5String") (Some 0) None true None;
      SField "crl_num" (RClass "core.Integer") (Some 1) None true None;
      SField "crl_time" (RClass "core.GeneralizedTime") (Some 2) None true None])
    None
    None.

(* asn1crypto/ocsp.py:396-407 *)
Definition class_ocsp_SingleResponseExtensionId : sclass :=
  SClass "ocsp.SingleResponseExtensionId" ["core.ObjectIdentifier"] None None
    None
    None
    None.

(* asn1crypto/ocsp.py:410-425 *)
Definition class_ocsp_SingleResponseExtension : sclass :=
  SClass "ocsp.SingleResponseExtension" ["core.Sequence"] None None
    (Some [SField "extn_id" (RClass "ocsp.SingleResponseExtensionId") None None false None;
      SField "critical" (RClass "core.Boolean") None None false (Some (DBool false));
      SField "extn_value" (RClass "core.ParsableOctetString") None None false None])
    None
    None.

(* asn1crypto/ocsp.py:428-429 *)
Definition class_ocsp_SingleResponseExtensions : sclass :=
  SClass "ocsp.SingleResponseExtensions" ["core.SequenceOf"] None None
    None
    None
    (Some "ocsp.SingleResponseExtension").

(* asn1crypto/ocsp.py:432-549 *)
Definition class_ocsp_SingleResponse : sclass :=
  SClass "ocsp.SingleResponse" ["core.Sequence"] None None
    (Some [SField "cert_id" (RClass "ocsp.CertId") None None false None;
      SField "cert_status" (RClass "ocsp.CertStatus") None None false None;
      SField "this_update" (RClass "core.GeneralizedTime") None None false None;
      SField "next_update" (RClass "core.GeneralizedTime") (Some 0) None true None;
      SField "single_extensions" (RClass "ocsp.SingleResponseExtensions") (Some 1) None true None])
    None
    None.

(* asn1crypto/ocsp.py:552-553 *)
Definition class_ocsp_Responses : sclass :=
  SClass "ocsp.Responses" ["core.SequenceOf"] None None
    None
    None
    (Some "ocsp.SingleResponse").

(* asn1crypto/ocsp.py:556-560 *)
Definition class_ocsp_ResponseDataExtensionId : sclass :=
  SClass "ocsp.ResponseDataExtensionId" ["core.ObjectIdentifier"] None None
    None
    None
    None.

(* asn1crypto/ocsp.py:563-574 *)
Definition class_ocsp_ResponseDataExtension : sclass :=
  SClass "ocsp.ResponseDataExtension" ["core.Sequence"] None None
    (Some [SField "extn_id" (RClass "ocsp.ResponseDataExtensionId") None None false None;
      SField "critical" (RClass "core.Boolean") None None false (Some (DBool false));
      SField "extn_value" (RClass "core.ParsableOctetString") None None false None])
    None
    None.

(* asn1crypto/ocsp.py:577-578 *)
Definition class_ocsp_ResponseDataExtensions : sclass :=
  SClass "ocsp.ResponseDataExtensions" ["core.SequenceOf"] None None
    None
    None
    (Some "ocsp.ResponseDataExtension").

(* asn1crypto/ocsp.py:581-588 *)
Definition class_ocsp_ResponseData : sclass :=
  SClass "ocsp.ResponseData" ["core.Sequence"] None None
    (Some [SField "version" (RClass "ocsp.Version") (Some 0) None false (Some (DName "v1"));
      SField "responder_id" (RClass "ocsp.ResponderId") None None false None;
      SField "produced_at" (RClass "core.GeneralizedTime") None None false None;
      SField "responses" (RClass "ocsp.Responses") None None false None;
      SField "response_extensions" (RClass "ocsp.ResponseDataExtensions") (Some 1) None true None])
    None
    None.

(* asn1crypto/ocsp.py:591-597 *)
Definition class_ocsp_BasicOCSPResponse : sclass :=
  SClass "ocsp.BasicOCSPResponse" ["core.Sequence"] None None
    (Some [SField "tbs_response_data" (RClass "ocsp.ResponseData") None None false None;
      SField "signature_algorithm" (RClass "algos.SignedDigestAlgorithm") None None false None;
      SField "signature" (RClass "core.OctetBitString") None None false None;
      SField "certs" (RClass "ocsp.Certificates") (Some 0) None true None])
    None
    None.

(* asn1crypto/ocsp.py:600-609 *)
Definition class_ocsp_ResponseBytes : sclass :=
  SClass "ocsp.ResponseBytes" ["core.Sequence"] None None
    (Some [SField "response_type" (RClass "ocsp.ResponseType") None None false None;
      SField "response" (RClass "core.ParsableOctetString") None None false None])
    None
    None.

(* asn1crypto/ocsp.py:612-703 *)
Definition class_ocsp_OCSPResponse : sclass :=
  SClass "ocsp.OCSPResponse" ["core.Sequence"] None None
    (Some [SField "response_status" (RClass "ocsp.OCSPResponseStatus") None None false None;
      SField "response_bytes" (RClass "ocsp.ResponseBytes") (Some 0) None true None])
    None
    None.

(* asn1crypto/cms.py:65-70 *)
Definition class_cms_ExtendedCertificateInfo : sclass :=
  SClass "cms.ExtendedCertificateInfo" ["core.Sequence"] None None
    (Some [SField "version" (RClass "core.Integer") None None false None;
      SField "certificate" (RClass "x509.Certificate") None None false None;
      SField "attributes" (RClass "x509.Attributes") None None false None])
    None
    None.

(* asn1crypto/cms.py:73-78 *)
Definition class_cms_ExtendedCertificate : sclass :=
  SClass "cms.ExtendedCertificate" ["core.Sequence"] None None
    (Some [SField "extended_certificate_info" (RClass "cms.ExtendedCertificateInfo") None None false None;
      SField "signature_algorithm" (RClass "algos.SignedDigestAlgorithm") None None false None;
      SField "signature" (RClass "core.OctetBitString") None None false None])
    None
    None.

(* asn1crypto/cms.py:87-95 *)
Definition class_cms_CMSVersion : sclass :=
  SClass "cms.CMSVersion" ["core.Integer"] None None
    None
    None
    None.

(* asn1crypto/cms.py:98-120 *)
Definition class_cms_CMSAttributeType : sclass :=
  SClass "cms.CMSAttributeType" ["core.ObjectIdentifier"] None None
    None
    None
    None.

(* asn1crypto/cms.py:123-127 *)
Definition class_cms_Time : sclass :=
  SClass "cms.Time" ["core.Choice"] None None
    None
    (Some [SField "utc_time" (RClass "core.UTCTime") None None false None;
      SField "generalized_time" (RClass "core.GeneralizedTime") None None false None])
    None.

(* asn1crypto/cms.py:130-141 *)
Definition class_cms_ContentType : sclass :=
  SClass "cms.ContentType" ["core.ObjectIdentifier"] None None
    None
    None
    None.

(* asn1crypto/cms.py:144-149 *)
Definition class_cms_CMSAlgorithmProtection : sclass :=
  SClass "cms.CMSAlgorithmProtection" ["core.Sequence"] None None
    (Some [SField "digest_algorithm" (RClass "algos.DigestAlgorithm") None None false None;
      SField "signature_algorithm" (RClass "algos.SignedDigestAlgorithm") None (Some 1) true None;
      SField "mac_algorithm" (RClass "algos.HmacAlgorithm") None (Some 2) true None])
    None
    None.

(* asn1crypto/cms.py:152-153 *)
Definition class_cms_SetOfContentType : sclass :=
  SClass "cms.SetOfContentType" ["core.SetOf"] None None
    None
    None
    (Some "cms.ContentType").

(* asn1crypto/cms.py:156-157 *)
Definition class_cms_SetOfOctetString : sclass :=
  SClass "cms.SetOfOctetString" ["core.SetOf"] None None
    None
    None
    (Some "core.OctetString").

(* asn1crypto/cms.py:160-161 *)
Definition class_cms_SetOfTime : sclass :=
  SClass "cms.SetOfTime" ["core.SetOf"] None None
    None
    None
    (Some "cms.Time").

(* asn1crypto/cms.py:164-165 *)
Definition class_cms_SetOfAny : sclass :=
  SClass "cms.SetOfAny" ["core.SetOf"] None None
    None
    None
    (Some "core.Any").

(* asn1crypto/cms.py:168-169 *)
Definition class_cms_SetOfCMSAlgorithmProtection : sclass :=
  SClass "cms.SetOfCMSAlgorithmProtection" ["core.SetOf"] None None
    None
    None
    (Some "cms.CMSAlgorithmProtection").

(* asn1crypto/cms.py:172-185 *)
Definition class_cms_CMSAttribute : sclass :=
  SClass "cms.CMSAttribute" ["core.Sequence"] None None
    (Some [SField "type" (RClass "cms.CMSAttributeType") None None false None;
      SField "values" RCallback None None false None])
    None
    None.

(* asn1crypto/cms.py:188-189 *)
Definition class_cms_CMSAttributes : sclass :=
  SClass "cms.CMSAttributes" ["core.SetOf"] None None
    None
    None
    (Some "cms.CMSAttribute").

(* asn1crypto/cms.py:192-197 *)
Definition class_cms_IssuerSerial : sclass :=
  SClass "cms.IssuerSerial" ["core.Sequence"] None None
    (Some [SField "issuer" (RClass "x509.GeneralNames") None None false None;
      SField "serial" (RClass "core.Integer") None None false None;
      SField "issuer_uid" (RClass "core.OctetBitString") None None true None])
    None
    None.

(* asn1crypto/cms.py:200-204 *)
Definition class_cms_AttCertVersion : sclass :=
  SClass "cms.AttCertVersion" ["core.Integer"] None None
    None
    None
    None.

(* asn1crypto/cms.py:207-211 *)
Definition class_cms_AttCertSubject : sclass :=
  SClass "cms.AttCertSubject" ["core.Choice"] None None
    None
    (Some [SField "base_certificate_id" (RClass "cms.IssuerSerial") (Some 0) None false None;
      SField "subject_name" (RClass "x509.GeneralNames") (Some 1) None false None])
    None.

(* asn1crypto/cms.py:214-218 *)
Definition class_cms_AttCertValidityPeriod : sclass :=
  SClass "cms.AttCertValidityPeriod" ["core.Sequence"] None None
    (Some [SField "not_before_time" (RClass "core.GeneralizedTime") None None false None;
      SField "not_after_time" (RClass "core.GeneralizedTime") None None false None])
    None
    None.

(* asn1crypto/cms.py:221-232 *)
Definition class_cms_AttributeCertificateInfoV1 : sclass :=
  SClass "cms.AttributeCertificateInfoV1" ["core.Sequence"] None None
    (Some [SField "version" (RClass "cms.AttCertVersion") None None false (Some (DName "v1"));
      SField "subject" (RClass "cms.AttCertSubject") None None false None;
      SField "issuer" (RClass "x509.GeneralNames") None None false None;
      SField "signature" (RClass "algos.SignedDigestAlgorithm") None None false None;
      SField "serial_number" (RClass "core.Integer") None None false None;
      SField "att_cert_validity_period" (RClass "cms.AttCertValidityPeriod") None None false None;
      SField "attributes" (RClass "x509.Attributes") None None false None;
      SField "issuer_unique_id" (RClass "core.OctetBitString") None None true None;
      SField "extensions" (RClass "x509.Extensions") None None true None])
    None
    None.

(* asn1crypto/cms.py:235-240 *)
Definition class_cms_AttributeCertificateV1 : sclass :=
  SClass "cms.AttributeCertificateV1" ["core.Sequence"] None None
    (Some [SField "ac_info" (RClass "cms.AttributeCertificateInfoV1") None None false None;
      SField "signature_algorithm" (RClass "algos.SignedDigestAlgorithm") None None false None;
      SField "signature" (RClass "core.OctetBitString") None None false None])
    None
    None.

(* asn1crypto/cms.py:243-248 *)
Definition class_cms_DigestedObjectType : sclass :=
  SClass "cms.DigestedObjectType" ["core.Enumerated"] None None
    None
    None
    None.

(* asn1crypto/cms.py:251-257 *)
Definition class_cms_ObjectDigestInfo : sclass :=
  SClass "cms.ObjectDigestInfo" ["core.Sequence"] None None
    (Some [SField "digested_object_type" (RClass "cms.DigestedObjectType") None None false None;
      SField "other_object_type_id" (RClass "core.ObjectIdentifier") None None true None;
      SField "digest_algorithm" (RClass "algos.DigestAlgorithm") None None false None;
      SField "object_digest" (RClass "core.OctetBitString") None None false None])
    None
    None.

(* asn1crypto/cms.py:260-265 *)
Definition class_cms_Holder : sclass :=
  SClass "cms.Holder" ["core.Sequence"] None None
    (Some [SField "base_certificate_id" (RClass "cms.IssuerSerial") None (Some 0) true None;
      SField "entity_name" (RClass "x509.GeneralNames") None (Some 1) true None;
      SField "object_digest_info" (RClass "cms.ObjectDigestInfo") None (Some 2) true None])
    None
    None.

(* asn1crypto/cms.py:268-273 *)
Definition class_cms_V2Form : sclass :=
  SClass "cms.V2Form" ["core.Sequence"] None None
    (Some [SField "issuer_name" (RClass "x509.GeneralNames") None None true None;
      SField "base_certificate_id" (RClass "cms.IssuerSerial") (Some 0) None true None;
      SField "object_digest_info" (RClass "cms.ObjectDigestInfo") (Some 1) None true None])
    None
    None.

(* asn1crypto/cms.py:276-280 *)
Definition class_cms_AttCertIssuer : sclass :=
  SClass "cms.AttCertIssuer" ["core.Choice"] None None
    None
    (Some [SField "v1_form" (RClass "x509.GeneralNames") None None false None;
      SField "v2_form" (RClass "cms.V2Form") None (Some 0) false None])
    None.

(* asn1crypto/cms.py:283-288 *)
Definition class_cms_IetfAttrValue : sclass :=
  SClass "cms.IetfAttrValue" ["core.Choice"] None None
    None
    (Some [SField "octets" (RClass "core.OctetString") None None false None;
      SField "oid" (RClass "core.ObjectIdentifier") None None false None;
      SField "string" (RClass "core.UTF8String") None None false None])
    None.

(* asn1crypto/cms.py:291-292 *)
Definition class_cms_IetfAttrValues : sclass :=
  SClass "cms.IetfAttrValues" ["core.SequenceOf"] None None
    None
    None
    (Some "cms.IetfAttrValue").

(* asn1crypto/cms.py:295-299 *)
Definition class_cms_IetfAttrSyntax : sclass :=
  SClass "cms.IetfAttrSyntax" ["core.Sequence"] None None
    (Some [SField "policy_authority" (RClass "x509.GeneralNames") None (Some 0) true None;
      SField "values" (RClass "cms.IetfAttrValues") None None false None])
    None
    None.

(* asn1crypto/cms.py:302-303 *)
Definition class_cms_SetOfIetfAttrSyntax : sclass :=
  SClass "cms.SetOfIetfAttrSyntax" ["core.SetOf"] None None
    None
    None
    (Some "cms.IetfAttrSyntax").

(* asn1crypto/cms.py:306-311 *)
Definition class_cms_SvceAuthInfo : sclass :=
  SClass "cms.SvceAuthInfo" ["core.Sequence"] None None
    (Some [SField "service" (RClass "x509.GeneralName") None None false None;
      SField "ident" (RClass "x509.GeneralName") None None false None;
      SField "auth_info" (RClass "core.OctetString") None None true None])
    None
    None.

(* asn1crypto/cms.py:314-315 *)
Definition class_cms_SetOfSvceAuthInfo : sclass :=
  SClass "cms.SetOfSvceAuthInfo" ["core.SetOf"] None None
    None
    None
    (Some "cms.SvceAuthInfo").

(* asn1crypto/cms.py:318-322 *)
Definition class_cms_RoleSyntax : sclass :=
  SClass "cms.RoleSyntax" ["core.Sequence"] None None
    (Some [SField "role_authority" (RClass "x509.GeneralNames") None (Some 0) true None;
      SField "role_name" (RClass "x509.GeneralName") (Some 1) None false None])
    None
    None.

(* asn1crypto/cms.py:325-326 *)
Definition class_cms_SetOfRoleSyntax : sclass :=
  SClass "cms.SetOfRoleSyntax" ["core.SetOf"] None None
    None
    None
    (Some "cms.RoleSyntax").

(* asn1crypto/cms.py:329-337 *)
Definition class_cms_ClassList : sclass :=
  SClass "cms.ClassList" ["core.BitString"] None None
    None
    None
    None.

(* asn1crypto/cms.py:340-344 *)
Definition class_cms_SecurityCategory : sclass :=
  SClass "cms.SecurityCategory" ["core.Sequence"] None None
    (Some [SField "type" (RClass "core.ObjectIdentifier") None (Some 0) false None;
      SField "value" (RClass "core.Any") (Some 1) None false None])
    None
    None.

(* asn1crypto/cms.py:347-348 *)
Definition class_cms_SetOfSecurityCategory : sclass :=
  SClass "cms.SetOfSecurityCategory" ["core.SetOf"] None None
    None
    None
    (Some "cms.SecurityCategory").

(* asn1crypto/cms.py:351-356 *)
Definition class_cms_Clearance : sclass :=
  SClass "cms.Clearance" ["core.Sequence"] None None
    (Some [SField "policy_id" (RClass "core.ObjectIdentifier") None None false None;
      SField "class_list" (RClass "cms.ClassList") None None false (Some (DSet ["unclassified"]));
      SField "security_categories" (RClass "cms.SetOfSecurityCategory") None None true None])
    None
    None.

(* asn1crypto/cms.py:359-360 *)
Definition class_cms_SetOfClearance : sclass :=
  SClass "cms.SetOfClearance" ["core.SetOf"] None None
    None
    None
    (Some "cms.Clearance").

(* asn1crypto/cms.py:363-368 *)
Definition class_cms_BigTime : sclass :=
  SClass "cms.BigTime" ["core.Sequence"] None None
    (Some [SField "major" (RClass "core.Integer") None None false None;
      SField "fractional_seconds" (RClass "core.Integer") None None false None;
      SField "sign" (RClass "core.Integer") None None true None])
    None
    None.

(* asn1crypto/cms.py:371-375 *)
Definition class_cms_LeapData : sclass :=
  SClass "cms.LeapData" ["core.Sequence"] None None
    (Some [SField "leap_time" (RClass "cms.BigTime") None None false None;
      SField "action" (RClass "core.Integer") None None false None])
    None
    None.

(* asn1crypto/cms.py:378-379 *)
Definition class_cms_SetOfLeapData : sclass :=
  SClass "cms.SetOfLeapData" ["core.SetOf"] None None
    None
    None
    (Some "cms.LeapData").

(* asn1crypto/cms.py:382-389 *)
Definition class_cms_TimingMetrics : sclass :=
  SClass "cms.TimingMetrics" ["core.Sequence"] None None
    (Some [SField "ntp_time" (RClass "cms.BigTime") None None false None;
      SField "offset" (RClass "cms.BigTime") None None false None;
      SField "delay" (RClass "cms.BigTime") None None false None;
      SField "expiration" (RClass "cms.BigTime") None None false None;
      SField "leap_event" (RClass "cms.SetOfLeapData") None None true None])
    None
    None.

(* asn1crypto/cms.py:392-393 *)
Definition class_cms_SetOfTimingMetrics : sclass :=
  SClass "cms.SetOfTimingMetrics" ["core.SetOf"] None None
    None
    None
    (Some "cms.TimingMetrics").

(* asn1crypto/cms.py:396-401 *)
Definition class_cms_TimingPolicy : sclass :=
  SClass "cms.TimingPolicy" ["core.Sequence"] None None
    (Some [SField "policy_id" (ROf "core.SequenceOf" "core.ObjectIdentifier") None None false None;
      SField "max_offset" (RClass "cms.BigTime") (Some 0) None true None;
      SField "max_delay" (RClass "cms.BigTime") (Some 1) None true None])
    None
    None.

(* asn1crypto/cms.py:404-405 *)
Definition class_cms_SetOfTimingPolicy : sclass :=
  SClass "cms.SetOfTimingPolicy" ["core.SetOf"] None None
    None
    None
    (Some "cms.TimingPolicy").

(* asn1crypto/cms.py:408-418 *)
Definition class_cms_AttCertAttributeType : sclass :=
  SClass "cms.AttCertAttributeType" ["core.ObjectIdentifier"] None None
    None
    None
    None.

(* asn1crypto/cms.py:421-443 *)
Definition class_cms_AttCertAttribute : sclass :=
  SClass "cms.AttCertAttribute" ["core.Sequence"] None None
    (Some [SField "type" (RClass "cms.AttCertAttributeType") None None false None;
      SField "values" RCallback None None false None])
    None
    None.

(* asn1crypto/cms.py:446-447 *)
Definition class_cms_AttCertAttributes : sclass :=
  SClass "cms.AttCertAttributes" ["core.SequenceOf"] None None
    None
    None
    (Some "cms.AttCertAttribute").

(* asn1crypto/cms.py:450-461 *)
Definition class_cms_AttributeCertificateInfoV2 : sclass :=
  SClass "cms.AttributeCertificateInfoV2" ["core.Sequence"] None None
    (Some [SField "version" (RClass "cms.AttCertVersion") None None false None;
      SField "holder" (RClass "cms.Holder") None None false None;
      SField "issuer" (RClass "cms.AttCertIssuer") None None false None;
      SField "signature" (RClass "algos.SignedDigestAlgorithm") None None false None;
      SField "serial_number" (RClass "core.Integer") None None false None;
      SField "att_cert_validity_period" (RClass "cms.AttCertValidityPeriod") None None false None;
      SField "attributes" (RClass "cms.AttCertAttributes") None None false None;
      SField "issuer_unique_id" (RClass "core.OctetBitString") None None true None;
      SField "extensions" (RClass "x509.Extensions") None None true None])
    None
    None.

(* asn1crypto/cms.py:464-472 *)
Definition class_cms_AttributeCertificateV2 : sclass :=
  SClass "cms.AttributeCertificateV2" ["core.Sequence"] None None
    (Some [SField "ac_info" (RClass "cms.AttributeCertificateInfoV2") None None false None;
      SField "signature_algorithm" (RClass "algos.SignedDigestAlgorithm") None None false None;
      SField "signature" (RClass "core.OctetBitString") None None false None])
    None
    None.

(* asn1crypto/cms.py:475-479 *)
Definition class_cms_OtherCertificateFormat : sclass :=
  SClass "cms.OtherCertificateFormat" ["core.Sequence"] None None
    (Some [SField "other_cert_format" (RClass "core.ObjectIdentifier") None None false None;
      SField "other_cert" (RClass "core.Any") None None false None])
    None
    None.

(* asn1crypto/cms.py:482-514 *)
Definition class_cms_CertificateChoices : sclass :=
  SClass "cms.CertificateChoices" ["core.Choice"] None None
    None
    (Some [SField "certificate" (RClass "x509.Certificate") None None false None;
      SField "extended_certificate" (RClass "cms.ExtendedCertificate") None (Some 0) false None;
      SField "v1_attr_cert" (RClass "cms.AttributeCertificateV1") None (Some 1) false None;
      SField "v2_attr_cert" (RClass "cms.AttributeCertificateV2") None (Some 2) false None;
      SField "other" (RClass "cms.OtherCertificateFormat") None (Some 3) false None])
    None.

(* asn1crypto/cms.py:517-518 *)
Definition class_cms_CertificateSet : sclass :=
  SClass "cms.CertificateSet" ["core.SetOf"] None None
    None
    None
    (Some "cms.CertificateChoices").

(* asn1crypto/cms.py:521-528 *)
Definition class_cms_ContentInfo : sclass :=
  SClass "cms.ContentInfo" ["core.Sequence"] None None
    (Some [SField "content_type" (RClass "cms.ContentType") None None false None;
      SField "content" (RClass "core.Any") (Some 0) None true None])
    None
    None.

(* asn1crypto/cms.py:531-532 *)
Definition class_cms_SetOfContentInfo : sclass :=
  SClass "cms.SetOfContentInfo" ["core.SetOf"] None None
    None
    None
    (Some "cms.ContentInfo").

(* asn1crypto/cms.py:535-542 *)
Definition class_cms_EncapsulatedContentInfo : sclass :=
  SClass "cms.EncapsulatedContentInfo" ["core.Sequence"] None None
    (Some [SField "content_type" (RClass "cms.ContentType") None None false None;
      SField "content" (RClass "core.ParsableOctetString") (Some 0) None true None])
    None
    None.

(* asn1crypto/cms.py:545-549 *)
Definition class_cms_IssuerAndSerialNumber : sclass :=
  SClass "cms.IssuerAndSerialNumber" ["core.Sequence"] None None
    (Some [SField "issuer" (RClass "x509.Name") None None false None;
      SField "serial_number" (RClass "core.Integer") None None false None])
    None
    None.

(* asn1crypto/cms.py:552-556 *)
Definition class_cms_SignerIdentifier : sclass :=
  SClass "cms.SignerIdentifier" ["core.Choice"] None None
    None
    (Some [SField "issuer_and_serial_number" (RClass "cms.IssuerAndSerialNumber") None None false None;
      SField "subject_key_identifier" (RClass "core.OctetString") None (Some 0) false None])
    None.

(* asn1crypto/cms.py:559-560 *)
Definition class_cms_DigestAlgorithms : sclass :=
  SClass "cms.DigestAlgorithms" ["core.SetOf"] None None
    None
    None
    (Some "algos.DigestAlgorithm").

(* asn1crypto/cms.py:563-564 *)
Definition class_cms_CertificateRevocationLists : sclass :=
  SClass "cms.CertificateRevocationLists" ["core.SetOf"] None None
    None
    None
    (Some "crl.CertificateList").

(* asn1crypto/cms.py:567-571 *)
Definition class_cms_SCVPReqRes : sclass :=
  SClass "cms.SCVPReqRes" ["core.Sequence"] None None
    (Some [SField "request" (RClass "cms.ContentInfo") (Some 0) None true None;
      SField "response" (RClass "cms.ContentInfo") None None false None])
    None
    None.

(* asn1crypto/cms.py:574-578 *)
Definition class_cms_OtherRevInfoFormatId : sclass :=
  SClass "cms.OtherRevInfoFormatId" ["core.ObjectIdentifier"] None None
    None
    None
    None.

(* asn1crypto/cms.py:581-591 *)
Definition class_cms_OtherRevocationInfoFormat : sclass :=
  SClass "cms.OtherRevocationInfoFormat" ["core.Sequence"] None None
    (Some [SField "other_rev_info_format" (RClass "cms.OtherRevInfoFormatId") None None false None;
      SField "other_rev_info" (RClass "core.Any") None None false None])
    None
    None.

(* asn1crypto/cms.py:594-598 *)
Definition class_cms_RevocationInfoChoice : sclass :=
  SClass "cms.RevocationInfoChoice" ["core.Choice"] None None
    None
    (Some [SField "crl" (RClass "crl.CertificateList") None None false None;
      SField "other" (RClass "cms.OtherRevocationInfoFormat") None (Some 1) false None])
    None.

(* asn1crypto/cms.py:601-602 *)
Definition class_cms_RevocationInfoChoices : sclass :=
  SClass "cms.RevocationInfoChoices" ["core.SetOf"] None None
    None
    None
    (Some "cms.RevocationInfoChoice").

(* asn1crypto/cms.py:605-614 *)
Definition class_cms_SignerInfo : sclass :=
  SClass "cms.SignerInfo" ["core.Sequence"] None None
    (Some [SField "version" (RClass "cms.CMSVersion") None None false None;
      SField "sid" (RClass "cms.SignerIdentifier") None None false None;
      SField "digest_algorithm" (RClass "algos.DigestAlgorithm") None None false None;
      SField "signed_attrs" (RClass "cms.CMSAttributes") None (Some 0) true None;
      SField "signature_algorithm" (RClass "algos.SignedDigestAlgorithm") None None false None;
      SField "signature" (RClass "core.OctetString") None None false None;
      SField "unsigned_attrs" (RClass "cms.CMSAttributes") None (Some 1) true None])
    None
    None.

(* asn1crypto/cms.py:617-618 *)
Definition class_cms_SignerInfos : sclass :=
  SClass "cms.SignerInfos" ["core.SetOf"] None None
    None
    None
    (Some "cms.SignerInfo").

(* asn1crypto/cms.py:621-647 *)
Definition class_cms_SignedData : sclass :=
  SClass "cms.SignedData" ["core.Sequence"] None None
    (Some [SField "version" (RClass "cms.CMSVersion") None None false None;
      SField "digest_algorithms" (RClass "cms.DigestAlgorithms") None None false None;
      SField "encap_content_info" RCallback None None false None;
      SField "certificates" (RClass "cms.CertificateSet") None (Some 0) true None;
      SField "crls" (RClass "cms.RevocationInfoChoices") None (Some 1) true None;
      SField "signer_infos" (RClass "cms.SignerInfos") None None false None])
    None
    None.

(* asn1crypto/cms.py:650-654 *)
Definition class_cms_OriginatorInfo : sclass :=
  SClass "cms.OriginatorInfo" ["core.Sequence"] None None
    (Some [SField "certs" (RClass "cms.CertificateSet") None (Some 0) true None;
      SField "crls" (RClass "cms.RevocationInfoChoices") None (Some 1) true None])
    None
    None.

(* asn1crypto/cms.py:657-661 *)
Definition class_cms_RecipientIdentifier : sclass :=
  SClass "cms.RecipientIdentifier" ["core.Choice"] None None
    None
    (Some [SField "issuer_and_serial_number" (RClass "cms.IssuerAndSerialNumber") None None false None;
      SField "subject_key_identifier" (RClass "core.OctetString") None (Some 0) false None])
    None.

(* asn1crypto/cms.py:664-686 *)
Definition class_cms_KeyEncryptionAlgorithmId : sclass :=
  SClass "cms.KeyEncryptionAlgorithmId" ["core.ObjectIdentifier"] None None
    None
    None
    None.

(* asn1crypto/cms.py:689-698 *)
Definition class_cms_KeyEncryptionAlgorithm : sclass :=
  SClass "cms.KeyEncryptionAlgorithm" ["algos._ForceNullParameters"; "core.Sequence"] None None
    (Some [SField "algorithm" (RClass "cms.KeyEncryptionAlgorithmId") None None false None;
      SField "parameters" (RClass "core.Any") None None true None])
    None
    None.

(* asn1crypto/cms.py:701-707 *)
Definition class_cms_KeyTransRecipientInfo : sclass :=
  SClass "cms.KeyTransRecipientInfo" ["core.Sequence"] None None
    (Some [SField "version" (RClass "cms.CMSVersion") None None false None;
      SField "rid" (RClass "cms.RecipientIdentifier") None None false None;
      SField "key_encryption_algorithm" (RClass "cms.KeyEncryptionAlgorithm") None None false None;
      SField "encrypted_key" (RClass "core.OctetString") None None false None])
    None
    None.

(* asn1crypto/cms.py:710-715 *)
Definition class_cms_OriginatorIdentifierOrKey : sclass :=
  SClass "cms.OriginatorIdentifierOrKey" ["core.Choice"] None None
    None
    (Some [SField "issuer_and_serial_number" (RClass "cms.IssuerAndSerialNumber") None None false None;
      SField "subject_key_identifier" (RClass "core.OctetString") None (Some 0) false None;
      SField "originator_key" (RClass "keys.PublicKeyInfo") None (Some 1) false None])
    None.

(* asn1crypto/cms.py:718-722 *)
Definition class_cms_OtherKeyAttribute : sclass :=
  SClass "cms.OtherKeyAttribute" ["core.Sequence"] None None
    (Some [SField "key_attr_id" (RClass "core.ObjectIdentifier") None None false None;
      SField "key_attr" (RClass "core.Any") None None false None])
    None
    None.

(* asn1crypto/cms.py:725-736 *)
Definition class_cms_RecipientKeyIdentifier : sclass :=
  SClass "cms.RecipientKeyIdentifier" ["core.Sequence"] None None
    (Some [SField "subject_key_identifier" (RClass "core.OctetString") None None false None;
      SField "date" (RClass "core.GeneralizedTime") None None true None;
      SField "other" (RClass "cms.OtherKeyAttribute") None None true None])
    None
    None.

(* asn1crypto/cms.py:739-743 *)
Definition class_cms_KeyAgreementRecipientIdentifier : sclass :=
  SClass "cms.KeyAgreementRecipientIdentifier" ["core.Choice"] None None
    None
    (Some [SField "issuer_and_serial_number" (RClass "cms.IssuerAndSerialNumber") None None false None;
      SField "r_key_id" (RClass "cms.RecipientKeyIdentifier") None (Some 0) false None])
    None.

(* asn1crypto/cms.py:746-750 *)
Definition class_cms_RecipientEncryptedKey : sclass :=
  SClass "cms.RecipientEncryptedKey" ["core.Sequence"] None None
    (Some [SField "rid" (RClass "cms.KeyAgreementRecipientIdentifier") None None false None;
      SField "encrypted_key" (RClass "core.OctetString") None None false None])
    None
    None.

(* asn1crypto/cms.py:753-754 *)
Definition class_cms_RecipientEncryptedKeys : sclass :=
  SClass "cms.RecipientEncryptedKeys" ["core.SequenceOf"] None None
    None
    None
    (Some "cms.RecipientEncryptedKey").

(* asn1crypto/cms.py:757-764 *)
Definition class_cms_KeyAgreeRecipientInfo : sclass :=
  SClass "cms.KeyAgreeRecipientInfo" ["core.Sequence"] None None
    (Some [SField "version" (RClass "cms.CMSVersion") None None false None;
      SField "originator" (RClass "cms.OriginatorIdentifierOrKey") (Some 0) None false None;
      SField "ukm" (RClass "core.OctetString") (Some 1) None true None;
      SField "key_encryption_algorithm" (RClass "cms.KeyEncryptionAlgorithm") None None false None;
      SField "recipient_encrypted_keys" (RClass "cms.RecipientEncryptedKeys") None None false None])
    None
    None.

(* asn1crypto/cms.py:767-772 *)
Definition class_cms_KEKIdentifier : sclass :=
  SClass "cms.KEKIdentifier" ["core.Sequence"] None None
    (Some [SField "key_identifier" (RClass "core.OctetString") None None false None;
      SField "date" (RClass "core.GeneralizedTime") None None true None;
      SField "other" (RClass "cms.OtherKeyAttribute") None None true None])
    None
    None.

(* asn1crypto/cms.py:775-781 *)
Definition class_cms_KEKRecipientInfo : sclass :=
  SClass "cms.KEKRecipientInfo" ["core.Sequence"] None None
    (Some [SField "version" (RClass "cms.CMSVersion") None None false None;
      SField "kekid" (RClass "cms.KEKIdentifier") None None false None;
      SField "key_encryption_algorithm" (RClass "cms.KeyEncryptionAlgorithm") None None false None;
      SField "encrypted_key" (RClass "core.OctetString") None None false None])
    None
    None.

(* asn1crypto/cms.py:784-790 *)
Definition class_cms_PasswordRecipientInfo : sclass :=
  SClass "cms.PasswordRecipientInfo" ["core.Sequence"] None None
    (Some [SField "version" (RClass "cms.CMSVersion") None None false None;
      SField "key_derivation_algorithm" (RClass "algos.KdfAlgorithm") None (Some 0) true None;
      SField "key_encryption_algorithm" (RClass "cms.KeyEncryptionAlgorithm") None None false None;
      SField "encrypted_key" (RClass "core.OctetString") None None false None])
    None
    None.

(* asn1crypto/cms.py:793-797 *)
Definition class_cms_OtherRecipientInfo : sclass :=
  SClass "cms.OtherRecipientInfo" ["core.Sequence"] None None
    (Some [SField "ori_type" (RClass "core.ObjectIdentifier") None None false None;
      SField "ori_value" (RClass "core.Any") None None false None])
    None
    None.

(* asn1crypto/cms.py:800-807 *)
Definition class_cms_RecipientInfo : sclass :=
  SClass "cms.RecipientInfo" ["core.Choice"] None None
    None
    (Some [SField "ktri" (RClass "cms.KeyTransRecipientInfo") None None false None;
      SField "kari" (RClass "cms.KeyAgreeRecipientInfo") None (Some 1) false None;
      SField "kekri" (RClass "cms.KEKRecipientInfo") None (Some 2) false None;
      SField "pwri" (RClass "cms.PasswordRecipientInfo") None (Some 3) false None;
      SField "ori" (RClass "cms.OtherRecipientInfo") None (Some 4) false None])
    None.

(* asn1crypto/cms.py:810-811 *)
Definition class_cms_RecipientInfos : sclass :=
  SClass "cms.RecipientInfos" ["core.SetOf"] None None
    None
    None
    (Some "cms.RecipientInfo").

(* asn1crypto/cms.py:814-819 *)
Definition class_cms_EncryptedContentInfo : sclass :=
  SClass "cms.EncryptedContentInfo" ["core.Sequence"] None None
    (Some [SField "content_type" (RClass "cms.ContentType") None None false None;
      SField "content_encryption_algorithm" (RClass "algos.EncryptionAlgorithm") None None false None;
      SField "encrypted_content" (RClass "core.OctetString") None (Some 0) true None])
    None
    None.

(* asn1crypto/cms.py:822-829 *)
Definition class_cms_EnvelopedData : sclass :=
  SClass "cms.EnvelopedData" ["core.Sequence"] None None
    (Some [SField "version" (RClass "cms.CMSVersion") None None false None;
      SField "originator_info" (RClass "cms.OriginatorInfo") None (Some 0) true None;
      SField "recipient_infos" (RClass "cms.RecipientInfos") None None false None;
      SField "encrypted_content_info" (RClass "cms.EncryptedContentInfo") None None false None;
      SField "unprotected_attrs" (RClass "cms.CMSAttributes") None (Some 1) true None])
    None
    None.

(* asn1crypto/cms.py:832-841 *)
Definition class_cms_SignedAndEnvelopedData : sclass :=
  SClass "cms.SignedAndEnvelopedData" ["core.Sequence"] None None
    (Some [SField "version" (RClass "cms.CMSVersion") None None false None;
      SField "recipient_infos" (RClass "cms.RecipientInfos") None None false None;
      SField "digest_algorithms" (RClass "cms.DigestAlgorithms") None None false None;
      SField "encrypted_content_info" (RClass "cms.EncryptedContentInfo") None None false None;
      SField "certificates" (RClass "cms.CertificateSet") None (Some 0) true None;
      SField "crls" (RClass "cms.CertificateRevocationLists") None (Some 1) true None;
      SField "signer_infos" (RClass "cms.SignerInfos") None None false None])
    None
    None.

(* asn1crypto/cms.py:844-868 *)
Definition class_cms_DigestedData : sclass :=
  SClass "cms.DigestedData" ["core.Sequence"] None None
    (Some [SField "version" (RClass "cms.CMSVersion") None None false None;
      SField "digest_algorithm" (RClass "algos.DigestAlgorithm") None None false None;
      SField "encap_content_info" RCallback None None false None;
      SField "digest" (RClass "core.OctetString") None None false None])
    None
    None.

(* asn1crypto/cms.py:871-876 *)
Definition class_cms_EncryptedData : sclass :=
  SClass "cms.EncryptedData" ["core.Sequence"] None None
    (Some [SField "version" (RClass "cms.CMSVersion") None None false None;
      SField "encrypted_content_info" (RClass "cms.EncryptedContentInfo") None None false None;
      SField "unprotected_attrs" (RClass "cms.CMSAttributes") None (Some 1) true None])
    None
    None.

(* asn1crypto/cms.py:879-892 *)
Definition class_cms_AuthenticatedData : sclass :=
  SClass "cms.AuthenticatedData" ["core.Sequence"] None None
    (Some [SField "version" (RClass "cms.CMSVersion") None None false None;
      SField "originator_info" (RClass "cms.OriginatorInfo") None (Some 0) true None;
      SField "recipient_infos" (RClass "cms.RecipientInfos") None None false None;
      SField "mac_algorithm" (RClass "algos.HmacAlgorithm") None None false None;
      SField "digest_algorithm" (RClass "algos.DigestAlgorithm") None (Some 1) true None;
      SField "encap_content_info" (RClass "cms.EncapsulatedContentInfo") None None false None;
      SField "auth_attrs" (RClass "cms.CMSAttributes") None (Some 2) true None;
      SField "mac" (RClass "core.OctetString") None None false None;
      SField "unauth_attrs" (RClass "cms.CMSAttributes") None (Some 3) true None])
    None
    None.

(* asn1crypto/cms.py:895-904 *)
Definition class_cms_AuthEnvelopedData : sclass :=
  SClass "cms.AuthEnvelopedData" ["core.Sequence"] None None
    (Some [SField "version" (RClass "cms.CMSVersion") None None false None;
      SField "originator_info" (RClass "cms.OriginatorInfo") None (Some 0) true None;
      SField "recipient_infos" (RClass "cms.RecipientInfos") None None false None;
      SField "auth_encrypted_content_info" (RClass "cms.EncryptedContentInfo") None None false None;
      SField "auth_attrs" (RClass "cms.CMSAttributes") None (Some 1) true None;
      SField "mac" (RClass "core.OctetString") None None false None;
      SField "unauth_attrs" (RClass "cms.CMSAttributes") None (Some 2) true None])
    None
    None.

(* asn1crypto/cms.py:907-910 *)
Definition class_cms_CompressionAlgorithmId : sclass :=
  SClass "cms.CompressionAlgorithmId" ["core.ObjectIdentifier"] None None
    None
    None
    None.

(* asn1crypto/cms.py:913-917 *)
Definition class_cms_CompressionAlgorithm : sclass :=
  SClass "cms.CompressionAlgorithm" ["core.Sequence"] None None
    (Some [SField "algorithm" (RClass "cms.CompressionAlgorithmId") None None false None;
      SField "parameters" (RClass "core.Any") None None true None])
    None
    None.

(* asn1crypto/cms.py:920-935 *)
Definition class_cms_CompressedData : sclass :=
  SClass "cms.CompressedData" ["core.Sequence"] None None
    (Some [SField "version" (RClass "cms.CMSVersion") None None false None;
      SField "compression_algorithm" (RClass "cms.CompressionAlgorithm") None None false None;
      SField "encap_content_info" (RClass "cms.EncapsulatedContentInfo") None None false None])
    None
    None.

(* asn1crypto/cms.py:938-950 *)
Definition class_cms_SMIMEEncryptionKeyPreference : sclass :=
  SClass "cms.SMIMEEncryptionKeyPreference" ["core.Choice"] None None
    None
    (Some [SField "issuer_and_serial_number" (RClass "cms.IssuerAndSerialNumber") None (Some 0) false None;
      SField "recipient_key_id" (RClass "cms.RecipientKeyIdentifier") None (Some 1) false None;
      SField "subject_alt_key_identifier" (RClass "keys.PublicKeyInfo") None (Some 2) false None])
    None.

(* asn1crypto/cms.py:953-954 *)
Definition class_cms_SMIMEEncryptionKeyPreferences : sclass :=
  SClass "cms.SMIMEEncryptionKeyPreferences" ["core.SetOf"] None None
    None
    None
    (Some "cms.SMIMEEncryptionKeyPreference").

(* asn1crypto/cms.py:957-961 *)
Definition class_cms_SMIMECapabilityIdentifier : sclass :=
  SClass "cms.SMIMECapabilityIdentifier" ["core.Sequence"] None None
    (Some [SField "capability_id" (RClass "algos.EncryptionAlgorithmId") None None false None;
      SField "parameters" (RClass "core.Any") None None true None])
    None
    None.

(* asn1crypto/cms.py:964-965 *)
Definition class_cms_SMIMECapabilites : sclass :=
  SClass "cms.SMIMECapabilites" ["core.SequenceOf"] None None
    None
    None
    (Some "cms.SMIMECapabilityIdentifier").

(* asn1crypto/cms.py:968-969 *)
Definition class_cms_SetOfSMIMECapabilites : sclass :=
  SClass "cms.SetOfSMIMECapabilites" ["core.SetOf"] None None
    None
    None
    (Some "cms.SMIMECapabilites").

(* asn1crypto/pkcs12.py:36-41 *)
Definition class_pkcs12_MacData : sclass :=
  SClass "pkcs12.MacData" ["core.Sequence"] None None
    (Some [SField "mac" (RClass "algos.DigestInfo") None None false None;
      SField "mac_salt" (RClass "core.OctetString") None None false None;
      SField "iterations" (RClass "core.Integer") None None false (Some (DNum 1))])
    None
    None.

(* asn1crypto/pkcs12.py:44-47 *)
Definition class_pkcs12_Version : sclass :=
  SClass "pkcs12.Version" ["core.Integer"] None None
    None
    None
    None.

(* asn1crypto/pkcs12.py:50-60 *)
Definition class_pkcs12_AttributeType : sclass :=
  SClass "pkcs12.AttributeType" ["core.ObjectIdentifier"] None None
    None
    None
    None.

(* asn1crypto/pkcs12.py:63-64 *)
Definition class_pkcs12_SetOfAny : sclass :=
  SClass "pkcs12.SetOfAny" ["core.SetOf"] None None
    None
    None
    (Some "core.Any").

(* asn1crypto/pkcs12.py:67-68 *)
Definition class_pkcs12_SetOfBMPString : sclass :=
  SClass "pkcs12.SetOfBMPString" ["core.SetOf"] None None
    None
    None
    (Some "core.BMPString").

(* asn1crypto/pkcs12.py:71-72 *)
Definition class_pkcs12_SetOfOctetString : sclass :=
  SClass "pkcs12.SetOfOctetString" ["core.SetOf"] None None
    None
    None
    (Some "core.OctetString").

(* asn1crypto/pkcs12.py:75-76 *)
Definition class_pkcs12_SetOfKeyPurposeId : sclass :=
  SClass "pkcs12.SetOfKeyPurposeId" ["core.SetOf"] None None
    None
    None
    (Some "x509.KeyPurposeId").

(* asn1crypto/pkcs12.py:79-97 *)
Definition class_pkcs12_Attribute : sclass :=
  SClass "pkcs12.Attribute" ["core.Sequence"] None None
    (Some [SField "type" (RClass "pkcs12.AttributeType") None None false None;
      SField "values" RCallback None None false None])
    None
    None.

(* asn1crypto/pkcs12.py:100-101 *)
Definition class_pkcs12_Attributes : sclass :=
  SClass "pkcs12.Attributes" ["core.SetOf"] None None
    None
    None
    (Some "pkcs12.Attribute").

(* asn1crypto/pkcs12.py:104-120 *)
Definition class_pkcs12_Pfx : sclass :=
  SClass "pkcs12.Pfx" ["core.Sequence"] None None
    (Some [SField "version" (RClass "pkcs12.Version") None None false None;
      SField "auth_safe" (RClass "cms.ContentInfo") None None false None;
      SField "mac_data" (RClass "pkcs12.MacData") None None true None])
    None
    None.

(* asn1crypto/pkcs12.py:123-124 *)
Definition class_pkcs12_AuthenticatedSafe : sclass :=
  SClass "pkcs12.AuthenticatedSafe" ["core.SequenceOf"] None None
    None
    None
    (Some "cms.ContentInfo").

(* asn1crypto/pkcs12.py:127-135 *)
Definition class_pkcs12_BagId : sclass :=
  SClass "pkcs12.BagId" ["core.ObjectIdentifier"] None None
    None
    None
    None.

(* asn1crypto/pkcs12.py:138-142 *)
Definition class_pkcs12_CertId : sclass :=
  SClass "pkcs12.CertId" ["core.ObjectIdentifier"] None None
    None
    None
    None.

(* asn1crypto/pkcs12.py:145-154 *)
Definition class_pkcs12_CertBag : sclass :=
  SClass "pkcs12.CertBag" ["core.Sequence"] None None
    (Some [SField "cert_id" (RClass "pkcs12.CertId") None None false None;
      SField "cert_value" (RClass "core.ParsableOctetString") (Some 0) None false None])
    None
    None.

(* asn1crypto/pkcs12.py:157-161 *)
Definition class_pkcs12_CrlBag : sclass :=
  SClass "pkcs12.CrlBag" ["core.Sequence"] None None
    (Some [SField "crl_id" (RClass "core.ObjectIdentifier") None None false None;
      SField "crl_value" (RClass "core.OctetString") (Some 0) None false None])
    None
    None.

(* asn1crypto/pkcs12.py:164-168 *)
Definition class_pkcs12_SecretBag : sclass :=
  SClass "pkcs12.SecretBag" ["core.Sequence"] None None
    (Some [SField "secret_type_id" (RClass "core.ObjectIdentifier") None None false None;
      SField "secret_value" (RClass "core.OctetString") (Some 0) None false None])
    None
    None.

(* asn1crypto/pkcs12.py:171-172, pkcs12.py:193 *)
Definition class_pkcs12_SafeContents : sclass :=
  SClass "pkcs12.SafeContents" ["core.SequenceOf"] None None
    None
    None
    (Some "pkcs12.SafeBag").

(* asn1crypto/pkcs12.py:175-190 *)
Definition class_pkcs12_SafeBag : sclass :=
  SClass "pkcs12.SafeBag" ["core.Sequence"] None None
    (Some [SField "bag_id" (RClass "pkcs12.BagId") None None false None;
      SField "bag_value" (RClass "core.Any") (Some 0) None false None;
      SField "bag_attributes" (RClass "pkcs12.Attributes") None None true None])
    None
    None.

(* asn1crypto/tsp.py:56-64 *)
Definition class_tsp_Version : sclass :=
  SClass "tsp.Version" ["core.Integer"] None None
    None
    None
    None.

(* asn1crypto/tsp.py:67-71 *)
Definition class_tsp_MessageImprint : sclass :=
  SClass "tsp.MessageImprint" ["core.Sequence"] None None
    (Some [SField "hash_algorithm" (RClass "algos.DigestAlgorithm") None None false None;
      SField "hashed_message" (RClass "core.OctetString") None None false None])
    None
    None.

(* asn1crypto/tsp.py:74-79 *)
Definition class_tsp_Accuracy : sclass :=
  SClass "tsp.Accuracy" ["core.Sequence"] None None
    (Some [SField "seconds" (RClass "core.Integer") None None true None;
      SField "millis" (RClass "core.Integer") None (Some 0) true None;
      SField "micros" (RClass "core.Integer") None (Some 1) true None])
    None
    None.

(* asn1crypto/tsp.py:82-87 *)
Definition class_tsp_Extension : sclass :=
  SClass "tsp.Extension" ["core.Sequence"] None None
    (Some [SField "extn_id" (RClass "core.ObjectIdentifier") None None false None;
      SField "critical" (RClass "core.Boolean") None None false (Some (DBool false));
      SField "extn_value" (RClass "core.OctetString") None None false None])
    None
    None.

(* asn1crypto/tsp.py:90-91 *)
Definition class_tsp_Extensions : sclass :=
  SClass "tsp.Extensions" ["core.SequenceOf"] None None
    None
    None
    (Some "tsp.Extension").

(* asn1crypto/tsp.py:94-106 *)
Definition class_tsp_TSTInfo : sclass :=
  SClass "tsp.TSTInfo" ["core.Sequence"] None None
    (Some [SField "version" (RClass "tsp.Version") None None false None;
      SField "policy" (RClass "core.ObjectIdentifier") None None false None;
      SField "message_imprint" (RClass "tsp.MessageImprint") None None false None;
      SField "serial_number" (RClass "core.Integer") None None false None;
      SField "gen_time" (RClass "core.GeneralizedTime") None None false None;
      SField "accuracy" (RClass "tsp.Accuracy") None None true None;
      SField "ordering" (RClass "core.Boolean") None None false (Some (DBool false));
      SField "nonce" (RClass "core.Integer") None None true None;
      SField "tsa" (RClass "x509.GeneralName") (Some 0) None true None;
      SField "extensions" (RClass "tsp.Extensions") None (Some 1) true None])
    None
    None.

(* asn1crypto/tsp.py:109-117 *)
Definition class_tsp_TimeStampReq : sclass :=
  SClass "tsp.TimeStampReq" ["core.Sequence"] None None
    (Some [SField "version" (RClass "tsp.Version") None None false None;
      SField "message_imprint" (RClass "tsp.MessageImprint") None None false None;
      SField "req_policy" (RClass "core.ObjectIdentifier") None None true None;
      SField "nonce" (RClass "core.Integer") None None true None;
      SField "cert_req" (RClass "core.Boolean") None None false (Some (DBool false));
      SField "extensions" (RClass "tsp.Extensions") None (Some 0) true None])
    None
    None.

(* asn1crypto/tsp.py:120-128 *)
Definition class_tsp_PKIStatus : sclass :=
  SClass "tsp.PKIStatus" ["core.Integer"] None None
    None
    None
    None.

(* asn1crypto/tsp.py:131-132 *)
Definition class_tsp_PKIFreeText : sclass :=
  SClass "tsp.PKIFreeText" ["core.SequenceOf"] None None
    None
    None
    (Some "core.UTF8String").

(* asn1crypto/tsp.py:135-145 *)
Definition class_tsp_PKIFailureInfo : sclass :=
  SClass "tsp.PKIFailureInfo" ["core.BitString"] None None
    None
    None
    None.

(* asn1crypto/tsp.py:148-153 *)
Definition class_tsp_PKIStatusInfo : sclass :=
  SClass "tsp.PKIStatusInfo" ["core.Sequence"] None None
    (Some [SField "status" (RClass "tsp.PKIStatus") None None false None;
      SField "status_string" (RClass "tsp.PKIFreeText") None None true None;
      SField "fail_info" (RClass "tsp.PKIFailureInfo") None None true None])
    None
    None.

(* asn1crypto/tsp.py:156-160 *)
Definition class_tsp_TimeStampResp : sclass :=
  SClass "tsp.TimeStampResp" ["core.Sequence"] None None
    (Some [SField "status" (RClass "tsp.PKIStatusInfo") None None false None;
      SField "time_stamp_token" (RClass "cms.ContentInfo") None None false None])
    None
    None.

(* asn1crypto/tsp.py:163-169 *)
Definition class_tsp_MetaData : sclass :=
  SClass "tsp.MetaData" ["core.Sequence"] None None
    (Some [SField "hash_protected" (RClass "core.Boolean") None None false None;
      SField "file_name" (RClass "core.UTF8String") None None true None;
      SField "media_type" (RClass "core.IA5String") None None true None;
      SField "other_meta_data" (RClass "x509.Attributes") None None true None])
    None
    None.

(* asn1crypto/tsp.py:172-176 *)
Definition class_tsp_TimeStampAndCRL : sclass :=
  SClass "tsp.TimeStampAndCRL" ["core.Sequence"] None None
    (Some [SField "time_stamp" (RClass "cms.EncapsulatedContentInfo") None None false None;
      SField "crl" (RClass "crl.CertificateList") None None true None])
    None
    None.

(* asn1crypto/tsp.py:179-180 *)
Definition class_tsp_TimeStampTokenEvidence : sclass :=
  SClass "tsp.TimeStampTokenEvidence" ["core.SequenceOf"] None None
    None
    None
    (Some "tsp.TimeStampAndCRL").

(* asn1crypto/tsp.py:183-184 *)
Definition class_tsp_DigestAlgorithms : sclass :=
  SClass "tsp.DigestAlgorithms" ["core.SequenceOf"] None None
    None
    None
    (Some "algos.DigestAlgorithm").

(* asn1crypto/tsp.py:187-191 *)
Definition class_tsp_EncryptionInfo : sclass :=
  SClass "tsp.EncryptionInfo" ["core.Sequence"] None None
    (Some [SField "encryption_info_type" (RClass "core.ObjectIdentifier") None None false None;
      SField "encryption_info_value" (RClass "core.Any") None None false None])
    None
    None.

(* asn1crypto/tsp.py:194-195 *)
Definition class_tsp_PartialHashtree : sclass :=
  SClass "tsp.PartialHashtree" ["core.SequenceOf"] None None
    None
    None
    (Some "core.OctetString").

(* asn1crypto/tsp.py:198-199 *)
Definition class_tsp_PartialHashtrees : sclass :=
  SClass "tsp.PartialHashtrees" ["core.SequenceOf"] None None
    None
    None
    (Some "tsp.PartialHashtree").

(* asn1crypto/tsp.py:202-208 *)
Definition class_tsp_ArchiveTimeStamp : sclass :=
  SClass "tsp.ArchiveTimeStamp" ["core.Sequence"] None None
    (Some [SField "digest_algorithm" (RClass "algos.DigestAlgorithm") None (Some 0) true None;
      SField "attributes" (RClass "x509.Attributes") None (Some 1) true None;
      SField "reduced_hashtree" (RClass "tsp.PartialHashtrees") None (Some 2) true None;
      SField "time_stamp" (RClass "cms.ContentInfo") None None false None])
    None
    None.

(* asn1crypto/tsp.py:211-212 *)
Definition class_tsp_ArchiveTimeStampSequence : sclass :=
  SClass "tsp.ArchiveTimeStampSequence" ["core.SequenceOf"] None None
    None
    None
    (Some "tsp.ArchiveTimeStamp").

(* asn1crypto/tsp.py:215-222 *)
Definition class_tsp_EvidenceRecord : sclass :=
  SClass "tsp.EvidenceRecord" ["core.Sequence"] None None
    (Some [SField "version" (RClass "tsp.Version") None None false None;
      SField "digest_algorithms" (RClass "tsp.DigestAlgorithms") None None false None;
      SField "crypto_infos" (RClass "x509.Attributes") None (Some 0) true None;
      SField "encryption_info" (RClass "tsp.EncryptionInfo") None (Some 1) true None;
      SField "archive_time_stamp_sequence" (RClass "tsp.ArchiveTimeStampSequence") None None false None])
    None
    None.

(* asn1crypto/tsp.py:225-229 *)
Definition class_tsp_OtherEvidence : sclass :=
  SClass "tsp.OtherEvidence" ["core.Sequence"] None None
    (Some [SField "oe_type" (RClass "core.ObjectIdentifier") None None false None;
      SField "oe_value" (RClass "core.Any") None None false None])
    None
    None.

(* asn1crypto/tsp.py:232-237 *)
Definition class_tsp_Evidence : sclass :=
  SClass "tsp.Evidence" ["core.Choice"] None None
    None
    (Some [SField "tst_evidence" (RClass "tsp.TimeStampTokenEvidence") None (Some 0) false None;
      SField "ers_evidence" (RClass "tsp.EvidenceRecord") None (Some 1) false None;
      SField "other_evidence" (RClass "tsp.OtherEvidence") None (Some 2) false None])
    None.

(* asn1crypto/tsp.py:240-247 *)
Definition class_tsp_TimeStampedData : sclass :=
  SClass "tsp.TimeStampedData" ["core.Sequence"] None None
    (Some [SField "version" (RClass "tsp.Version") None None false None;
      SField "data_uri" (RClass "core.IA5String") None None true None;
      SField "meta_data" (RClass "tsp.MetaData") None None true None;
      SField "content" (RClass "core.OctetString") None None true None;
      SField "temporal_evidence" (RClass "tsp.Evidence") None None false None])
    None
    None.

(* asn1crypto/tsp.py:250-254 *)
Definition class_tsp_IssuerSerial : sclass :=
  SClass "tsp.IssuerSerial" ["core.Sequence"] None None
    (Some [SField "issuer" (RClass "x509.GeneralNames") None None false None;
      SField "serial_number" (RClass "core.Integer") None None false None])
    None
    None.

(* asn1crypto/tsp.py:257-261 *)
Definition class_tsp_ESSCertID : sclass :=
  SClass "tsp.ESSCertID" ["core.Sequence"] None None
    (Some [SField "cert_hash" (RClass "core.OctetString") None None false None;
      SField "issuer_serial" (RClass "tsp.IssuerSerial") None None true None])
    None
    None.

(* asn1crypto/tsp.py:264-265 *)
Definition class_tsp_ESSCertIDs : sclass :=
  SClass "tsp.ESSCertIDs" ["core.SequenceOf"] None None
    None
    None
    (Some "tsp.ESSCertID").

(* asn1crypto/tsp.py:268-272 *)
Definition class_tsp_SigningCertificate : sclass :=
  SClass "tsp.SigningCertificate" ["core.Sequence"] None None
    (Some [SField "certs" (RClass "tsp.ESSCertIDs") None None false None;
      SField "policies" (RClass "x509.CertificatePolicies") None None true None])
    None
    None.

(* asn1crypto/tsp.py:275-276 *)
Definition class_tsp_SetOfSigningCertificates : sclass :=
  SClass "tsp.SetOfSigningCertificates" ["core.SetOf"] None None
    None
    None
    (Some "tsp.SigningCertificate").

(* asn1crypto/tsp.py:279-284 *)
Definition class_tsp_ESSCertIDv2 : sclass :=
  SClass "tsp.ESSCertIDv2" ["core.Sequence"] None None
    (Some [SField "hash_algorithm" (RClass "algos.DigestAlgorithm") None None false (Some (DDict [("algorithm", (DName "sha256"))]));
      SField "cert_hash" (RClass "core.OctetString") None None false None;
      SField "issuer_serial" (RClass "tsp.IssuerSerial") None None true None])
    None
    None.

(* asn1crypto/tsp.py:287-288 *)
Definition class_tsp_ESSCertIDv2s : sclass :=
  SClass "tsp.ESSCertIDv2s" ["core.SequenceOf"] None None
    None
    None
    (Some "tsp.ESSCertIDv2").

(* asn1crypto/tsp.py:291-295 *)
Definition class_tsp_SigningCertificateV2 : sclass :=
  SClass "tsp.SigningCertificateV2" ["core.Sequence"] None None
    (Some [SField "certs" (RClass "tsp.ESSCertIDv2s") None None false None;
      SField "policies" (RClass "x509.CertificatePolicies") None None true None])
    None
    None.

(* asn1crypto/tsp.py:298-299 *)
Definition class_tsp_SetOfSigningCertificatesV2 : sclass :=
  SClass "tsp.SetOfSigningCertificatesV2" ["core.SetOf"] None None
    None
    None
    (Some "tsp.SigningCertificateV2").

(* asn1crypto/pdf.py:31-34 *)
Definition class_pdf_AdobeArchiveRevInfo : sclass :=
  SClass "pdf.AdobeArchiveRevInfo" ["core.Sequence"] None None
    (Some [SField "version" (RClass "core.Integer") None None false None])
    None
    None.

(* asn1crypto/pdf.py:37-42 *)
Definition class_pdf_AdobeTimestamp : sclass :=
  SClass "pdf.AdobeTimestamp" ["core.Sequence"] None None
    (Some [SField "version" (RClass "core.Integer") None None false None;
      SField "location" (RClass "x509.GeneralName") None None false None;
      SField "requires_auth" (RClass "core.Boolean") None None true (Some (DBool false))])
    None
    None.

(* asn1crypto/pdf.py:45-49 *)
Definition class_pdf_OtherRevInfo : sclass :=
  SClass "pdf.OtherRevInfo" ["core.Sequence"] None None
    (Some [SField "type" (RClass "core.ObjectIdentifier") None None false None;
      SField "value" (RClass "core.OctetString") None None false None])
    None
    None.

(* asn1crypto/pdf.py:52-53 *)
Definition class_pdf_SequenceOfCertificateList : sclass :=
  SClass "pdf.SequenceOfCertificateList" ["core.SequenceOf"] None None
    None
    None
    (Some "crl.CertificateList").

(* asn1crypto/pdf.py:56-57 *)
Definition class_pdf_SequenceOfOCSPResponse : sclass :=
  SClass "pdf.SequenceOfOCSPResponse" ["core.SequenceOf"] None None
    None
    None
    (Some "ocsp.OCSPResponse").

(* asn1crypto/pdf.py:60-61 *)
Definition class_pdf_SequenceOfOtherRevInfo : sclass :=
  SClass "pdf.SequenceOfOtherRevInfo" ["core.SequenceOf"] None None
    None
    None
    (Some "pdf.OtherRevInfo").

(* asn1crypto/pdf.py:64-69 *)
Definition class_pdf_RevocationInfoArchival : sclass :=
  SClass "pdf.RevocationInfoArchival" ["core.Sequence"] None None
    (Some [SField "crl" (RClass "pdf.SequenceOfCertificateList") (Some 0) None true None;
      SField "ocsp" (RClass "pdf.SequenceOfOCSPResponse") (Some 1) None true None;
      SField "other_rev_info" (RClass "pdf.SequenceOfOtherRevInfo") (Some 2) None true None])
    None
    None.

(* asn1crypto/pdf.py:72-73 *)
Definition class_pdf_SetOfRevocationInfoArchival : sclass :=
  SClass "pdf.SetOfRevocationInfoArchival" ["core.SetOf"] None None
    None
    None
    (Some "pdf.RevocationInfoArchival").

Definition library : list sclass :=
  [class_core_Asn1Value;
   class_core_ValueMap;
   class_core_Castable;
   class_core_Constructable;
   class_core_Void;
   class_core_Any;
   class_core_Choice;
   class_core_Concat;
   class_core_Primitive;
   class_core_AbstractString;
   class_core_Boolean;
   class_core_Integer;
   class_core__IntegerBitString;
   class_core_BitString;
   class_core_OctetBitString;
   class_core_IntegerBitString;
   class_core_OctetString;
   class_core_IntegerOctetString;
   class_core_ParsableOctetString;
   class_core_ParsableOctetBitString;
   class_core_Null;
   class_core_ObjectIdentifier;
   class_core_ObjectDescriptor;
   class_core_InstanceOf;
   class_core_Real;
   class_core_Enumerated;
   class_core_UTF8String;
   class_core_RelativeOid;
   class_core_Sequence;
   class_core_SequenceOf;
   class_core_Set;
   class_core_SetOf;
   class_core_EmbeddedPdv;
   class_core_NumericString;
   class_core_PrintableString;
   class_core_TeletexString;
   class_core_VideotexString;
   class_core_IA5String;
   class_core_AbstractTime;
   class_core_UTCTime;
   class_core_GeneralizedTime;
   class_core_GraphicString;
   class_core_VisibleString;
   class_core_GeneralString;
   class_core_UniversalString;
   class_core_CharacterString;
   class_core_BMPString;
   class_algos_AlgorithmIdentifier;
   class_algos__ForceNullParameters;
   class_algos_HmacAlgorithmId;
   class_algos_HmacAlgorithm;
   class_algos_DigestAlgorithmId;
   class_algos_DigestAlgorithm;
   class_algos_DigestInfo;
   class_algos_MaskGenAlgorithmId;
   class_algos_MaskGenAlgorithm;
   class_algos_TrailerField;
   class_algos_RSASSAPSSParams;
   class_algos_SignedDigestAlgorithmId;
   class_algos_SignedDigestAlgorithm;
   class_algos_Pbkdf2Salt;
   class_algos_Pbkdf2Params;
   class_algos_ScryptParams;
   class_algos_KdfAlgorithmId;
   class_algos_KdfAlgorithm;
   class_algos_DHParameters;
   class_algos_KeyExchangeAlgorithmId;
   class_algos_KeyExchangeAlgorithm;
   class_algos_Rc2Params;
   class_algos_Rc5ParamVersion;
   class_algos_Rc5Params;
   class_algos_Pbes1Params;
   class_algos_CcmParams;
   class_algos_PSourceAlgorithmId;
   class_algos_PSourceAlgorithm;
   class_algos_RSAESOAEPParams;
   class_algos_DSASignature;
   class_algos_EncryptionAlgorithmId;
   class_algos_EncryptionAlgorithm;
   class_algos_Pbes2Params;
   class_algos_Pbmac1Params;
   class_algos_Pkcs5MacId;
   class_algos_Pkcs5MacAlgorithm;
   class_algos_AnyAlgorithmId;
   class_algos_AnyAlgorithmIdentifier;
   class_keys_OtherPrimeInfo;
   class_keys_OtherPrimeInfos;
   class_keys_RSAPrivateKeyVersion;
   class_keys_RSAPrivateKey;
   class_keys_RSAPublicKey;
   class_keys_DSAPrivateKey;
   class_keys__ECPoint;
   class_keys_ECPoint;
   class_keys_ECPointBitString;
   class_keys_SpecifiedECDomainVersion;
   class_keys_FieldType;
   class_keys_CharacteristicTwoBasis;
   class_keys_Pentanomial;
   class_keys_CharacteristicTwo;
   class_keys_FieldID;
   class_keys_Curve;
   class_keys_SpecifiedECDomain;
   class_keys_NamedCurve;
   class_keys_ECDomainParameters;
   class_keys_ECPrivateKeyVersion;
   class_keys_ECPrivateKey;
   class_keys_DSAParams;
   class_keys_Attribute;
   class_keys_Attributes;
   class_keys_PrivateKeyAlgorithmId;
   class_keys_PrivateKeyAlgorithm;
   class_keys_PrivateKeyInfo;
   class_keys_EncryptedPrivateKeyInfo;
   class_keys_ValidationParms;
   class_keys_DomainParameters;
   class_keys_PublicKeyAlgorithmId;
   class_keys_PublicKeyAlgorithm;
   class_keys_PublicKeyInfo;
   class_x509_DNSName;
   class_x509_URI;
   class_x509_EmailAddress;
   class_x509_IPAddress;
   class_x509_Attribute;
   class_x509_Attributes;
   class_x509_KeyUsage;
   class_x509_PrivateKeyUsagePeriod;
   class_x509_NotReallyTeletexString;
   class_x509_DirectoryString;
   class_x509_NameType;
   class_x509_NameTypeAndValue;
   class_x509_RelativeDistinguishedName;
   class_x509_RDNSequence;
   class_x509_Name;
   class_x509_AnotherName;
   class_x509_CountryName;
   class_x509_AdministrationDomainName;
   class_x509_PrivateDomainName;
   class_x509_PersonalName;
   class_x509_TeletexPersonalName;
   class_x509_OrganizationalUnitNames;
   class_x509_TeletexOrganizationalUnitNames;
   class_x509_BuiltInStandardAttributes;
   class_x509_BuiltInDomainDefinedAttribute;
   class_x509_BuiltInDomainDefinedAttributes;
   class_x509_TeletexDomainDefinedAttribute;
   class_x509_TeletexDomainDefinedAttributes;
   class_x509_PhysicalDeliveryCountryName;
   class_x509_PostalCode;
   class_x509_PDSParameter;
   class_x509_PrintableAddress;
   class_x509_UnformattedPostalAddress;
   class_x509_E1634Address;
   class_x509_NAddresses;
   class_x509_PresentationAddress;
   class_x509_ExtendedNetworkAddress;
   class_x509_TerminalType;
   class_x509_ExtensionAttributeType;
   class_x509_ExtensionAttribute;
   class_x509_ExtensionAttributes;
   class_x509_ORAddress;
   class_x509_EDIPartyName;
   class_x509_GeneralName;
   class_x509_GeneralNames;
   class_x509_Time;
   class_x509_Validity;
   class_x509_BasicConstraints;
   class_x509_AuthorityKeyIdentifier;
   class_x509_DistributionPointName;
   class_x509_ReasonFlags;
   class_x509_GeneralSubtree;
   class_x509_GeneralSubtrees;
   class_x509_NameConstraints;
   class_x509_DistributionPoint;
   class_x509_CRLDistributionPoints;
   class_x509_DisplayText;
   class_x509_NoticeNumbers;
   class_x509_NoticeReference;
   class_x509_UserNotice;
   class_x509_PolicyQualifierId;
   class_x509_PolicyQualifierInfo;
   class_x509_PolicyQualifierInfos;
   class_x509_PolicyIdentifier;
   class_x509_PolicyInformation;
   class_x509_CertificatePolicies;
   class_x509_PolicyMapping;
   class_x509_PolicyMappings;
   class_x509_PolicyConstraints;
   class_x509_KeyPurposeId;
   class_x509_ExtKeyUsageSyntax;
   class_x509_AccessMethod;
   class_x509_AccessDescription;
   class_x509_AuthorityInfoAccessSyntax;
   class_x509_SubjectInfoAccessSyntax;
   class_x509_Features;
   class_x509_EntrustVersionInfo;
   class_x509_NetscapeCertificateType;
   class_x509_Version;
   class_x509_TPMSpecification;
   class_x509_SetOfTPMSpecification;
   class_x509_TCGSpecificationVersion;
   class_x509_TCGPlatformSpecification;
   class_x509_SetOfTCGPlatformSpecification;
   class_x509_EKGenerationType;
   class_x509_EKGenerationLocation;
   class_x509_EKCertificateGenerationLocation;
   class_x509_EvaluationAssuranceLevel;
   class_x509_EvaluationStatus;
   class_x509_StrengthOfFunction;
   class_x509_URIReference;
   class_x509_CommonCriteriaMeasures;
   class_x509_SecurityLevel;
   class_x509_FIPSLevel;
   class_x509_TPMSecurityAssertions;
   class_x509_SetOfTPMSecurityAssertions;
   class_x509_SubjectDirectoryAttributeId;
   class_x509_SetOfGeneralizedTime;
   class_x509_SetOfDirectoryString;
   class_x509_SetOfPrintableString;
   class_x509_SupportedAlgorithm;
   class_x509_SetOfSupportedAlgorithm;
   class_x509_SubjectDirectoryAttribute;
   class_x509_SubjectDirectoryAttributes;
   class_x509_ExtensionId;
   class_x509_Extension;
   class_x509_Extensions;
   class_x509_TbsCertificate;
   class_x509_Certificate;
   class_x509_KeyPurposeIdentifiers;
   class_x509_SequenceOfAlgorithmIdentifiers;
   class_x509_CertificateAux;
   class_x509_TrustedCertificate;
   class_crl_Version;
   class_crl_IssuingDistributionPoint;
   class_crl_TBSCertListExtensionId;
   class_crl_TBSCertListExtension;
   class_crl_TBSCertListExtensions;
   class_crl_CRLReason;
   class_crl_CRLEntryExtensionId;
   class_crl_CRLEntryExtension;
   class_crl_CRLEntryExtensions;
   class_crl_RevokedCertificate;
   class_crl_RevokedCertificates;
   class_crl_TbsCertList;
   class_crl_CertificateList;
   class_csr_Version;
   class_csr_CSRAttributeType;
   class_csr_SetOfDirectoryString;
   class_csr_Attribute;
   class_csr_SetOfAttributes;
   class_csr_SetOfExtensions;
   class_csr_MicrosoftEnrollmentCSProvider;
   class_csr_SetOfMicrosoftEnrollmentCSProvider;
   class_csr_MicrosoftRequestClientInfo;
   class_csr_SetOfMicrosoftRequestClientInfo;
   class_csr_CRIAttribute;
   class_csr_CRIAttributes;
   class_csr_CertificationRequestInfo;
   class_csr_CertificationRequest;
   class_ocsp_Version;
   class_ocsp_CertId;
   class_ocsp_ServiceLocator;
   class_ocsp_RequestExtensionId;
   class_ocsp_RequestExtension;
   class_ocsp_RequestExtensions;
   class_ocsp_Request;
   class_ocsp_Requests;
   class_ocsp_ResponseType;
   class_ocsp_AcceptableResponses;
   class_ocsp_PreferredSignatureAlgorithm;
   class_ocsp_PreferredSignatureAlgorithms;
   class_ocsp_TBSRequestExtensionId;
   class_ocsp_TBSRequestExtension;
   class_ocsp_TBSRequestExtensions;
   class_ocsp_TBSRequest;
   class_ocsp_Certificates;
   class_ocsp_Signature;
   class_ocsp_OCSPRequest;
   class_ocsp_OCSPResponseStatus;
   class_ocsp_ResponderId;
   class_ocsp_StatusGood;
   class_ocsp_StatusUnknown;
   class_ocsp_RevokedInfo;
   class_ocsp_CertStatus;
   class_ocsp_CrlId;
   class_ocsp_SingleResponseExtensionId;
   class_ocsp_SingleResponseExtension;
   class_ocsp_SingleResponseExtensions;
   class_ocsp_SingleResponse;
   class_ocsp_Responses;
   class_ocsp_ResponseDataExtensionId;
   class_ocsp_ResponseDataExtension;
   class_ocsp_ResponseDataExtensions;
   class_ocsp_ResponseData;
   class_ocsp_BasicOCSPResponse;
   class_ocsp_ResponseBytes;
   class_ocsp_OCSPResponse;
   class_cms_ExtendedCertificateInfo;
   class_cms_ExtendedCertificate;
   class_cms_CMSVersion;
   class_cms_CMSAttributeType;
   class_cms_Time;
   class_cms_ContentType;
   class_cms_CMSAlgorithmProtection;
   class_cms_SetOfContentType;
   class_cms_SetOfOctetString;
   class_cms_SetOfTime;
   class_cms_SetOfAny;
   class_cms_SetOfCMSAlgorithmProtection;
   class_cms_CMSAttribute;
   class_cms_CMSAttributes;
   class_cms_IssuerSerial;
   class_cms_AttCertVersion;
   class_cms_AttCertSubject;
   class_cms_AttCertValidityPeriod;
   class_cms_AttributeCertificateInfoV1;
   class_cms_AttributeCertificateV1;
   class_cms_DigestedObjectType;
   class_cms_ObjectDigestInfo;
   class_cms_Holder;
   class_cms_V2Form;
   class_cms_AttCertIssuer;
   class_cms_IetfAttrValue;
   class_cms_IetfAttrValues;
   class_cms_IetfAttrSyntax;
   class_cms_SetOfIetfAttrSyntax;
   class_cms_SvceAuthInfo;
   class_cms_SetOfSvceAuthInfo;
   class_cms_RoleSyntax;
   class_cms_SetOfRoleSyntax;
   class_cms_ClassList;
   class_cms_SecurityCategory;
   class_cms_SetOfSecurityCategory;
   class_cms_Clearance;
   class_cms_SetOfClearance;
   class_cms_BigTime;
   class_cms_LeapData;
   class_cms_SetOfLeapData;
   class_cms_TimingMetrics;
   class_cms_SetOfTimingMetrics;
   class_cms_TimingPolicy;
   class_cms_SetOfTimingPolicy;
   class_cms_AttCertAttributeType;
   class_cms_AttCertAttribute;
   class_cms_AttCertAttributes;
   class_cms_AttributeCertificateInfoV2;
   class_cms_AttributeCertificateV2;
   class_cms_OtherCertificateFormat;
   class_cms_CertificateChoices;
   class_cms_CertificateSet;
   class_cms_ContentInfo;
   class_cms_SetOfContentInfo;
   class_cms_EncapsulatedContentInfo;
   class_cms_IssuerAndSerialNumber;
   class_cms_SignerIdentifier;
   class_cms_DigestAlgorithms;
   class_cms_CertificateRevocationLists;
   class_cms_SCVPReqRes;
   class_cms_OtherRevInfoFormatId;
   class_cms_OtherRevocationInfoFormat;
   class_cms_RevocationInfoChoice;
   class_cms_RevocationInfoChoices;
   class_cms_SignerInfo;
   class_cms_SignerInfos;
   class_cms_SignedData;
   class_cms_OriginatorInfo;
   class_cms_RecipientIdentifier;
   class_cms_KeyEncryptionAlgorithmId;
   class_cms_KeyEncryptionAlgorithm;
   class_cms_KeyTransRecipientInfo;
   class_cms_OriginatorIdentifierOrKey;
   class_cms_OtherKeyAttribute;
   class_cms_RecipientKeyIdentifier;
   class_cms_KeyAgreementRecipientIdentifier;
   class_cms_RecipientEncryptedKey;
   class_cms_RecipientEncryptedKeys;
   class_cms_KeyAgreeRecipientInfo;
   class_cms_KEKIdentifier;
   class_cms_KEKRecipientInfo;
   class_cms_PasswordRecipientInfo;
   class_cms_OtherRecipientInfo;
   class_cms_RecipientInfo;
   class_cms_RecipientInfos;
   class_cms_EncryptedContentInfo;
   class_cms_EnvelopedData;
   class_cms_SignedAndEnvelopedData;
   class_cms_DigestedData;
   class_cms_EncryptedData;
   class_cms_AuthenticatedData;
   class_cms_AuthEnvelopedData;
   class_cms_CompressionAlgorithmId;
   class_cms_CompressionAlgorithm;
   class_cms_CompressedData;
   class_cms_SMIMEEncryptionKeyPreference;
   class_cms_SMIMEEncryptionKeyPreferences;
   class_cms_SMIMECapabilityIdentifier;
   class_cms_SMIMECapabilites;
   class_cms_SetOfSMIMECapabilites;
   class_pkcs12_MacData;
   class_pkcs12_Version;
   class_pkcs12_AttributeType;
   class_pkcs12_SetOfAny;
   class_pkcs12_SetOfBMPString;
   class_pkcs12_SetOfOctetString;
   class_pkcs12_SetOfKeyPurposeId;
   class_pkcs12_Attribute;
   class_pkcs12_Attributes;
   class_pkcs12_Pfx;
   class_pkcs12_AuthenticatedSafe;
   class_pkcs12_BagId;
   class_pkcs12_CertId;
   class_pkcs12_CertBag;
   class_pkcs12_CrlBag;
   class_pkcs12_SecretBag;
   class_pkcs12_SafeContents;
   class_pkcs12_SafeBag;
   class_tsp_Version;
   class_tsp_MessageImprint;
   class_tsp_Accuracy;
   class_tsp_Extension;
   class_tsp_Extensions;
   class_tsp_TSTInfo;
   class_tsp_TimeStampReq;
   class_tsp_PKIStatus;
   class_tsp_PKIFreeText;
   class_tsp_PKIFailureInfo;
   class_tsp_PKIStatusInfo;
   class_tsp_TimeStampResp;
   class_tsp_MetaData;
   class_tsp_TimeStampAndCRL;
   class_tsp_TimeStampTokenEvidence;
   class_tsp_DigestAlgorithms;
   class_tsp_EncryptionInfo;
   class_tsp_PartialHashtree;
   class_tsp_PartialHashtrees;
   class_tsp_ArchiveTimeStamp;
   class_tsp_ArchiveTimeStampSequence;
   class_tsp_EvidenceRecord;
   class_tsp_OtherEvidence;
   class_tsp_Evidence;
   class_tsp_TimeStampedData;
   class_tsp_IssuerSerial;
   class_tsp_ESSCertID;
   class_tsp_ESSCertIDs;
   class_tsp_SigningCertificate;
   class_tsp_SetOfSigningCertificates;
   class_tsp_ESSCertIDv2;
   class_tsp_ESSCertIDv2s;
   class_tsp_SigningCertificateV2;
   class_tsp_SetOfSigningCertificatesV2;
   class_pdf_AdobeArchiveRevInfo;
   class_pdf_AdobeTimestamp;
   class_pdf_OtherRevInfo;
   class_pdf_SequenceOfCertificateList;
   class_pdf_SequenceOfOCSPResponse;
   class_pdf_SequenceOfOtherRevInfo;
   class_pdf_RevocationInfoArchival;
   class_pdf_SetOfRevocationInfoArchival].

(* the classes with types bound to identifiers *)
Definition bindings : list (string * list (string * string)) :=
  [(* asn1crypto/algos.py:181-183 *)
   ("algos.MaskGenAlgorithm", [("mgf1", "algos.DigestAlgorithm")]);
   (* asn1crypto/algos.py:346-348 *)
   ("algos.SignedDigestAlgorithm", [("rsassa_pss", "algos.RSASSAPSSParams")]);
   (* asn1crypto/algos.py:563-566 *)
   ("algos.KdfAlgorithm", [("pbkdf2", "algos.Pbkdf2Params"); ("scrypt", "algos.ScryptParams")]);
   (* asn1crypto/algos.py:594-596 *)
   ("algos.KeyExchangeAlgorithm", [("dh", "algos.DHParameters")]);
   (* asn1crypto/algos.py:650-652 *)
   ("algos.PSourceAlgorithm", [("p_specified", "core.OctetString")]);
   (* asn1crypto/algos.py:810-841, algos.py:1314-1314 *)
   ("algos.EncryptionAlgorithm", [("des", "core.OctetString"); ("tripledes_3key", "core.OctetString"); ("rc2", "algos.Rc2Params"); ("rc5", "algos.Rc5Params"); ("aes128_cbc", "core.OctetString"); ("aes192_cbc", "core.OctetString"); ("aes256_cbc", "core.OctetString"); ("aes128_ofb", "core.OctetString"); ("aes192_ofb", "core.OctetString"); ("aes256_ofb", "core.OctetString"); ("aes128_ccm", "algos.CcmParams"); ("aes192_ccm", "algos.CcmParams"); ("aes256_ccm", "algos.CcmParams"); ("pbes1_md2_des", "algos.Pbes1Params"); ("pbes1_md5_des", "algos.Pbes1Params"); ("pbes1_md2_rc2", "algos.Pbes1Params"); ("pbes1_md5_rc2", "algos.Pbes1Params"); ("pbes1_sha1_des", "algos.Pbes1Params"); ("pbes1_sha1_rc2", "algos.Pbes1Params"); ("pkcs12_sha1_rc4_128", "algos.Pbes1Params"); ("pkcs12_sha1_rc4_40", "algos.Pbes1Params"); ("pkcs12_sha1_tripledes_3key", "algos.Pbes1Params"); ("pkcs12_sha1_tripledes_2key", "algos.Pbes1Params"); ("pkcs12_sha1_rc2_128", "algos.Pbes1Params"); ("pkcs12_sha1_rc2_40", "algos.Pbes1Params"); ("rsaes_oaep", "algos.RSAESOAEPParams"); ("pbes2", "algos.Pbes2Params")]);
   (* asn1crypto/algos.py:1309-1311 *)
   ("algos.Pkcs5MacAlgorithm", [("pbmac1", "algos.Pbmac1Params")]);
   (* asn1crypto/keys.py:268-272 *)
   ("keys.CharacteristicTwo", [("gn_basis", "core.Null"); ("tp_basis", "core.Integer"); ("pp_basis", "keys.Pentanomial")]);
   (* asn1crypto/keys.py:286-289 *)
   ("keys.FieldID", [("prime_field", "core.Integer"); ("characteristic_two_field", "keys.CharacteristicTwo")]);
   (* asn1crypto/keys.py:701-705 *)
   ("keys.PrivateKeyAlgorithm", [("dsa", "keys.DSAParams"); ("ec", "keys.ECDomainParameters"); ("rsassa_pss", "algos.RSASSAPSSParams")]);
   (* asn1crypto/keys.py:1063-1069 *)
   ("keys.PublicKeyAlgorithm", [("dsa", "keys.DSAParams"); ("ec", "keys.ECDomainParameters"); ("dh", "keys.DomainParameters"); ("rsaes_oaep", "algos.RSAESOAEPParams"); ("rsassa_pss", "algos.RSASSAPSSParams")]);
   (* asn1crypto/x509.py:659-696 *)
   ("x509.NameTypeAndValue", [("common_name", "x509.DirectoryString"); ("surname", "x509.DirectoryString"); ("serial_number", "x509.DirectoryString"); ("country_name", "x509.DirectoryString"); ("locality_name", "x509.DirectoryString"); ("state_or_province_name", "x509.DirectoryString"); ("street_address", "x509.DirectoryString"); ("organization_name", "x509.DirectoryString"); ("organizational_unit_name", "x509.DirectoryString"); ("title", "x509.DirectoryString"); ("business_category", "x509.DirectoryString"); ("postal_code", "x509.DirectoryString"); ("telephone_number", "core.PrintableString"); ("name", "x509.DirectoryString"); ("given_name", "x509.DirectoryString"); ("initials", "x509.DirectoryString"); ("generation_qualifier", "x509.DirectoryString"); ("unique_identifier", "core.OctetBitString"); ("dn_qualifier", "x509.DirectoryString"); ("pseudonym", "x509.DirectoryString"); ("email_address", "x509.EmailAddress"); ("incorporation_locality", "x509.DirectoryString"); ("incorporation_state_or_province", "x509.DirectoryString"); ("incorporation_country", "x509.DirectoryString"); ("domain_component", "x509.DNSName"); ("name_distinguisher", "x509.DirectoryString"); ("organization_identifier", "x509.DirectoryString"); ("tpm_manufacturer", "core.UTF8String"); ("tpm_model", "core.UTF8String"); ("tpm_version", "core.UTF8String"); ("platform_manufacturer", "core.UTF8String"); ("platform_model", "core.UTF8String"); ("platform_version", "core.UTF8String"); ("user_id", "x509.DirectoryString")]);
   (* asn1crypto/x509.py:1386-1410 *)
   ("x509.ExtensionAttribute", [("common_name", "core.PrintableString"); ("teletex_common_name", "core.TeletexString"); ("teletex_organization_name", "core.TeletexString"); ("teletex_personal_name", "x509.TeletexPersonalName"); ("teletex_organization_unit_names", "x509.TeletexOrganizationalUnitNames"); ("teletex_domain_defined_attributes", "x509.TeletexDomainDefinedAttributes"); ("pds_name", "core.PrintableString"); ("physical_delivery_country_name", "x509.PhysicalDeliveryCountryName"); ("postal_code", "x509.PostalCode"); ("physical_delivery_office_name", "x509.PDSParameter"); ("physical_delivery_office_number", "x509.PDSParameter"); ("extension_of_address_components", "x509.PDSParameter"); ("physical_delivery_personal_name", "x509.PDSParameter"); ("physical_delivery_organization_name", "x509.PDSParameter"); ("extension_physical_delivery_address_components", "x509.PDSParameter"); ("unformatted_postal_address", "x509.UnformattedPostalAddress"); ("street_address", "x509.PDSParameter"); ("post_office_box_address", "x509.PDSParameter"); ("poste_restante_address", "x509.PDSParameter"); ("unique_postal_name", "x509.PDSParameter"); ("local_postal_attributes", "x509.PDSParameter"); ("extended_network_address", "x509.ExtendedNetworkAddress"); ("terminal_type", "x509.TerminalType")]);
   (* asn1crypto/x509.py:1637-1640 *)
   ("x509.PolicyQualifierInfo", [("certification_practice_statement", "core.IA5String"); ("user_notice", "x509.UserNotice")]);
   (* asn1crypto/x509.py:2046-2056 *)
   ("x509.SubjectDirectoryAttribute", [("supported_algorithms", "x509.SetOfSupportedAlgorithm"); ("tpm_specification", "x509.SetOfTPMSpecification"); ("tcg_platform_specification", "x509.SetOfTCGPlatformSpecification"); ("tpm_security_assertions", "x509.SetOfTPMSecurityAssertions"); ("pda_date_of_birth", "x509.SetOfGeneralizedTime"); ("pda_place_of_birth", "x509.SetOfDirectoryString"); ("pda_gender", "x509.SetOfPrintableString"); ("pda_country_of_citizenship", "x509.SetOfPrintableString"); ("pda_country_of_residence", "x509.SetOfPrintableString")]);
   (* asn1crypto/x509.py:2113-2140, pdf.py:79-79, pdf.py:80-80, pdf.py:81-81 *)
   ("x509.Extension", [("subject_directory_attributes", "x509.SubjectDirectoryAttributes"); ("key_identifier", "core.OctetString"); ("key_usage", "x509.KeyUsage"); ("private_key_usage_period", "x509.PrivateKeyUsagePeriod"); ("subject_alt_name", "x509.GeneralNames"); ("issuer_alt_name", "x509.GeneralNames"); ("basic_constraints", "x509.BasicConstraints"); ("name_constraints", "x509.NameConstraints"); ("crl_distribution_points", "x509.CRLDistributionPoints"); ("certificate_policies", "x509.CertificatePolicies"); ("policy_mappings", "x509.PolicyMappings"); ("authority_key_identifier", "x509.AuthorityKeyIdentifier"); ("policy_constraints", "x509.PolicyConstraints"); ("extended_key_usage", "x509.ExtKeyUsageSyntax"); ("freshest_crl", "x509.CRLDistributionPoints"); ("inhibit_any_policy", "core.Integer"); ("authority_information_access", "x509.AuthorityInfoAccessSyntax"); ("subject_information_access", "x509.SubjectInfoAccessSyntax"); ("tls_feature", "x509.Features"); ("ocsp_no_check", "core.Null"); ("entrust_version_extension", "x509.EntrustVersionInfo"); ("netscape_certificate_type", "x509.NetscapeCertificateType"); ("signed_certificate_timestamp_list", "core.OctetString"); ("microsoft_enroll_certtype", "core.BMPString"); ("adobe_archive_rev_info", "pdf.AdobeArchiveRevInfo"); ("adobe_timestamp", "pdf.AdobeTimestamp"); ("adobe_ppklite_credential", "core.Null")]);
   (* asn1crypto/crl.py:81-89 *)
   ("crl.TBSCertListExtension", [("issuer_alt_name", "x509.GeneralNames"); ("crl_number", "core.Integer"); ("delta_crl_indicator", "core.Integer"); ("issuing_distribution_point", "crl.IssuingDistributionPoint"); ("authority_key_identifier", "x509.AuthorityKeyIdentifier"); ("freshest_crl", "x509.CRLDistributionPoints"); ("authority_information_access", "x509.AuthorityInfoAccessSyntax")]);
   (* asn1crypto/crl.py:151-156 *)
   ("crl.CRLEntryExtension", [("crl_reason", "crl.CRLReason"); ("hold_instruction_code", "core.ObjectIdentifier"); ("invalidity_date", "core.GeneralizedTime"); ("certificate_issuer", "x509.GeneralNames")]);
   (* asn1crypto/csr.py:105-112 *)
   ("csr.CRIAttribute", [("challenge_password", "csr.SetOfDirectoryString"); ("extended_certificate_attributes", "csr.SetOfAttributes"); ("extension_request", "csr.SetOfExtensions"); ("microsoft_enrollment_csp_provider", "csr.SetOfMicrosoftEnrollmentCSProvider"); ("microsoft_os_version", "csr.SetOfDirectoryString"); ("microsoft_request_client_info", "csr.SetOfMicrosoftRequestClientInfo")]);
   (* asn1crypto/ocsp.py:76-78 *)
   ("ocsp.RequestExtension", [("service_locator", "ocsp.ServiceLocator")]);
   (* asn1crypto/ocsp.py:183-187 *)
   ("ocsp.TBSRequestExtension", [("nonce", "core.OctetString"); ("acceptable_responses", "ocsp.AcceptableResponses"); ("preferred_signature_algorithms", "ocsp.PreferredSignatureAlgorithms")]);
   (* asn1crypto/ocsp.py:418-425 *)
   ("ocsp.SingleResponseExtension", [("crl", "ocsp.CrlId"); ("archive_cutoff", "core.GeneralizedTime"); ("crl_reason", "crl.CRLReason"); ("invalidity_date", "core.GeneralizedTime"); ("certificate_issuer", "x509.GeneralNames"); ("signed_certificate_timestamp_list", "core.OctetString")]);
   (* asn1crypto/ocsp.py:571-574 *)
   ("ocsp.ResponseDataExtension", [("nonce", "core.OctetString"); ("extended_revoke", "core.Null")]);
   (* asn1crypto/ocsp.py:607-609 *)
   ("ocsp.ResponseBytes", [("basic_ocsp_response", "ocsp.BasicOCSPResponse")]);
   (* asn1crypto/cms.py:178-178, cms.py:997-1008, tsp.py:308-308, tsp.py:310-310, pdf.py:84-84 *)
   ("cms.CMSAttribute", [("content_type", "cms.SetOfContentType"); ("message_digest", "cms.SetOfOctetString"); ("signing_time", "cms.SetOfTime"); ("counter_signature", "cms.SignerInfos"); ("signature_time_stamp_token", "cms.SetOfContentInfo"); ("cms_algorithm_protection", "cms.SetOfCMSAlgorithmProtection"); ("microsoft_nested_signature", "cms.SetOfContentInfo"); ("microsoft_time_stamp_token", "cms.SetOfContentInfo"); ("encrypt_key_pref", "cms.SMIMEEncryptionKeyPreferences"); ("smime_capabilities", "cms.SetOfSMIMECapabilites"); ("signing_certificate", "tsp.SetOfSigningCertificates"); ("signing_certificate_v2", "tsp.SetOfSigningCertificatesV2"); ("adobe_revocation_info_archival", "pdf.SetOfRevocationInfoArchival")]);
   (* asn1crypto/cms.py:427-436 *)
   ("cms.AttCertAttribute", [("authentication_info", "cms.SetOfSvceAuthInfo"); ("access_identity", "cms.SetOfSvceAuthInfo"); ("charging_identity", "cms.SetOfIetfAttrSyntax"); ("group", "cms.SetOfIetfAttrSyntax"); ("role", "cms.SetOfRoleSyntax"); ("clearance", "cms.SetOfClearance"); ("timing_metrics", "cms.SetOfTimingMetrics"); ("timing_policy", "cms.SetOfTimingPolicy")]);
   (* asn1crypto/cms.py:528-528, cms.py:972-982, tsp.py:304-304 *)
   ("cms.ContentInfo", [("data", "core.OctetString"); ("signed_data", "cms.SignedData"); ("enveloped_data", "cms.EnvelopedData"); ("signed_and_enveloped_data", "cms.SignedAndEnvelopedData"); ("digested_data", "cms.DigestedData"); ("encrypted_data", "cms.EncryptedData"); ("authenticated_data", "cms.AuthenticatedData"); ("compressed_data", "cms.CompressedData"); ("authenticated_enveloped_data", "cms.AuthEnvelopedData"); ("timestamped_data", "tsp.TimeStampedData")]);
   (* asn1crypto/cms.py:542-542, cms.py:985-994, tsp.py:302-302, tsp.py:303-303 *)
   ("cms.EncapsulatedContentInfo", [("signed_data", "cms.SignedData"); ("enveloped_data", "cms.EnvelopedData"); ("signed_and_enveloped_data", "cms.SignedAndEnvelopedData"); ("digested_data", "cms.DigestedData"); ("encrypted_data", "cms.EncryptedData"); ("authenticated_data", "cms.AuthenticatedData"); ("compressed_data", "cms.CompressedData"); ("authenticated_enveloped_data", "cms.AuthEnvelopedData"); ("tst_info", "tsp.TSTInfo"); ("timestamped_data", "tsp.TimeStampedData")]);
   (* asn1crypto/cms.py:588-591 *)
   ("cms.OtherRevocationInfoFormat", [("ocsp_response", "ocsp.OCSPResponse"); ("scvp", "cms.SCVPReqRes")]);
   (* asn1crypto/cms.py:696-698 *)
   ("cms.KeyEncryptionAlgorithm", [("rsaes_oaep", "algos.RSAESOAEPParams")]);
   (* asn1crypto/pkcs12.py:85-90 *)
   ("pkcs12.Attribute", [("friendly_name", "pkcs12.SetOfBMPString"); ("local_key_id", "pkcs12.SetOfOctetString"); ("microsoft_csp_name", "pkcs12.SetOfBMPString"); ("trusted_key_usage", "pkcs12.SetOfKeyPurposeId")]);
   (* asn1crypto/pkcs12.py:152-154 *)
   ("pkcs12.CertBag", [("x509", "x509.Certificate")]);
   (* asn1crypto/pkcs12.py:183-190 *)
   ("pkcs12.SafeBag", [("key_bag", "keys.PrivateKeyInfo"); ("pkcs8_shrouded_key_bag", "keys.EncryptedPrivateKeyInfo"); ("cert_bag", "pkcs12.CertBag"); ("crl_bag", "pkcs12.CrlBag"); ("secret_bag", "pkcs12.SecretBag"); ("safe_contents", "pkcs12.SafeContents")])].

(* the names defined in the bodies of the classes *)
Definition defines : list (string * list string) :=
  [("core.Asn1Value", ["__bytes__"; "__copy__"; "__deepcopy__"; "__init__"; "__reduce__"; "__repr__"; "__str__"; "__unicode__"; "_bad_tag"; "_copy"; "_header"; "_native"; "_new_instance"; "_trailer"; "class_"; "contents"; "copy"; "debug"; "dump"; "explicit"; "implicit"; "load"; "method"; "retag"; "tag"; "untag"]);
   ("core.ValueMap", ["_map"; "_reverse_map"; "_setup"]);
   ("core.Castable", ["cast"]);
   ("core.Constructable", ["_as_chunk"; "_copy"; "_indefinite"; "_merge_chunks"; "_setable_native"]);
   ("core.Void", ["__eq__"; "__iter__"; "__len__"; "__nonzero__"; "contents"; "dump"; "native"]);
   ("core.Any", ["__init__"; "_copy"; "_parsed"; "dump"; "native"; "parse"; "parsed"]);
   ("core.Choice", ["__init__"; "_alternatives"; "_choice"; "_contents"; "_copy"; "_format_class_tag"; "_id_map"; "_name"; "_name_map"; "_parsed"; "_setup"; "chosen"; "contents"; "dump"; "load"; "name"; "native"; "parse"; "validate"]);
   ("core.Concat", ["__bytes__"; "__copy__"; "__deepcopy__"; "__getitem__"; "__init__"; "__iter__"; "__len__"; "__repr__"; "__setitem__"; "__str__"; "__unicode__"; "_child_specs"; "_children"; "_copy"; "contents"; "copy"; "debug"; "dump"; "load"]);
   ("core.Primitive", ["__eq__"; "__init__"; "__ne__"; "class_"; "dump"; "method"; "set"]);
   ("core.AbstractString", ["__unicode__"; "_copy"; "_encoding"; "_unicode"; "native"; "set"]);
   ("core.Boolean", ["__bool__"; "__nonzero__"; "native"; "set"; "tag"]);
   ("core.Integer", ["__int__"; "native"; "set"; "tag"]);
   ("core._IntegerBitString", ["_as_chunk"; "_chunks_to_int"; "_copy"; "_unused_bits"; "unused_bits"]);
   ("core.BitString", ["__getitem__"; "__setitem__"; "_setup"; "_size"; "native"; "set"; "tag"]);
   ("core.OctetBitString", ["__bytes__"; "_as_chunk"; "_bytes"; "_copy"; "_unused_bits"; "native"; "set"; "tag"; "unused_bits"]);
   ("core.IntegerBitString", ["native"; "set"; "tag"]);
   ("core.OctetString", ["__bytes__"; "_bytes"; "_copy"; "native"; "set"; "tag"]);
   ("core.IntegerOctetString", ["_encoded_width"; "native"; "set"; "set_encoded_width"; "tag"]);
   ("core.ParsableOctetString", ["__bytes__"; "__init__"; "_bytes"; "_copy"; "_parsed"; "_setable_native"; "dump"; "native"; "parse"; "parsed"; "set"; "tag"]);
   ("core.ParsableOctetBitString", ["_as_chunk"; "set"; "tag"]);
   ("core.Null", ["contents"; "native"; "set"; "tag"]);
   ("core.ObjectIdentifier", ["__unicode__"; "_dotted"; "dotted"; "map"; "native"; "set"; "tag"; "unmap"]);
   ("core.ObjectDescriptor", ["tag"]);
   ("core.InstanceOf", ["tag"]);
   ("core.Real", ["tag"]);
   ("core.Enumerated", ["native"; "set"; "tag"]);
   ("core.UTF8String", ["_encoding"; "tag"]);
   ("core.RelativeOid", ["tag"]);
   ("core.Sequence", ["__delitem__"; "__getitem__"; "__init__"; "__iter__"; "__len__"; "__setitem__"; "_contents"; "_copy"; "_determine_spec"; "_field_ids"; "_field_map"; "_fields"; "_is_mutated"; "_lazy_child"; "_make_value"; "_mutated"; "_oid_nums"; "_oid_pair"; "_oid_specs"; "_parse_children"; "_precomputed_specs"; "_set_contents"; "_setup"; "_spec_callbacks"; "children"; "class_"; "contents"; "debug"; "dump"; "method"; "native"; "spec"; "tag"]);
   ("core.SequenceOf", ["__contains__"; "__delitem__"; "__getitem__"; "__init__"; "__iter__"; "__len__"; "__setitem__"; "_child_spec"; "_contents"; "_copy"; "_is_mutated"; "_lazy_child"; "_make_value"; "_mutated"; "_parse_children"; "_set_contents"; "append"; "children"; "class_"; "contents"; "debug"; "dump"; "method"; "native"; "spec"; "tag"]);
   ("core.Set", ["_field_ids"; "_parse_children"; "_set_contents"; "_setup"; "class_"; "method"; "tag"]);
   ("core.SetOf", ["_set_contents"; "tag"]);
   ("core.EmbeddedPdv", ["tag"]);
   ("core.NumericString", ["_encoding"; "tag"]);
   ("core.PrintableString", ["_encoding"; "tag"]);
   ("core.TeletexString", ["_encoding"; "tag"]);
   ("core.VideotexString", ["tag"]);
   ("core.IA5String", ["_encoding"; "tag"]);
   ("core.AbstractTime", ["_parsed_time"; "native"]);
   ("core.UTCTime", ["_TIMESTRING_RE"; "_get_datetime"; "set"; "tag"]);
   ("core.GeneralizedTime", ["_TIMESTRING_RE"; "_get_datetime"; "set"; "tag"]);
   ("core.GraphicString", ["_encoding"; "tag"]);
   ("core.VisibleString", ["_encoding"; "tag"]);
   ("core.GeneralString", ["_encoding"; "tag"]);
   ("core.UniversalString", ["_encoding"; "tag"]);
   ("core.CharacterString", ["_encoding"; "tag"]);
   ("core.BMPString", ["_encoding"; "tag"]);
   ("algos.AlgorithmIdentifier", ["_fields"]);
   ("algos._ForceNullParameters", ["__setitem__"; "_null_algos"; "_parameters_spec"; "_spec_callbacks"]);
   ("algos.HmacAlgorithmId", ["_map"]);
   ("algos.HmacAlgorithm", ["_fields"]);
   ("algos.DigestAlgorithmId", ["_map"]);
   ("algos.DigestAlgorithm", ["_fields"]);
   ("algos.DigestInfo", ["_fields"]);
   ("algos.MaskGenAlgorithmId", ["_map"]);
   ("algos.MaskGenAlgorithm", ["_fields"; "_oid_pair"; "_oid_specs"]);
   ("algos.TrailerField", ["_map"]);
   ("algos.RSASSAPSSParams", ["_fields"]);
   ("algos.SignedDigestAlgorithmId", ["_map"; "_reverse_map"]);
   ("algos.SignedDigestAlgorithm", ["_algo_map"; "_fields"; "_oid_pair"; "_oid_specs"; "cms_hash_algo"; "hash_algo"; "signature_algo"]);
   ("algos.Pbkdf2Salt", ["_alternatives"]);
   ("algos.Pbkdf2Params", ["_fields"]);
   ("algos.ScryptParams", ["_fields"]);
   ("algos.KdfAlgorithmId", ["_map"]);
   ("algos.KdfAlgorithm", ["_fields"; "_oid_pair"; "_oid_specs"]);
   ("algos.DHParameters", ["_fields"]);
   ("algos.KeyExchangeAlgorithmId", ["_map"]);
   ("algos.KeyExchangeAlgorithm", ["_fields"; "_oid_pair"; "_oid_specs"]);
   ("algos.Rc2Params", ["_fields"]);
   ("algos.Rc5ParamVersion", ["_map"]);
   ("algos.Rc5Params", ["_fields"]);
   ("algos.Pbes1Params", ["_fields"]);
   ("algos.CcmParams", ["_fields"]);
   ("algos.PSourceAlgorithmId", ["_map"]);
   ("algos.PSourceAlgorithm", ["_fields"; "_oid_pair"; "_oid_specs"]);
   ("algos.RSAESOAEPParams", ["_fields"]);
   ("algos.DSASignature", ["_fields"; "from_p1363"; "to_p1363"]);
   ("algos.EncryptionAlgorithmId", ["_map"]);
   ("algos.EncryptionAlgorithm", ["_fields"; "_oid_pair"; "_oid_specs"; "encryption_block_size"; "encryption_cipher"; "encryption_iv"; "encryption_mode"; "kdf"; "kdf_hmac"; "kdf_iterations"; "kdf_salt"; "key_length"]);
   ("algos.Pbes2Params", ["_fields"]);
   ("algos.Pbmac1Params", ["_fields"]);
   ("algos.Pkcs5MacId", ["_map"]);
   ("algos.Pkcs5MacAlgorithm", ["_fields"; "_oid_pair"; "_oid_specs"]);
   ("algos.AnyAlgorithmId", ["_map"; "_setup"]);
   ("algos.AnyAlgorithmIdentifier", ["_fields"; "_oid_pair"; "_oid_specs"; "_setup"]);
   ("keys.OtherPrimeInfo", ["_fields"]);
   ("keys.OtherPrimeInfos", ["_child_spec"]);
   ("keys.RSAPrivateKeyVersion", ["_map"]);
   ("keys.RSAPrivateKey", ["_fields"]);
   ("keys.RSAPublicKey", ["_fields"]);
   ("keys.DSAPrivateKey", ["_fields"]);
   ("keys._ECPoint", ["from_coords"; "to_coords"]);
   ("keys.ECPoint", []);
   ("keys.ECPointBitString", []);
   ("keys.SpecifiedECDomainVersion", ["_map"]);
   ("keys.FieldType", ["_map"]);
   ("keys.CharacteristicTwoBasis", ["_map"]);
   ("keys.Pentanomial", ["_fields"]);
   ("keys.CharacteristicTwo", ["_fields"; "_oid_pair"; "_oid_specs"]);
   ("keys.FieldID", ["_fields"; "_oid_pair"; "_oid_specs"]);
   ("keys.Curve", ["_fields"]);
   ("keys.SpecifiedECDomain", ["_fields"]);
   ("keys.NamedCurve", ["_key_sizes"; "_map"; "register"]);
   ("keys.ECDomainParameters", ["_alternatives"; "key_size"]);
   ("keys.ECPrivateKeyVersion", ["_map"]);
   ("keys.ECPrivateKey", ["__setitem__"; "_fields"; "_key_size"; "_update_key_size"; "set_key_size"]);
   ("keys.DSAParams", ["_fields"; "q_byte_size"]);
   ("keys.Attribute", ["_fields"]);
   ("keys.Attributes", ["_child_spec"]);
   ("keys.PrivateKeyAlgorithmId", ["_map"]);
   ("keys.PrivateKeyAlgorithm", ["_fields"; "_oid_pair"; "_oid_specs"]);
   ("keys.PrivateKeyInfo", ["__setitem__"; "_algorithm"; "_bit_size"; "_fields"; "_fingerprint"; "_private_key_spec"; "_public_key"; "_spec_callbacks"; "algorithm"; "bit_size"; "byte_size"; "curve"; "fingerprint"; "hash_algo"; "public_key"; "public_key_info"; "unwrap"; "wrap"]);
   ("keys.EncryptedPrivateKeyInfo", ["_fields"]);
   ("keys.ValidationParms", ["_fields"]);
   ("keys.DomainParameters", ["_fields"]);
   ("keys.PublicKeyAlgorithmId", ["_map"]);
   ("keys.PublicKeyAlgorithm", ["_fields"; "_oid_pair"; "_oid_specs"]);
   ("keys.PublicKeyInfo", ["_algorithm"; "_bit_size"; "_fields"; "_fingerprint"; "_public_key_spec"; "_sha1"; "_sha256"; "_spec_callbacks"; "algorithm"; "bit_size"; "byte_size"; "curve"; "fingerprint"; "hash_algo"; "sha1"; "sha256"; "unwrap"; "wrap"]);
   ("x509.DNSName", ["__eq__"; "__ne__"; "_bad_tag"; "_encoding"; "set"]);
   ("x509.URI", ["__eq__"; "__ne__"; "__unicode__"; "set"]);
   ("x509.EmailAddress", ["__eq__"; "__ne__"; "__unicode__"; "_bad_tag"; "_contents"; "_normalized"; "contents"; "set"]);
   ("x509.IPAddress", ["__eq__"; "__ne__"; "native"; "parse"; "set"]);
   ("x509.Attribute", ["_fields"]);
   ("x509.Attributes", ["_child_spec"]);
   ("x509.KeyUsage", ["_map"]);
   ("x509.PrivateKeyUsagePeriod", ["_fields"]);
   ("x509.NotReallyTeletexString", ["__unicode__"; "_decoding_encoding"]);
   ("x509.DirectoryString", ["_alternatives"]);
   ("x509.NameType", ["_map"; "human_friendly"; "preferred_order"; "preferred_ordinal"]);
   ("x509.NameTypeAndValue", ["__eq__"; "__ne__"; "_fields"; "_ldap_string_prep"; "_oid_pair"; "_oid_specs"; "_prepped"; "prepped_value"]);
   ("x509.RelativeDistinguishedName", ["__eq__"; "__ne__"; "_child_spec"; "_get_types"; "_get_values"; "hashable"]);
   ("x509.RDNSequence", ["__eq__"; "__ne__"; "_child_spec"; "hashable"]);
   ("x509.Name", ["__eq__"; "__len__"; "__ne__"; "_alternatives"; "_human_friendly"; "_recursive_humanize"; "_sha1"; "_sha256"; "build"; "hashable"; "human_friendly"; "native"; "sha1"; "sha256"]);
   ("x509.AnotherName", ["_fields"]);
   ("x509.CountryName", ["_alternatives"; "class_"; "tag"]);
   ("x509.AdministrationDomainName", ["_alternatives"; "class_"; "tag"]);
   ("x509.PrivateDomainName", ["_alternatives"]);
   ("x509.PersonalName", ["_fields"]);
   ("x509.TeletexPersonalName", ["_fields"]);
   ("x509.OrganizationalUnitNames", ["_child_spec"]);
   ("x509.TeletexOrganizationalUnitNames", ["_child_spec"]);
   ("x509.BuiltInStandardAttributes", ["_fields"]);
   ("x509.BuiltInDomainDefinedAttribute", ["_fields"]);
   ("x509.BuiltInDomainDefinedAttributes", ["_child_spec"]);
   ("x509.TeletexDomainDefinedAttribute", ["_fields"]);
   ("x509.TeletexDomainDefinedAttributes", ["_child_spec"]);
   ("x509.PhysicalDeliveryCountryName", ["_alternatives"]);
   ("x509.PostalCode", ["_alternatives"]);
   ("x509.PDSParameter", ["_fields"]);
   ("x509.PrintableAddress", ["_child_spec"]);
   ("x509.UnformattedPostalAddress", ["_fields"]);
   ("x509.E1634Address", ["_fields"]);
   ("x509.NAddresses", ["_child_spec"]);
   ("x509.PresentationAddress", ["_fields"]);
   ("x509.ExtendedNetworkAddress", ["_alternatives"]);
   ("x509.TerminalType", ["_map"]);
   ("x509.ExtensionAttributeType", ["_map"]);
   ("x509.ExtensionAttribute", ["_fields"; "_oid_pair"; "_oid_specs"]);
   ("x509.ExtensionAttributes", ["_child_spec"]);
   ("x509.ORAddress", ["_fields"]);
   ("x509.EDIPartyName", ["_fields"]);
   ("x509.GeneralName", ["__eq__"; "__ne__"; "_alternatives"]);
   ("x509.GeneralNames", ["_child_spec"]);
   ("x509.Time", ["_alternatives"]);
   ("x509.Validity", ["_fields"]);
   ("x509.BasicConstraints", ["_fields"]);
   ("x509.AuthorityKeyIdentifier", ["_fields"]);
   ("x509.DistributionPointName", ["_alternatives"]);
   ("x509.ReasonFlags", ["_map"]);
   ("x509.GeneralSubtree", ["_fields"]);
   ("x509.GeneralSubtrees", ["_child_spec"]);
   ("x509.NameConstraints", ["_fields"]);
   ("x509.DistributionPoint", ["_fields"; "_url"; "url"]);
   ("x509.CRLDistributionPoints", ["_child_spec"]);
   ("x509.DisplayText", ["_alternatives"]);
   ("x509.NoticeNumbers", ["_child_spec"]);
   ("x509.NoticeReference", ["_fields"]);
   ("x509.UserNotice", ["_fields"]);
   ("x509.PolicyQualifierId", ["_map"]);
   ("x509.PolicyQualifierInfo", ["_fields"; "_oid_pair"; "_oid_specs"]);
   ("x509.PolicyQualifierInfos", ["_child_spec"]);
   ("x509.PolicyIdentifier", ["_map"]);
   ("x509.PolicyInformation", ["_fields"]);
   ("x509.CertificatePolicies", ["_child_spec"]);
   ("x509.PolicyMapping", ["_fields"]);
   ("x509.PolicyMappings", ["_child_spec"]);
   ("x509.PolicyConstraints", ["_fields"]);
   ("x509.KeyPurposeId", ["_map"]);
   ("x509.ExtKeyUsageSyntax", ["_child_spec"]);
   ("x509.AccessMethod", ["_map"]);
   ("x509.AccessDescription", ["_fields"]);
   ("x509.AuthorityInfoAccessSyntax", ["_child_spec"]);
   ("x509.SubjectInfoAccessSyntax", ["_child_spec"]);
   ("x509.Features", ["_child_spec"]);
   ("x509.EntrustVersionInfo", ["_fields"]);
   ("x509.NetscapeCertificateType", ["_map"]);
   ("x509.Version", ["_map"]);
   ("x509.TPMSpecification", ["_fields"]);
   ("x509.SetOfTPMSpecification", ["_child_spec"]);
   ("x509.TCGSpecificationVersion", ["_fields"]);
   ("x509.TCGPlatformSpecification", ["_fields"]);
   ("x509.SetOfTCGPlatformSpecification", ["_child_spec"]);
   ("x509.EKGenerationType", ["_map"]);
   ("x509.EKGenerationLocation", ["_map"]);
   ("x509.EKCertificateGenerationLocation", ["_map"]);
   ("x509.EvaluationAssuranceLevel", ["_map"]);
   ("x509.EvaluationStatus", ["_map"]);
   ("x509.StrengthOfFunction", ["_map"]);
   ("x509.URIReference", ["_fields"]);
   ("x509.CommonCriteriaMeasures", ["_fields"]);
   ("x509.SecurityLevel", ["_map"]);
   ("x509.FIPSLevel", ["_fields"]);
   ("x509.TPMSecurityAssertions", ["_fields"]);
   ("x509.SetOfTPMSecurityAssertions", ["_child_spec"]);
   ("x509.SubjectDirectoryAttributeId", ["_map"]);
   ("x509.SetOfGeneralizedTime", ["_child_spec"]);
   ("x509.SetOfDirectoryString", ["_child_spec"]);
   ("x509.SetOfPrintableString", ["_child_spec"]);
   ("x509.SupportedAlgorithm", ["_fields"]);
   ("x509.SetOfSupportedAlgorithm", ["_child_spec"]);
   ("x509.SubjectDirectoryAttribute", ["_fields"; "_oid_pair"; "_oid_specs"; "_spec_callbacks"; "_values_spec"]);
   ("x509.SubjectDirectoryAttributes", ["_child_spec"]);
   ("x509.ExtensionId", ["_map"]);
   ("x509.Extension", ["_fields"; "_oid_pair"; "_oid_specs"]);
   ("x509.Extensions", ["_child_spec"]);
   ("x509.TbsCertificate", ["_fields"]);
   ("x509.Certificate", ["_authority_information_access_value"; "_authority_issuer_serial"; "_authority_key_identifier_value"; "_basic_constraints_value"; "_certificate_policies_value"; "_critical_extensions"; "_crl_distribution_points"; "_crl_distribution_points_value"; "_delta_crl_distribution_points"; "_extended_key_usage_value"; "_fields"; "_freshest_crl_value"; "_get_http_crl_distribution_points"; "_inhibit_any_policy_value"; "_is_wildcard_domain"; "_is_wildcard_match"; "_issuer_alt_name_value"; "_issuer_serial"; "_key_identifier_value"; "_key_usage_value"; "_name_constraints_value"; "_ocsp_no_check_value"; "_policy_constraints_value"; "_policy_mappings_value"; "_private_key_usage_period_value"; "_processed_extensions"; "_self_issued"; "_self_signed"; "_set_extensions"; "_sha1"; "_sha256"; "_subject_alt_name_value"; "_subject_directory_attributes_value"; "_subject_information_access_value"; "_tls_feature_value"; "_valid_domains"; "_valid_ips"; "authority_information_access_value"; "authority_issuer_serial"; "authority_key_identifier"; "authority_key_identifier_value"; "basic_constraints_value"; "ca"; "certificate_policies_value"; "critical_extensions"; "crl_distribution_points"; "crl_distribution_points_value"; "delta_crl_distribution_points"; "extended_key_usage_value"; "freshest_crl_value"; "hash_algo"; "inhibit_any_policy_value"; "is_valid_domain_ip"; "issuer"; "issuer_alt_name_value"; "issuer_serial"; "key_identifier"; "key_identifier_value"; "key_usage_value"; "max_path_length"; "name_constraints_value"; "not_valid_after"; "not_valid_before"; "ocsp_no_check_value"; "ocsp_urls"; "policy_constraints_value"; "policy_mappings_value"; "private_key_usage_period_value"; "public_key"; "self_issued"; "self_signed"; "serial_number"; "sha1"; "sha1_fingerprint"; "sha256"; "sha256_fingerprint"; "signature"; "signature_algo"; "subject"; "subject_alt_name_value"; "subject_directory_attributes_value"; "subject_information_access_value"; "tls_feature_value"; "valid_domains"; "valid_ips"]);
   ("x509.KeyPurposeIdentifiers", ["_child_spec"]);
   ("x509.SequenceOfAlgorithmIdentifiers", ["_child_spec"]);
   ("x509.CertificateAux", ["_fields"]);
   ("x509.TrustedCertificate", ["_child_specs"]);
   ("crl.Version", ["_map"]);
   ("crl.IssuingDistributionPoint", ["_fields"]);
   ("crl.TBSCertListExtensionId", ["_map"]);
   ("crl.TBSCertListExtension", ["_fields"; "_oid_pair"; "_oid_specs"]);
   ("crl.TBSCertListExtensions", ["_child_spec"]);
   ("crl.CRLReason", ["_map"; "human_friendly"]);
   ("crl.CRLEntryExtensionId", ["_map"]);
   ("crl.CRLEntryExtension", ["_fields"; "_oid_pair"; "_oid_specs"]);
   ("crl.CRLEntryExtensions", ["_child_spec"]);
   ("crl.RevokedCertificate", ["_certificate_issuer_value"; "_critical_extensions"; "_crl_reason_value"; "_fields"; "_invalidity_date_value"; "_issuer_name"; "_processed_extensions"; "_set_extensions"; "certificate_issuer_value"; "critical_extensions"; "crl_reason_value"; "invalidity_date_value"; "issuer_name"]);
   ("crl.RevokedCertificates", ["_child_spec"]);
   ("crl.TbsCertList", ["_fields"]);
   ("crl.CertificateList", ["_authority_information_access_value"; "_authority_key_identifier_value"; "_critical_extensions"; "_crl_number_value"; "_delta_crl_distribution_points"; "_delta_crl_indicator_value"; "_fields"; "_freshest_crl_value"; "_issuer_alt_name_value"; "_issuer_cert_urls"; "_issuing_distribution_point_value"; "_processed_extensions"; "_set_extensions"; "_sha1"; "_sha256"; "authority_information_access_value"; "authority_key_identifier"; "authority_key_identifier_value"; "critical_extensions"; "crl_number_value"; "delta_crl_distribution_points"; "delta_crl_indicator_value"; "freshest_crl_value"; "issuer"; "issuer_alt_name_value"; "issuer_cert_urls"; "issuing_distribution_point_value"; "sha1"; "sha256"; "signature"]);
   ("csr.Version", ["_map"]);
   ("csr.CSRAttributeType", ["_map"]);
   ("csr.SetOfDirectoryString", ["_child_spec"]);
   ("csr.Attribute", ["_fields"]);
   ("csr.SetOfAttributes", ["_child_spec"]);
   ("csr.SetOfExtensions", ["_child_spec"]);
   ("csr.MicrosoftEnrollmentCSProvider", ["_fields"]);
   ("csr.SetOfMicrosoftEnrollmentCSProvider", ["_child_spec"]);
   ("csr.MicrosoftRequestClientInfo", ["_fields"]);
   ("csr.SetOfMicrosoftRequestClientInfo", ["_child_spec"]);
   ("csr.CRIAttribute", ["_fields"; "_oid_pair"; "_oid_specs"]);
   ("csr.CRIAttributes", ["_child_spec"]);
   ("csr.CertificationRequestInfo", ["_fields"]);
   ("csr.CertificationRequest", ["_fields"]);
   ("ocsp.Version", ["_map"]);
   ("ocsp.CertId", ["_fields"]);
   ("ocsp.ServiceLocator", ["_fields"]);
   ("ocsp.RequestExtensionId", ["_map"]);
   ("ocsp.RequestExtension", ["_fields"; "_oid_pair"; "_oid_specs"]);
   ("ocsp.RequestExtensions", ["_child_spec"]);
   ("ocsp.Request", ["_critical_extensions"; "_fields"; "_processed_extensions"; "_service_locator_value"; "_set_extensions"; "critical_extensions"; "service_locator_value"]);
   ("ocsp.Requests", ["_child_spec"]);
   ("ocsp.ResponseType", ["_map"]);
   ("ocsp.AcceptableResponses", ["_child_spec"]);
   ("ocsp.PreferredSignatureAlgorithm", ["_fields"]);
   ("ocsp.PreferredSignatureAlgorithms", ["_child_spec"]);
   ("ocsp.TBSRequestExtensionId", ["_map"]);
   ("ocsp.TBSRequestExtension", ["_fields"; "_oid_pair"; "_oid_specs"]);
   ("ocsp.TBSRequestExtensions", ["_child_spec"]);
   ("ocsp.TBSRequest", ["_fields"]);
   ("ocsp.Certificates", ["_child_spec"]);
   ("ocsp.Signature", ["_fields"]);
   ("ocsp.OCSPRequest", ["_acceptable_responses_value"; "_critical_extensions"; "_fields"; "_nonce_value"; "_preferred_signature_algorithms_value"; "_processed_extensions"; "_set_extensions"; "acceptable_responses_value"; "critical_extensions"; "nonce_value"; "preferred_signature_algorithms_value"]);
   ("ocsp.OCSPResponseStatus", ["_map"]);
   ("ocsp.ResponderId", ["_alternatives"]);
   ("ocsp.StatusGood", ["native"; "set"]);
   ("ocsp.StatusUnknown", ["native"; "set"]);
   ("ocsp.RevokedInfo", ["_fields"]);
   ("ocsp.CertStatus", ["_alternatives"]);
   ("ocsp.CrlId", ["_fields"]);
   ("ocsp.SingleResponseExtensionId", ["_map"]);
   ("ocsp.SingleResponseExtension", ["_fields"; "_oid_pair"; "_oid_specs"]);
   ("ocsp.SingleResponseExtensions", ["_child_spec"]);
   ("ocsp.SingleResponse", ["_archive_cutoff_value"; "_certificate_issuer_value"; "_critical_extensions"; "_crl_reason_value"; "_crl_value"; "_fields"; "_invalidity_date_value"; "_processed_extensions"; "_set_extensions"; "archive_cutoff_value"; "certificate_issuer_value"; "critical_extensions"; "crl_reason_value"; "crl_value"; "invalidity_date_value"]);
   ("ocsp.Responses", ["_child_spec"]);
   ("ocsp.ResponseDataExtensionId", ["_map"]);
   ("ocsp.ResponseDataExtension", ["_fields"; "_oid_pair"; "_oid_specs"]);
   ("ocsp.ResponseDataExtensions", ["_child_spec"]);
   ("ocsp.ResponseData", ["_fields"]);
   ("ocsp.BasicOCSPResponse", ["_fields"]);
   ("ocsp.ResponseBytes", ["_fields"; "_oid_pair"; "_oid_specs"]);
   ("ocsp.OCSPResponse", ["_critical_extensions"; "_extended_revoke_value"; "_fields"; "_nonce_value"; "_processed_extensions"; "_set_extensions"; "basic_ocsp_response"; "critical_extensions"; "extended_revoke_value"; "nonce_value"; "response_data"]);
   ("cms.ExtendedCertificateInfo", ["_fields"]);
   ("cms.ExtendedCertificate", ["_fields"]);
   ("cms.CMSVersion", ["_map"]);
   ("cms.CMSAttributeType", ["_map"]);
   ("cms.Time", ["_alternatives"]);
   ("cms.ContentType", ["_map"]);
   ("cms.CMSAlgorithmProtection", ["_fields"]);
   ("cms.SetOfContentType", ["_child_spec"]);
   ("cms.SetOfOctetString", ["_child_spec"]);
   ("cms.SetOfTime", ["_child_spec"]);
   ("cms.SetOfAny", ["_child_spec"]);
   ("cms.SetOfCMSAlgorithmProtection", ["_child_spec"]);
   ("cms.CMSAttribute", ["_fields"; "_oid_specs"; "_spec_callbacks"; "_values_spec"]);
   ("cms.CMSAttributes", ["_child_spec"]);
   ("cms.IssuerSerial", ["_fields"]);
   ("cms.AttCertVersion", ["_map"]);
   ("cms.AttCertSubject", ["_alternatives"]);
   ("cms.AttCertValidityPeriod", ["_fields"]);
   ("cms.AttributeCertificateInfoV1", ["_fields"]);
   ("cms.AttributeCertificateV1", ["_fields"]);
   ("cms.DigestedObjectType", ["_map"]);
   ("cms.ObjectDigestInfo", ["_fields"]);
   ("cms.Holder", ["_fields"]);
   ("cms.V2Form", ["_fields"]);
   ("cms.AttCertIssuer", ["_alternatives"]);
   ("cms.IetfAttrValue", ["_alternatives"]);
   ("cms.IetfAttrValues", ["_child_spec"]);
   ("cms.IetfAttrSyntax", ["_fields"]);
   ("cms.SetOfIetfAttrSyntax", ["_child_spec"]);
   ("cms.SvceAuthInfo", ["_fields"]);
   ("cms.SetOfSvceAuthInfo", ["_child_spec"]);
   ("cms.RoleSyntax", ["_fields"]);
   ("cms.SetOfRoleSyntax", ["_child_spec"]);
   ("cms.ClassList", ["_map"]);
   ("cms.SecurityCategory", ["_fields"]);
   ("cms.SetOfSecurityCategory", ["_child_spec"]);
   ("cms.Clearance", ["_fields"]);
   ("cms.SetOfClearance", ["_child_spec"]);
   ("cms.BigTime", ["_fields"]);
   ("cms.LeapData", ["_fields"]);
   ("cms.SetOfLeapData", ["_child_spec"]);
   ("cms.TimingMetrics", ["_fields"]);
   ("cms.SetOfTimingMetrics", ["_child_spec"]);
   ("cms.TimingPolicy", ["_fields"]);
   ("cms.SetOfTimingPolicy", ["_child_spec"]);
   ("cms.AttCertAttributeType", ["_map"]);
   ("cms.AttCertAttribute", ["_fields"; "_oid_specs"; "_spec_callbacks"; "_values_spec"]);
   ("cms.AttCertAttributes", ["_child_spec"]);
   ("cms.AttributeCertificateInfoV2", ["_fields"]);
   ("cms.AttributeCertificateV2", ["_bad_tag"; "_fields"]);
   ("cms.OtherCertificateFormat", ["_fields"]);
   ("cms.CertificateChoices", ["_alternatives"; "validate"]);
   ("cms.CertificateSet", ["_child_spec"]);
   ("cms.ContentInfo", ["_fields"; "_oid_pair"; "_oid_specs"]);
   ("cms.SetOfContentInfo", ["_child_spec"]);
   ("cms.EncapsulatedContentInfo", ["_fields"; "_oid_pair"; "_oid_specs"]);
   ("cms.IssuerAndSerialNumber", ["_fields"]);
   ("cms.SignerIdentifier", ["_alternatives"]);
   ("cms.DigestAlgorithms", ["_child_spec"]);
   ("cms.CertificateRevocationLists", ["_child_spec"]);
   ("cms.SCVPReqRes", ["_fields"]);
   ("cms.OtherRevInfoFormatId", ["_map"]);
   ("cms.OtherRevocationInfoFormat", ["_fields"; "_oid_pair"; "_oid_specs"]);
   ("cms.RevocationInfoChoice", ["_alternatives"]);
   ("cms.RevocationInfoChoices", ["_child_spec"]);
   ("cms.SignerInfo", ["_fields"]);
   ("cms.SignerInfos", ["_child_spec"]);
   ("cms.SignedData", ["_encap_content_info_spec"; "_fields"; "_spec_callbacks"]);
   ("cms.OriginatorInfo", ["_fields"]);
   ("cms.RecipientIdentifier", ["_alternatives"]);
   ("cms.KeyEncryptionAlgorithmId", ["_map"; "_reverse_map"]);
   ("cms.KeyEncryptionAlgorithm", ["_fields"; "_oid_pair"; "_oid_specs"]);
   ("cms.KeyTransRecipientInfo", ["_fields"]);
   ("cms.OriginatorIdentifierOrKey", ["_alternatives"]);
   ("cms.OtherKeyAttribute", ["_fields"]);
   ("cms.RecipientKeyIdentifier", ["_fields"; "_setup"]);
   ("cms.KeyAgreementRecipientIdentifier", ["_alternatives"]);
   ("cms.RecipientEncryptedKey", ["_fields"]);
   ("cms.RecipientEncryptedKeys", ["_child_spec"]);
   ("cms.KeyAgreeRecipientInfo", ["_fields"]);
   ("cms.KEKIdentifier", ["_fields"]);
   ("cms.KEKRecipientInfo", ["_fields"]);
   ("cms.PasswordRecipientInfo", ["_fields"]);
   ("cms.OtherRecipientInfo", ["_fields"]);
   ("cms.RecipientInfo", ["_alternatives"]);
   ("cms.RecipientInfos", ["_child_spec"]);
   ("cms.EncryptedContentInfo", ["_fields"]);
   ("cms.EnvelopedData", ["_fields"]);
   ("cms.SignedAndEnvelopedData", ["_fields"]);
   ("cms.DigestedData", ["_encap_content_info_spec"; "_fields"; "_spec_callbacks"]);
   ("cms.EncryptedData", ["_fields"]);
   ("cms.AuthenticatedData", ["_fields"]);
   ("cms.AuthEnvelopedData", ["_fields"]);
   ("cms.CompressionAlgorithmId", ["_map"]);
   ("cms.CompressionAlgorithm", ["_fields"]);
   ("cms.CompressedData", ["_decompressed"; "_fields"; "decompressed"]);
   ("cms.SMIMEEncryptionKeyPreference", ["_alternatives"; "_setup"]);
   ("cms.SMIMEEncryptionKeyPreferences", ["_child_spec"]);
   ("cms.SMIMECapabilityIdentifier", ["_fields"]);
   ("cms.SMIMECapabilites", ["_child_spec"]);
   ("cms.SetOfSMIMECapabilites", ["_child_spec"]);
   ("pkcs12.MacData", ["_fields"]);
   ("pkcs12.Version", ["_map"]);
   ("pkcs12.AttributeType", ["_map"]);
   ("pkcs12.SetOfAny", ["_child_spec"]);
   ("pkcs12.SetOfBMPString", ["_child_spec"]);
   ("pkcs12.SetOfOctetString", ["_child_spec"]);
   ("pkcs12.SetOfKeyPurposeId", ["_child_spec"]);
   ("pkcs12.Attribute", ["_fields"; "_oid_specs"; "_spec_callbacks"; "_values_spec"]);
   ("pkcs12.Attributes", ["_child_spec"]);
   ("pkcs12.Pfx", ["_authenticated_safe"; "_fields"; "authenticated_safe"]);
   ("pkcs12.AuthenticatedSafe", ["_child_spec"]);
   ("pkcs12.BagId", ["_map"]);
   ("pkcs12.CertId", ["_map"]);
   ("pkcs12.CertBag", ["_fields"; "_oid_pair"; "_oid_specs"]);
   ("pkcs12.CrlBag", ["_fields"]);
   ("pkcs12.SecretBag", ["_fields"]);
   ("pkcs12.SafeContents", []);
   ("pkcs12.SafeBag", ["_fields"; "_oid_pair"; "_oid_specs"]);
   ("tsp.Version", ["_map"]);
   ("tsp.MessageImprint", ["_fields"]);
   ("tsp.Accuracy", ["_fields"]);
   ("tsp.Extension", ["_fields"]);
   ("tsp.Extensions", ["_child_spec"]);
   ("tsp.TSTInfo", ["_fields"]);
   ("tsp.TimeStampReq", ["_fields"]);
   ("tsp.PKIStatus", ["_map"]);
   ("tsp.PKIFreeText", ["_child_spec"]);
   ("tsp.PKIFailureInfo", ["_map"]);
   ("tsp.PKIStatusInfo", ["_fields"]);
   ("tsp.TimeStampResp", ["_fields"]);
   ("tsp.MetaData", ["_fields"]);
   ("tsp.TimeStampAndCRL", ["_fields"]);
   ("tsp.TimeStampTokenEvidence", ["_child_spec"]);
   ("tsp.DigestAlgorithms", ["_child_spec"]);
   ("tsp.EncryptionInfo", ["_fields"]);
   ("tsp.PartialHashtree", ["_child_spec"]);
   ("tsp.PartialHashtrees", ["_child_spec"]);
   ("tsp.ArchiveTimeStamp", ["_fields"]);
   ("tsp.ArchiveTimeStampSequence", ["_child_spec"]);
   ("tsp.EvidenceRecord", ["_fields"]);
   ("tsp.OtherEvidence", ["_fields"]);
   ("tsp.Evidence", ["_alternatives"]);
   ("tsp.TimeStampedData", ["_fields"]);
   ("tsp.IssuerSerial", ["_fields"]);
   ("tsp.ESSCertID", ["_fields"]);
   ("tsp.ESSCertIDs", ["_child_spec"]);
   ("tsp.SigningCertificate", ["_fields"]);
   ("tsp.SetOfSigningCertificates", ["_child_spec"]);
   ("tsp.ESSCertIDv2", ["_fields"]);
   ("tsp.ESSCertIDv2s", ["_child_spec"]);
   ("tsp.SigningCertificateV2", ["_fields"]);
   ("tsp.SetOfSigningCertificatesV2", ["_child_spec"]);
   ("pdf.AdobeArchiveRevInfo", ["_fields"]);
   ("pdf.AdobeTimestamp", ["_fields"]);
   ("pdf.OtherRevInfo", ["_fields"]);
   ("pdf.SequenceOfCertificateList", ["_child_spec"]);
   ("pdf.SequenceOfOCSPResponse", ["_child_spec"]);
   ("pdf.SequenceOfOtherRevInfo", ["_child_spec"]);
   ("pdf.RevocationInfoArchival", ["_fields"]);
   ("pdf.SetOfRevocationInfoArchival", ["_child_spec"])].
