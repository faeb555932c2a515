(* The algorithm identifiers of RFC 3279, 4055, 5480, 5758, 8017, 8410, NIST CSOR and BSI
   TR-03111 with the scheme and the digest they stand for, written down from those
   documents and not from the tables of the library; and the ciphers of PKCS#5,
   PKCS#12 and NIST. *)
Require Import Verif.Base Verif.Text.
Require Coq.Strings.String.
Import Coq.Strings.String.StringSyntax.
Notation str := String.string.
Local Open Scope string_scope.

(* what an identifier says about the digest *)
Inductive digest_of :=
| Fixed (d : str)        (* named by the identifier *)
| InParameters           (* RSASSA-PSS *)
| Builtin (cms : str)    (* part of the scheme; CMS content is hashed with cms (RFC 8419) *)
| Open.                  (* left to the context *)

Definition schemes : list (str * (str * digest_of)) :=
  (* OIW *)
  [("1.3.14.3.2.3", ("rsassa_pkcs1v15", Fixed "md5"));
   ("1.3.14.3.2.29", ("rsassa_pkcs1v15", Fixed "sha1"));
   ("1.3.14.7.2.3.1", ("rsassa_pkcs1v15", Fixed "md2"));
   ("1.3.14.3.2.13", ("dsa", Fixed "sha1"));
   ("1.3.14.3.2.27", ("dsa", Fixed "sha1"));
  (* PKCS#1 *)
   ("1.2.840.113549.1.1.1", ("rsassa_pkcs1v15", Open));
   ("1.2.840.113549.1.1.2", ("rsassa_pkcs1v15", Fixed "md2"));
   ("1.2.840.113549.1.1.4", ("rsassa_pkcs1v15", Fixed "md5"));
   ("1.2.840.113549.1.1.5", ("rsassa_pkcs1v15", Fixed "sha1"));
   ("1.2.840.113549.1.1.10", ("rsassa_pss", InParameters));
   ("1.2.840.113549.1.1.11", ("rsassa_pkcs1v15", Fixed "sha256"));
   ("1.2.840.113549.1.1.12", ("rsassa_pkcs1v15", Fixed "sha384"));
   ("1.2.840.113549.1.1.13", ("rsassa_pkcs1v15", Fixed "sha512"));
   ("1.2.840.113549.1.1.14", ("rsassa_pkcs1v15", Fixed "sha224"));
  (* X9.57, X9.62 *)
   ("1.2.840.10040.4.1", ("dsa", Open));
   ("1.2.840.10040.4.3", ("dsa", Fixed "sha1"));
   ("1.2.840.10045.4", ("ecdsa", Open));
   ("1.2.840.10045.4.1", ("ecdsa", Fixed "sha1"));
   ("1.2.840.10045.4.3.1", ("ecdsa", Fixed "sha224"));
   ("1.2.840.10045.4.3.2", ("ecdsa", Fixed "sha256"));
   ("1.2.840.10045.4.3.3", ("ecdsa", Fixed "sha384"));
   ("1.2.840.10045.4.3.4", ("ecdsa", Fixed "sha512"));
  (* NIST sigAlgs *)
   ("2.16.840.1.101.3.4.3.1", ("dsa", Fixed "sha224"));
   ("2.16.840.1.101.3.4.3.2", ("dsa", Fixed "sha256"));
   ("2.16.840.1.101.3.4.3.3", ("dsa", Fixed "sha384"));
   ("2.16.840.1.101.3.4.3.4", ("dsa", Fixed "sha512"));
   ("2.16.840.1.101.3.4.3.5", ("dsa", Fixed "sha3_224"));
   ("2.16.840.1.101.3.4.3.6", ("dsa", Fixed "sha3_256"));
   ("2.16.840.1.101.3.4.3.7", ("dsa", Fixed "sha3_384"));
   ("2.16.840.1.101.3.4.3.8", ("dsa", Fixed "sha3_512"));
   ("2.16.840.1.101.3.4.3.9", ("ecdsa", Fixed "sha3_224"));
   ("2.16.840.1.101.3.4.3.10", ("ecdsa", Fixed "sha3_256"));
   ("2.16.840.1.101.3.4.3.11", ("ecdsa", Fixed "sha3_384"));
   ("2.16.840.1.101.3.4.3.12", ("ecdsa", Fixed "sha3_512"));
   ("2.16.840.1.101.3.4.3.13", ("rsassa_pkcs1v15", Fixed "sha3_224"));
   ("2.16.840.1.101.3.4.3.14", ("rsassa_pkcs1v15", Fixed "sha3_256"));
   ("2.16.840.1.101.3.4.3.15", ("rsassa_pkcs1v15", Fixed "sha3_384"));
   ("2.16.840.1.101.3.4.3.16", ("rsassa_pkcs1v15", Fixed "sha3_512"));
  (* RFC 8410 *)
   ("1.3.101.112", ("ed25519", Builtin "sha512"));
   ("1.3.101.113", ("ed448", Builtin "shake256"));
  (* BSI TR-03111: ecdsa-plain *)
   ("0.4.0.127.0.7.1.1.4.1.1", ("ecdsa", Fixed "sha1"));
   ("0.4.0.127.0.7.1.1.4.1.2", ("ecdsa", Fixed "sha224"));
   ("0.4.0.127.0.7.1.1.4.1.3", ("ecdsa", Fixed "sha256"));
   ("0.4.0.127.0.7.1.1.4.1.4", ("ecdsa", Fixed "sha384"));
   ("0.4.0.127.0.7.1.1.4.1.5", ("ecdsa", Fixed "sha512"));
   ("0.4.0.127.0.7.1.1.4.1.8", ("ecdsa", Fixed "sha3_224"));
   ("0.4.0.127.0.7.1.1.4.1.9", ("ecdsa", Fixed "sha3_256"));
   ("0.4.0.127.0.7.1.1.4.1.10", ("ecdsa", Fixed "sha3_384"));
   ("0.4.0.127.0.7.1.1.4.1.11", ("ecdsa", Fixed "sha3_512"))].

(* the names the documentation of the accessors lists (algos.py:394-396, 459-463) *)
Definition signature_names : list str :=
  ["rsassa_pkcs1v15"; "rsassa_pss"; "dsa"; "ecdsa"; "ed25519"; "ed448"].
Definition hash_names : list str :=
  ["md2"; "md5"; "sha1"; "sha224"; "sha256"; "sha384"; "sha512"; "sha512_224"; "sha512_256";
   "sha3_224"; "sha3_256"; "sha3_384"; "sha3_512"; "shake256"].

(* ---- ciphers ---- *)
Record cipher := Cipher { c_name : str; c_key : Z; c_block : Z; c_mode : str }.
Definition nist_aes (k : str * Z) (m : str * str) : str * cipher :=
  (String.append "2.16.840.1.101.3.4.1." (String.append (fst k) (fst m)),
   Cipher "aes" (snd k) 16 (snd m)).
(* NIST: the arcs are 0, 20 and 40 plus the number of the mode; key lengths in octets *)
Definition aes_modes : list (str * str) :=
  [("1", "ecb"); ("2", "cbc"); ("3", "ofb"); ("4", "cfb"); ("5", "wrap"); ("6", "gcm"); ("7", "ccm"); ("8", "wrap_pad")].
Definition aes_ciphers : list (str * cipher) :=
  flat_map (fun k => map (nist_aes k) aes_modes) [("", 16); ("2", 24); ("4", 32)]%Z.
(* FIPS 46-3, RFC 8018 appendix A.3 (PBES1; RC2 with 64 effective bits), RFC 7292 appendix C *)
Definition fixed_ciphers : list (str * cipher) :=
  [("1.3.14.3.2.7", Cipher "des" 8 8 "cbc");
   ("1.2.840.113549.3.7", Cipher "tripledes" 24 8 "cbc");
   ("1.2.840.113549.1.5.1", Cipher "des" 8 8 "cbc");
   ("1.2.840.113549.1.5.3", Cipher "des" 8 8 "cbc");
   ("1.2.840.113549.1.5.4", Cipher "rc2" 8 8 "cbc");
   ("1.2.840.113549.1.5.6", Cipher "rc2" 8 8 "cbc");
   ("1.2.840.113549.1.5.10", Cipher "des" 8 8 "cbc");
   ("1.2.840.113549.1.5.11", Cipher "rc2" 8 8 "cbc");
   ("1.2.840.113549.1.12.1.3", Cipher "tripledes" 24 8 "cbc");
   ("1.2.840.113549.1.12.1.4", Cipher "tripledes" 16 8 "cbc");
   ("1.2.840.113549.1.12.1.5", Cipher "rc2" 16 8 "cbc");
   ("1.2.840.113549.1.12.1.6", Cipher "rc2" 5 8 "cbc")].
Definition ciphers : list (str * cipher) := aes_ciphers ++ fixed_ciphers.

(* password based: the function that derives the key and its digest *)
Definition password_based : list (str * (str * str)) :=
  [("1.2.840.113549.1.5.1", ("pbkdf1", "md2"));
   ("1.2.840.113549.1.5.3", ("pbkdf1", "md5"));
   ("1.2.840.113549.1.5.4", ("pbkdf1", "md2"));
   ("1.2.840.113549.1.5.6", ("pbkdf1", "md5"));
   ("1.2.840.113549.1.5.10", ("pbkdf1", "sha1"));
   ("1.2.840.113549.1.5.11", ("pbkdf1", "sha1"));
   ("1.2.840.113549.1.12.1.1", ("pkcs12_kdf", "sha1"));
   ("1.2.840.113549.1.12.1.2", ("pkcs12_kdf", "sha1"));
   ("1.2.840.113549.1.12.1.3", ("pkcs12_kdf", "sha1"));
   ("1.2.840.113549.1.12.1.4", ("pkcs12_kdf", "sha1"));
   ("1.2.840.113549.1.12.1.5", ("pkcs12_kdf", "sha1"));
   ("1.2.840.113549.1.12.1.6", ("pkcs12_kdf", "sha1"))].

(* RC2: version numbers of effective key bits, RFC 8018 appendix B.2.3: 160 for 40 bits,
   120 for 64, 58 for 128, the number of bits itself from 256 on; 32 bits when left out *)
Definition rc2_bits (version : option Z) (bits : Z) : Prop :=
  (version = Some 160 /\ bits = 40) \/ (version = Some 120 /\ bits = 64) \/ (version = Some 58 /\ bits = 128) \/
  (version = Some bits /\ 256 <= bits) \/ (version = None /\ bits = 32).
