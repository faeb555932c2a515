(* C42, C72: what an algorithm identifier stands for. *)
Require Import Verif.Base Verif.Text Verif.MapModel Verif.MapSpec Verif.Tables Verif.MapTables
  Verif.AlgoModel Verif.AlgoSpec Verif.AlgoProofs.
Require Coq.Strings.String.
Import Coq.Strings.String.StringSyntax.

(* ---- C42 ---- *)
(* the identifiers with a name are those of the standards listed in AlgoSpec *)
Theorem C42_every_identifier : forall oid n, In (oid, n) map_algos_SignedDigestAlgorithmId ->
  exists s d, In (oid, (s, d)) schemes.
Proof. exact schemes_complete. Qed.
Print Assumptions C42_every_identifier.

(* after any use of the class, for the octets of any of them and any parameters *)
Theorem C42_scheme_and_digest : forall nd l oid s d b p, In (oid, (s, d)) schemes -> encodes (tx oid) b ->
  let a := Signed (snd (oid_read (sig_cls nd l) b)) p in
  signature_algo a = Ok (tx s) /\ In s signature_names /\
  match d with
  | Fixed h => hash_algo a = Ok (tx h) /\ cms_hash_algo a = Ok (tx h) /\ In h hash_names
  | InParameters => forall h, p = PssHash h -> hash_algo a = Ok h /\ cms_hash_algo a = Ok h
  | Builtin c => hash_algo a = Err ValueError /\ cms_hash_algo a = Ok (tx c) /\ In c hash_names
  | Open => hash_algo a = Err ValueError /\ cms_hash_algo a = Err ValueError
  end.
Proof. exact scheme_reads. Qed.
Print Assumptions C42_scheme_and_digest.

Theorem C42_unknown_identifiers : forall nd l s b p, encodes s b -> (forall oid x, In (oid, x) schemes -> tx oid <> s) ->
  let a := Signed (snd (oid_read (sig_cls nd l) b)) p in
  signature_algo a = Err ValueError /\ hash_algo a = Err ValueError /\ cms_hash_algo a = Err ValueError.
Proof. exact unknown_scheme. Qed.
Print Assumptions C42_unknown_identifiers.

Definition ex_nd (c : Z) : bool := (48 <=? c) && (c <=? 57).
Example C42_octets_ex : forall oid x, In (oid, x) schemes -> exists b, encodes (tx oid) b.
Proof. intros oid x I. apply listed_encode, in_or_app. left. exact (in_map fst _ _ I). Qed.
Example C42_scheme_ex :
  In ("0.4.0.127.0.7.1.1.4.1.10"%string, ("ecdsa"%string, Fixed "sha3_384")) schemes /\
  signature_algo (Signed (snd (oid_read (sig_cls ex_nd []) [4; 0; 127; 0; 7; 1; 1; 4; 1; 10])) PssAbsent) = Ok (tx "ecdsa") /\
  hash_algo (Signed (snd (oid_read (sig_cls ex_nd []) [4; 0; 127; 0; 7; 1; 1; 4; 1; 10])) PssAbsent) = Ok (tx "sha3_384") /\
  hash_algo (Signed (snd (oid_read (sig_cls ex_nd []) [43; 101; 112])) PssAbsent) = Err ValueError /\
  cms_hash_algo (Signed (snd (oid_read (sig_cls ex_nd []) [43; 101; 112])) PssAbsent) = Ok (tx "sha512") /\
  signature_algo (Signed (snd (oid_read (sig_cls ex_nd []) [43; 101; 114])) PssAbsent) = Err ValueError.
Proof. split; [repeat (try (left; reflexivity); right)|vm_compute; repeat split]. Qed.

(* RSASSA-PSS with the parameters left out, which RFC 4055 allows in public keys *)
Theorem C42_pss_without_parameters_refuted : exists a, signature_algo a = Ok (tx "rsassa_pss") /\
  hash_algo a = Err TypeError /\ cms_hash_algo a = Err TypeError.
Proof. exists (Signed (tx "rsassa_pss") PssAbsent). vm_compute. auto. Qed.
Print Assumptions C42_pss_without_parameters_refuted.
(* the digest of RSASSA-PSS is any digest with a name, or a dotted identifier *)
Theorem C42_undocumented_digest_refuted : exists a a' b,
  s_params a = PssHash (snd (oid_read (after ex_nd [] (lib_cls "algos.DigestAlgorithmId" map_algos_DigestAlgorithmId)) [96; 134; 72; 1; 101; 3; 4; 2; 11])) /\
  hash_algo a = Ok (tx "shake128") /\ ~ In "shake128"%string hash_names /\
  s_params a' = PssHash (snd (oid_read (after ex_nd [] (lib_cls "algos.DigestAlgorithmId" map_algos_DigestAlgorithmId)) b)) /\
  hash_algo a' = Ok (tx "1.2.3").
Proof.
  exists (Signed (tx "rsassa_pss") (PssHash (tx "shake128"))), (Signed (tx "rsassa_pss") (PssHash (tx "1.2.3"))), [42; 3].
  split; [vm_compute; reflexivity|]. split; [vm_compute; reflexivity|].
  split; [rewrite <- sin_iff; vm_compute; discriminate|]. vm_compute. auto.
Qed.
Print Assumptions C42_undocumented_digest_refuted.

(* ---- C72 ---- *)
Theorem C72_every_identifier : forall k n, In (k, n) map_algos_EncryptionAlgorithmId ->
  (exists c, In (k, c) ciphers) \/
  In k ["1.2.840.113549.3.2"; "1.2.840.113549.3.4"; "1.2.840.113549.3.9"; "1.2.840.113549.1.5.13";
        "1.2.840.113549.1.12.1.1"; "1.2.840.113549.1.12.1.2"; "1.2.840.113549.1.1.1"; "1.2.840.113549.1.1.7"]%string.
Proof. exact ciphers_complete. Qed.
Print Assumptions C72_every_identifier.

(* the cipher, its key length, block size and mode, after any use of the class *)
Theorem C72_ciphers : forall nd l oid c b p, In (oid, c) ciphers -> encodes (tx oid) b ->
  let a := enc nd l b p in
  encryption_cipher a = Ok (tx (c_name c)) /\ key_length a = Ok (c_key c) /\
  encryption_block_size a = Ok (c_block c) /\ encryption_mode a = Ok (tx (c_mode c)).
Proof. exact cipher_reads. Qed.
Print Assumptions C72_ciphers.
(* a stream cipher: no block; the mode is refuted below *)
Theorem C72_rc4_partial : forall nd l oid k b p,
  In (oid, k) [("1.2.840.113549.1.12.1.1", 16); ("1.2.840.113549.1.12.1.2", 5)]%string -> encodes (tx oid) b ->
  let a := enc nd l b p in
  encryption_cipher a = Ok (tx "rc4") /\ key_length a = Ok k /\ encryption_block_size a = Ok 0.
Proof. exact rc4_reads. Qed.
Print Assumptions C72_rc4_partial.
(* fewer than 256 effective key bits, and the version given *)
Theorem C72_rc2_partial : forall nd l b v iv bits, encodes (tx "1.2.840.113549.3.2") b -> rc2_bits (Some v) bits -> bits < 256 ->
  is_cipher (enc nd l b (ERc2 (Some v) iv)) (Cipher "rc2" (bits / 8) 8 "cbc") /\
  encryption_iv (enc nd l b (ERc2 (Some v) iv)) = Ok (Some iv).
Proof. exact rc2_reads. Qed.
Print Assumptions C72_rc2_partial.
Theorem C72_rc2_other_versions : forall nd l b v iv, encodes (tx "1.2.840.113549.3.2") b -> (forall bits, ~ rc2_bits (Some v) bits) ->
  key_length (enc nd l b (ERc2 (Some v) iv)) = Err ValueError.
Proof. exact rc2_invalid. Qed.
Print Assumptions C72_rc2_other_versions.
Theorem C72_rc5 : forall nd l b r bits iv, encodes (tx "1.2.840.113549.3.9") b ->
  let a := enc nd l b (ERc5 r bits iv) in
  encryption_cipher a = Ok (tx "rc5") /\ encryption_mode a = Ok (tx "cbc") /\
  (forall k, bits = 8 * k -> encryption_block_size a = Ok k) /\ encryption_iv a = Ok iv.
Proof. exact rc5_reads. Qed.
Print Assumptions C72_rc5.

(* PBES2 answers for the scheme inside, with the key length of the derivation function if
   that says one *)
Theorem C72_pbes2_cipher : forall nd l b k e c, encodes (tx "1.2.840.113549.1.5.13") b -> kdf_args k <> KOther -> is_cipher e c ->
  is_cipher (enc nd l b (EPbes2 k e))
    (Cipher (c_name c) (match key_length_of (kdf_args k) with Some n => n | None => c_key c end) (c_block c) (c_mode c)) /\
  encryption_iv (enc nd l b (EPbes2 k e)) = encryption_iv e.
Proof. exact pbes2_cipher. Qed.
Print Assumptions C72_pbes2_cipher.
Theorem C72_pbkdf2 : forall nd l b s i kl prf e, encodes (tx "1.2.840.113549.1.5.13") b ->
  let a := enc nd l b (EPbes2 (Kdf (tx "pbkdf2") (KPbkdf2 (SaltSpecified s) i kl prf)) e) in
  kdf a = Ok (tx "pbkdf2") /\ kdf_hmac a = Ok (Some prf) /\ kdf_salt a = Ok s /\ kdf_iterations a = Ok (Some i).
Proof. exact pbes2_pbkdf2. Qed.
Print Assumptions C72_pbkdf2.
(* a salt from another source than the parameters is refused, not taken for an empty one *)
Theorem C72_pbkdf2_other_salt : forall nd l b i kl prf e, encodes (tx "1.2.840.113549.1.5.13") b ->
  let a := enc nd l b (EPbes2 (Kdf (tx "pbkdf2") (KPbkdf2 SaltOther i kl prf)) e) in
  kdf a = Ok (tx "pbkdf2") /\ kdf_hmac a = Ok (Some prf) /\ kdf_salt a = Err ValueError /\ kdf_iterations a = Ok (Some i).
Proof. exact pbes2_other_salt. Qed.
Print Assumptions C72_pbkdf2_other_salt.
(* scrypt: neither a digest nor iterations; its salt is refuted below *)
Theorem C72_scrypt_partial : forall nd l b s x y z kl e, encodes (tx "1.2.840.113549.1.5.13") b ->
  let a := enc nd l b (EPbes2 (Kdf (tx "scrypt") (KScrypt s x y z kl)) e) in
  kdf a = Ok (tx "scrypt") /\ kdf_hmac a = Ok None /\ kdf_iterations a = Ok None.
Proof. exact pbes2_scrypt. Qed.
Print Assumptions C72_scrypt_partial.
(* PBES1 and PKCS#12: the key derivation is named by the identifier, the vector is derived *)
Theorem C72_password_based : forall nd l oid f h b s i, In (oid, (f, h)) password_based -> encodes (tx oid) b ->
  let a := enc nd l b (EPbes1 s i) in
  kdf a = Ok (tx f) /\ kdf_hmac a = Ok (Some (tx h)) /\ kdf_salt a = Ok s /\ kdf_iterations a = Ok (Some i) /\
  encryption_iv a = Ok None.
Proof. exact pbe_reads. Qed.
Print Assumptions C72_password_based.
(* DES, triple DES and AES in CBC and OFB mode: the parameters are the vector *)
Theorem C72_iv_partial : forall nd l oid b iv,
  In oid ["1.3.14.3.2.7"; "1.2.840.113549.3.7";
          "2.16.840.1.101.3.4.1.2"; "2.16.840.1.101.3.4.1.22"; "2.16.840.1.101.3.4.1.42";
          "2.16.840.1.101.3.4.1.3"; "2.16.840.1.101.3.4.1.23"; "2.16.840.1.101.3.4.1.43"]%string ->
  encodes (tx oid) b -> encryption_iv (enc nd l b (EOctets iv)) = Ok (Some iv).
Proof. exact iv_reads. Qed.
Print Assumptions C72_iv_partial.
Theorem C72_unknown_identifiers : forall nd l s b p, encodes s b ->
  (forall k n, In (k, n) map_algos_EncryptionAlgorithmId -> tx k <> s) ->
  let a := enc nd l b p in
  kdf a = Err ValueError /\ kdf_hmac a = Err ValueError /\ kdf_salt a = Err ValueError /\ kdf_iterations a = Err ValueError /\
  key_length a = Err ValueError /\ encryption_mode a = Err ValueError /\ encryption_cipher a = Err ValueError /\
  encryption_block_size a = Err ValueError /\ encryption_iv a = Err ValueError.
Proof. exact unknown_cipher. Qed.
Print Assumptions C72_unknown_identifiers.

Example C72_octets_ex : forall oid, In oid (map fst ciphers ++ map fst password_based) -> exists b, encodes (tx oid) b.
Proof. intros oid I. apply listed_encode, in_or_app. right. exact I. Qed.
Definition ex_enc (b : bytes) (p : params) : algorithm := enc ex_nd [] b p.
Definition b_pbes2 : bytes := [42; 134; 72; 134; 247; 13; 1; 5; 13].
Definition b_aes192_cbc : bytes := [96; 134; 72; 1; 101; 3; 4; 1; 22].
Definition b_rc2 : bytes := [42; 134; 72; 134; 247; 13; 3; 2].
Definition b_rc4 : bytes := [42; 134; 72; 134; 247; 13; 3; 4].
Example C72_ex :
  is_cipher (ex_enc b_aes192_cbc (EOctets [1])) (Cipher "aes" 24 16 "cbc") /\
  is_cipher (ex_enc b_pbes2 (EPbes2 (Kdf (tx "pbkdf2") (KPbkdf2 (SaltSpecified [9]) 1000 None (tx "sha1"))) (ex_enc b_aes192_cbc (EOctets [1]))))
    (Cipher "aes" 24 16 "cbc") /\
  encryption_iv (ex_enc b_pbes2 (EPbes2 (Kdf (tx "pbkdf2") (KPbkdf2 (SaltSpecified [9]) 1000 None (tx "sha1"))) (ex_enc b_aes192_cbc (EOctets [1])))) = Ok (Some [1]) /\
  key_length (ex_enc b_rc2 (ERc2 (Some 58) [1])) = Ok 16 /\ rc2_bits (Some 58) 128 /\
  key_length (ex_enc b_rc2 (ERc2 (Some 59) [1])) = Err ValueError.
Proof.
  split; [vm_compute; auto|]. split; [vm_compute; auto|]. split; [vm_compute; auto|]. split; [vm_compute; auto|].
  split; [right; right; left; auto|vm_compute; auto].
Qed.

(* what is false *)
(* RC2 with 256 or more effective key bits: their number is returned as octets; without a
   version the comparison with None raises before the default is reached *)
Theorem C72_rc2_large_key_refuted : exists b v bits k, encodes (tx "1.2.840.113549.3.2") b /\ rc2_bits (Some v) bits /\
  key_length (ex_enc b (ERc2 (Some v) [])) = Ok k /\ 8 * k <> bits.
Proof.
  destruct (listed_more "1.2.840.113549.3.2" eq_refl) as [b E]. exists b, 256, 256, 256. split; [exact E|].
  split; [right; right; right; left; split; [reflexivity|lia]|]. split; [|discriminate].
  exact (named_read ex_nd [] "1.2.840.113549.3.2" b (fun n => key_length (Alg n (ERc2 (Some 256) [])) = Ok 256) eq_refl E).
Qed.
Print Assumptions C72_rc2_large_key_refuted.
Theorem C72_rc2_default_refuted : exists b bits, encodes (tx "1.2.840.113549.3.2") b /\ rc2_bits None bits /\
  key_length (ex_enc b (ERc2 None [])) = Err TypeError.
Proof.
  destruct (listed_more "1.2.840.113549.3.2" eq_refl) as [b E]. exists b, 32. split; [exact E|].
  split; [right; right; right; right; split; reflexivity|].
  exact (named_read ex_nd [] "1.2.840.113549.3.2" b (fun n => key_length (Alg n (ERc2 None [])) = Err TypeError) eq_refl E).
Qed.
Print Assumptions C72_rc2_default_refuted.
(* algorithms the library names but the accessors forgot raise KeyError *)
Theorem C72_key_error_refuted : exists b, encodes (tx "1.2.840.113549.3.4") b /\ forall p,
  key_length (ex_enc b p) = Err KeyError /\ encryption_cipher (ex_enc b p) = Err KeyError /\
  encryption_block_size (ex_enc b p) = Err KeyError.
Proof.
  destruct (listed_more "1.2.840.113549.3.4" eq_refl) as [b E]. exists b. split; [exact E|]. intro p.
  apply (named_read ex_nd [] "1.2.840.113549.3.4" b (fun n => key_length (Alg n p) = Err KeyError /\
    encryption_cipher (Alg n p) = Err KeyError /\ encryption_block_size (Alg n p) = Err KeyError)); [|exact E].
  vm_compute. auto.
Qed.
Print Assumptions C72_key_error_refuted.
(* a stream cipher in CBC mode *)
Theorem C72_stream_mode_refuted : exists b, encodes (tx "1.2.840.113549.1.12.1.1") b /\ forall p,
  encryption_cipher (ex_enc b p) = Ok (tx "rc4") /\ encryption_mode (ex_enc b p) = Ok (tx "cbc").
Proof.
  destruct (listed_more "1.2.840.113549.1.12.1.1" eq_refl) as [b E]. exists b. split; [exact E|]. intro p.
  apply (named_read ex_nd [] "1.2.840.113549.1.12.1.1" b (fun n => encryption_cipher (Alg n p) = Ok (tx "rc4") /\
    encryption_mode (Alg n p) = Ok (tx "cbc"))); [|exact E].
  vm_compute. auto.
Qed.
Print Assumptions C72_stream_mode_refuted.
(* AES key wrap has no key derivation function, but a digest called wrap *)
Theorem C72_wrap_digest_refuted : exists b, encodes (tx "2.16.840.1.101.3.4.1.8") b /\ forall p,
  kdf (ex_enc b p) = Err ValueError /\ kdf_hmac (ex_enc b p) = Ok (Some (tx "wrap")).
Proof.
  destruct (listed_more "2.16.840.1.101.3.4.1.8" eq_refl) as [b E]. exists b. split; [exact E|]. intro p.
  apply (named_read ex_nd [] "2.16.840.1.101.3.4.1.8" b (fun n => kdf (Alg n p) = Err ValueError /\
    kdf_hmac (Alg n p) = Ok (Some (tx "wrap")))); [|exact E].
  vm_compute. auto.
Qed.
Print Assumptions C72_wrap_digest_refuted.
(* and asking for its salt indexes an octet string *)
Theorem C72_salt_of_cipher_refuted : exists b, encodes (tx "2.16.840.1.101.3.4.1.2") b /\ forall iv,
  kdf (ex_enc b (EOctets iv)) = Err ValueError /\ kdf_salt (ex_enc b (EOctets iv)) = Err TypeError /\
  kdf_iterations (ex_enc b (EOctets iv)) = Err TypeError.
Proof.
  destruct (listed_more "2.16.840.1.101.3.4.1.2" eq_refl) as [b E]. exists b. split; [exact E|]. intro iv.
  apply (named_read ex_nd [] "2.16.840.1.101.3.4.1.2" b (fun n => kdf (Alg n (EOctets iv)) = Err ValueError /\
    kdf_salt (Alg n (EOctets iv)) = Err TypeError /\ kdf_iterations (Alg n (EOctets iv)) = Err TypeError)); [|exact E].
  vm_compute. auto.
Qed.
Print Assumptions C72_salt_of_cipher_refuted.
(* the salt of scrypt cannot be read *)
Theorem C72_scrypt_salt_refuted : exists b, encodes (tx "1.2.840.113549.1.5.13") b /\ forall s x y z kl e,
  kdf_salt (ex_enc b (EPbes2 (Kdf (tx "scrypt") (KScrypt s x y z kl)) e)) = Err AttributeError.
Proof.
  destruct (listed_more "1.2.840.113549.1.5.13" eq_refl) as [b E]. exists b. split; [exact E|]. intros.
  unfold ex_enc. rewrite (pbes2_name ex_nd [] b _ E). reflexivity.
Qed.
Print Assumptions C72_scrypt_salt_refuted.
(* CCM keeps a nonce in its parameters and CFB a vector: neither is returned *)
Theorem C72_iv_refuted : exists b b', encodes (tx "2.16.840.1.101.3.4.1.7") b /\ encodes (tx "2.16.840.1.101.3.4.1.4") b' /\
  forall nonce n iv, encryption_iv (ex_enc b (ECcm nonce n)) = Ok None /\ encryption_iv (ex_enc b' (EOctets iv)) = Ok None.
Proof.
  destruct (listed_more "2.16.840.1.101.3.4.1.7" eq_refl) as [b E], (listed_more "2.16.840.1.101.3.4.1.4" eq_refl) as [b' E'].
  exists b, b'. split; [exact E|]. split; [exact E'|]. intros nonce n iv. split.
  - exact (named_read ex_nd [] "2.16.840.1.101.3.4.1.7" b (fun m => encryption_iv (Alg m (ECcm nonce n)) = Ok None) eq_refl E).
  - exact (named_read ex_nd [] "2.16.840.1.101.3.4.1.4" b' (fun m => encryption_iv (Alg m (EOctets iv)) = Ok None) eq_refl E').
Qed.
Print Assumptions C72_iv_refuted.
(* PBES2 with its parameters left out *)
Theorem C72_without_parameters_refuted : exists b, encodes (tx "1.2.840.113549.1.5.13") b /\
  kdf (ex_enc b EAbsent) = Err TypeError /\ key_length (ex_enc b EAbsent) = Err TypeError /\
  encryption_cipher (ex_enc b EAbsent) = Err TypeError.
Proof.
  destruct (listed_more "1.2.840.113549.1.5.13" eq_refl) as [b E]. exists b. split; [exact E|].
  unfold ex_enc. rewrite (pbes2_name ex_nd [] b _ E). vm_compute. auto.
Qed.
Print Assumptions C72_without_parameters_refuted.
