(* Algorithm names: /repo/asn1crypto/algos.py:339-520 (SignedDigestAlgorithm) and
   803-1279 (EncryptionAlgorithm).

   An algorithm structure is the native form of its 'algorithm' field and its parsed
   parameters.  Parameters that do not parse are left out: reading them raises before
   any of the code below runs. *)
Require Import Verif.Base Verif.Text Verif.OidModel Verif.MapModel Verif.Tables Verif.MapTables.

(* d[k] and "k in d" for a table of names *)
Definition name_get (d : list (str * str)) (k : text) : option text := dget eqb_text (txm d) k.

(* ---- SignedDigestAlgorithm ---- *)
(* self['parameters'] of an RSASSA-PSS algorithm: absent (a Void object), or the native
   form of its hash algorithm, which has the default sha1 (algos.py:192-201) *)
Inductive pss := PssAbsent | PssHash (h : text).
Record signed := Signed { s_algorithm : text; s_params : pss }.

(* algos.py:391-455 signature_algo *)
Definition signature_algo (a : signed) : res text :=
  match name_get signature_map (s_algorithm a) with
  | Some n => Ok n
  | None => Err ValueError
  end.

(* self['parameters']['hash_algorithm']['algorithm'].native; a Void has no items *)
Definition pss_hash (p : pss) : res text :=
  match p with PssAbsent => Err TypeError | PssHash h => Ok h end.

(* algos.py:457-487 hash_algo *)
Definition hash_algo (a : signed) : res text :=
  match name_get algo_map (s_algorithm a) with
  | Some h => Ok h
  | None =>
      if eqb_text (s_algorithm a) (tx "rsassa_pss") then pss_hash (s_params a)
      else Err ValueError
  end.

(* algos.py:489-520 cms_hash_algo *)
Definition cms_hash_algo (a : signed) : res text :=
  match name_get algo_map (s_algorithm a) with
  | Some h => Ok h
  | None =>
      if eqb_text (s_algorithm a) (tx "rsassa_pss") then pss_hash (s_params a)
      else match name_get cms_hash_map (s_algorithm a) with
           | Some h => Ok h
           | None => Err ValueError
           end
  end.

(* ---- EncryptionAlgorithm ---- *)
(* algos.py:523-566 *)
Inductive salt := SaltSpecified (s : bytes) | SaltOther.
Inductive kdf_params :=
| KPbkdf2 (s : salt) (iterations : Z) (key_length : option Z) (prf : text)
| KScrypt (s : bytes) (cost block parallel : Z) (key_length : option Z)
| KOther.                                      (* absent, or of an unknown function *)
Record kdf_algorithm := Kdf { kdf_name : text; kdf_args : kdf_params }.

(* the classes of _oid_specs (810-841, 1314); EAny stands for the others *)
Inductive params :=
| EAbsent                                             (* Void *)
| ENull
| EOctets (b : bytes)                                 (* OctetString *)
| ERc2 (version : option Z) (iv : bytes)              (* 599-603 *)
| ERc5 (rounds bits : Z) (iv : option bytes)          (* 612-618 *)
| EPbes1 (s : bytes) (iterations : Z)                 (* 621-625 *)
| ECcm (nonce : bytes) (icvlen : Z)                   (* 628-634 *)
| EOaep
| EPbes2 (k : kdf_algorithm) (scheme : algorithm)     (* 1282-1286 *)
| EAny
with algorithm := Alg (name : text) (p : params).

(* self['parameters'][...] for a field the parameters do not have: a structure raises
   KeyError, the other classes cannot be indexed *)
Definition no_field (p : params) : exn :=
  match p with
  | ERc2 _ _ | ERc5 _ _ _ | EPbes1 _ _ | ECcm _ _ | EOaep | EPbes2 _ _ => KeyError
  | _ => TypeError
  end.
Definition kdf_no_field (p : kdf_params) : exn :=
  match p with KOther => TypeError | _ => KeyError end.

Definition has (c : Z) (s : text) : bool := existsb (Z.eqb c) s.      (* s.find(c) != -1 *)
(* s.split('_', 1)[0] and the rest, when there is an underscore *)
Fixpoint cut (c : Z) (s : text) : text * option text :=
  match s with
  | [] => ([], None)
  | x :: r => if x =? c then ([], Some r) else let '(a, b) := cut c r in (x :: a, b)
  end.
Definition starts (n : nat) (s p : text) : bool := eqb_text (firstn n s) p.     (* s[0:n] == p *)
Definition oneof (s : text) (l : list text) : bool := existsb (eqb_text s) l.

(* algos.py:843-882 kdf *)
Definition kdf (a : algorithm) : res text :=
  let '(Alg n p) := a in
  if eqb_text n (tx "pbes2") then
    match p with EPbes2 k _ => Ok (kdf_name k) | _ => Err (no_field p) end
  else if negb (has 46 n) then
    if has 95 n then
      let h := fst (cut 95 n) in
      if eqb_text h (tx "pbes1") then Ok (tx "pbkdf1")
      else if eqb_text h (tx "pkcs12") then Ok (tx "pkcs12_kdf")
      else Err ValueError
    else Err ValueError
  else Err ValueError.

(* algos.py:884-921 kdf_hmac; None is Python's None *)
Definition kdf_hmac (a : algorithm) : res (option text) :=
  let '(Alg n p) := a in
  if eqb_text n (tx "pbes2") then
    do f <- kdf a;
    if eqb_text f (tx "scrypt") then Ok None
    else match p with
         | EPbes2 k _ => match kdf_args k with
                         | KPbkdf2 _ _ _ prf => Ok (Some prf)
                         | q => Err (kdf_no_field q)
                         end
         | _ => Err (no_field p)
         end
  else if negb (has 46 n) then
    if has 95 n then
      match cut 95 n with                       (* _, hmac_algo, _ = split('_', 2) *)
      | (_, Some r) => match cut 95 r with
                       | (h, Some _) => Ok (Some h)
                       | (_, None) => Err ValueError
                       end
      | (_, None) => Err ValueError
      end
    else Err ValueError
  else Err ValueError.

(* algos.py:923-966 kdf_salt; the salt of scrypt is an OctetString and has no .name *)
Definition kdf_salt (a : algorithm) : res bytes :=
  let '(Alg n p) := a in
  if eqb_text n (tx "pbes2") then
    match p with
    | EPbes2 k _ => match kdf_args k with
                    | KPbkdf2 (SaltSpecified s) _ _ _ => Ok s
                    | KPbkdf2 SaltOther _ _ _ => Err ValueError
                    | KScrypt _ _ _ _ _ => Err AttributeError
                    | q => Err (kdf_no_field q)
                    end
    | _ => Err (no_field p)
    end
  else if negb (has 46 n) then
    if has 95 n then match p with EPbes1 s _ => Ok s | _ => Err (no_field p) end
    else Err ValueError
  else Err ValueError.

(* algos.py:968-1002 kdf_iterations *)
Definition kdf_iterations (a : algorithm) : res (option Z) :=
  let '(Alg n p) := a in
  if eqb_text n (tx "pbes2") then
    do f <- kdf a;
    if eqb_text f (tx "scrypt") then Ok None
    else match p with
         | EPbes2 k _ => match kdf_args k with
                         | KPbkdf2 _ i _ _ => Ok (Some i)
                         | q => Err (kdf_no_field q)
                         end
         | _ => Err (no_field p)
         end
  else if negb (has 46 n) then
    if has 95 n then match p with EPbes1 _ i => Ok (Some i) | _ => Err (no_field p) end
    else Err ValueError
  else Err ValueError.

(* algos.py:1077-1090 the lengths of the password based algorithms *)
Definition pbe_lengths : list (str * Z) :=
  [("pbes1_md2_des", 8); ("pbes1_md5_des", 8); ("pbes1_md2_rc2", 8); ("pbes1_md5_rc2", 8);
   ("pbes1_sha1_des", 8); ("pbes1_sha1_rc2", 8);
   ("pkcs12_sha1_rc4_128", 16); ("pkcs12_sha1_rc4_40", 5);
   ("pkcs12_sha1_tripledes_3key", 24); ("pkcs12_sha1_tripledes_2key", 16);
   ("pkcs12_sha1_rc2_128", 16); ("pkcs12_sha1_rc2_40", 5)]%string.
Fixpoint tget {V} (d : list (str * V)) (k : text) : option V :=
  match d with [] => None | (a, v) :: r => if eqb_text (tx a) k then Some v else tget r k end.
(* d[k] *)
Definition item {V} (d : list (str * V)) (k : text) : res V :=
  match tget d k with Some v => Ok v | None => Err KeyError end.

(* algos.py:1037-1062 the key length of RC2; comparing None with 256 raises TypeError *)
Definition rc2_length (version : option Z) : res Z :=
  match version with
  | Some v => if v =? 160 then Ok 5 else if v =? 120 then Ok 8 else if v =? 58 then Ok 16
              else if 256 <=? v then Ok v else Err ValueError
  | None => Err TypeError
  end.

(* algos.py:1004-1097 key_length *)
Fixpoint key_length (a : algorithm) : res Z :=
  let '(Alg n p) := a in
  if starts 3 n (tx "aes") then
    item [("aes128_", 16); ("aes192_", 24); ("aes256_", 32)]%string (firstn 7 n)
  else if eqb_text n (tx "des") then Ok 8
  else if eqb_text n (tx "tripledes_3key") then Ok 24
  else if eqb_text n (tx "rc2") then
    match p with ERc2 v _ => rc2_length v | _ => Err (no_field p) end
  else if eqb_text n (tx "pbes2") then
    match p with
    | EPbes2 k e =>
        match kdf_args k with
        | KPbkdf2 _ _ (Some l) _ | KScrypt _ _ _ _ (Some l) => Ok l
        | KPbkdf2 _ _ None _ | KScrypt _ _ _ _ None => key_length e
        | q => Err (kdf_no_field q)
        end
    | _ => Err (no_field p)
    end
  else if negb (has 46 n) then item pbe_lengths n
  else Err ValueError.

Definition aes_prefix (n : text) : bool :=
  oneof (firstn 7 n) [tx "aes128_"; tx "aes192_"; tx "aes256_"].

(* algos.py:1099-1131 encryption_mode *)
Fixpoint encryption_mode (a : algorithm) : res text :=
  let '(Alg n p) := a in
  if aes_prefix n then Ok (skipn 7 n)
  else if starts 6 n (tx "pbes1_") then Ok (tx "cbc")
  else if starts 7 n (tx "pkcs12_") then Ok (tx "cbc")
  else if oneof n [tx "des"; tx "tripledes_3key"; tx "rc2"; tx "rc5"] then Ok (tx "cbc")
  else if eqb_text n (tx "pbes2") then
    match p with EPbes2 _ e => encryption_mode e | _ => Err (no_field p) end
  else Err ValueError.

(* algos.py:1160-1173 *)
Definition pbe_ciphers : list (str * str) :=
  [("pbes1_md2_des", "des"); ("pbes1_md5_des", "des"); ("pbes1_md2_rc2", "rc2"); ("pbes1_md5_rc2", "rc2");
   ("pbes1_sha1_des", "des"); ("pbes1_sha1_rc2", "rc2");
   ("pkcs12_sha1_rc4_128", "rc4"); ("pkcs12_sha1_rc4_40", "rc4");
   ("pkcs12_sha1_tripledes_3key", "tripledes"); ("pkcs12_sha1_tripledes_2key", "tripledes");
   ("pkcs12_sha1_rc2_128", "rc2"); ("pkcs12_sha1_rc2_40", "rc2")]%string.

(* algos.py:1133-1180 encryption_cipher *)
Fixpoint encryption_cipher (a : algorithm) : res text :=
  let '(Alg n p) := a in
  if aes_prefix n then Ok (tx "aes")
  else if oneof n [tx "des"; tx "rc2"; tx "rc5"] then Ok n
  else if eqb_text n (tx "tripledes_3key") then Ok (tx "tripledes")
  else if eqb_text n (tx "pbes2") then
    match p with EPbes2 _ e => encryption_cipher e | _ => Err (no_field p) end
  else if negb (has 46 n) then do c <- item pbe_ciphers n; Ok (tx c)
  else Err ValueError.

(* algos.py:1211-1224 *)
Definition pbe_blocks : list (str * Z) :=
  [("pbes1_md2_des", 8); ("pbes1_md5_des", 8); ("pbes1_md2_rc2", 8); ("pbes1_md5_rc2", 8);
   ("pbes1_sha1_des", 8); ("pbes1_sha1_rc2", 8);
   ("pkcs12_sha1_rc4_128", 0); ("pkcs12_sha1_rc4_40", 0);
   ("pkcs12_sha1_tripledes_3key", 8); ("pkcs12_sha1_tripledes_2key", 8);
   ("pkcs12_sha1_rc2_128", 8); ("pkcs12_sha1_rc2_40", 8)]%string.

(* algos.py:1182-1231 encryption_block_size *)
Fixpoint encryption_block_size (a : algorithm) : res Z :=
  let '(Alg n p) := a in
  if aes_prefix n then Ok 16
  else if oneof n [tx "des"; tx "tripledes_3key"; tx "rc2"] then Ok 8
  else if eqb_text n (tx "rc5") then
    match p with ERc5 _ bits _ => Ok (bits / 8) | _ => Err (no_field p) end
  else if eqb_text n (tx "pbes2") then
    match p with EPbes2 _ e => encryption_block_size e | _ => Err (no_field p) end
  else if negb (has 46 n) then item pbe_blocks n
  else Err ValueError.

(* algos.py:1233-1279 encryption_iv; the native form of parameters of an unknown class
   is left out *)
Fixpoint encryption_iv (a : algorithm) : res (option bytes) :=
  let '(Alg n p) := a in
  if oneof n [tx "rc2"; tx "rc5"] then
    match p with
    | ERc2 _ iv => Ok (Some iv)
    | ERc5 _ _ iv => Ok iv
    | _ => Err (no_field p)
    end
  else if oneof n [tx "des"; tx "tripledes_3key"; tx "aes128_cbc"; tx "aes192_cbc"; tx "aes256_cbc";
                   tx "aes128_ofb"; tx "aes192_ofb"; tx "aes256_ofb"] then
    match p with
    | EOctets b => Ok (Some b)
    | _ => Ok None
    end
  else if eqb_text n (tx "pbes2") then
    match p with EPbes2 _ e => encryption_iv e | _ => Err (no_field p) end
  else if negb (has 46 n) then Ok None
  else Err ValueError.
