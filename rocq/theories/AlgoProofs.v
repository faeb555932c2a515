(* What the accessors return for the identifiers of AlgoSpec. *)
Require Import Verif.Base Verif.BaseFacts Verif.Text Verif.OidModel Verif.OidSpec Verif.OidProofs
  Verif.MapModel Verif.MapSpec Verif.MapProofs Verif.Tables Verif.MapTables Verif.AlgoModel Verif.AlgoSpec.
Require Coq.Strings.String.
Import Coq.Strings.String.StringSyntax.

Lemma lib_state nd l nm m : fresh (txm m) (option_map txm (explicit_rev nm)) (after nd l (lib_cls nm m)) \/
  ready (txm m) (rev_of (txm m) (option_map txm (explicit_rev nm))) (after nd l (lib_cls nm m)).
Proof. apply (after_state nd). left. apply fresh_declare. Qed.
Lemma lib_read nd l nm m oid n b : sget m oid = Some n -> encodes (tx oid) b ->
  snd (oid_read (after nd l (lib_cls nm m)) b) = tx n.
Proof.
  intros S E. rewrite (read_state _ _ _ b (lib_state nd l nm m)). destruct (encodes_make _ _ E) as [_ ->].
  now rewrite sget_dget, S.
Qed.
Lemma lib_read_unknown nd l nm m s b : encodes s b -> (forall k n, In (k, n) m -> tx k <> s) ->
  snd (oid_read (after nd l (lib_cls nm m)) b) = s.
Proof.
  intros E N. rewrite (read_state _ _ _ b (lib_state nd l nm m)). destruct (encodes_make _ _ E) as [_ ->].
  destruct (dget eqb_text (txm m) s) as [v|] eqn:D; [|reflexivity].
  apply (dget_in eqb_text text_ok) in D. apply in_txm in D. destruct D as (k & n & -> & -> & I).
  elim (N k n I eq_refl).
Qed.

Lemma name_get_sget d n : name_get d (tx n) = option_map tx (sget d n).
Proof. apply sget_dget. Qed.
Lemma name_get_oid d s : is_oid s -> forallb (fun kv => letterb (tx (fst kv))) d = true -> name_get d s = None.
Proof.
  intros O L. unfold name_get. destruct (dget eqb_text (txm d) s) as [v|] eqn:D; [|reflexivity].
  apply (dget_in eqb_text text_ok) in D. apply in_txm in D. destruct D as (k & n & -> & -> & I).
  rewrite forallb_forall in L. specialize (L _ I). cbn in L. apply letterb_ok in L. contradiction.
Qed.
Lemma oid_not_text s t : is_oid s -> letterb t = true -> eqb_text s t = false.
Proof.
  intros O L. destruct (eqb_text s t) eqn:E; [|reflexivity]. apply text_ok in E. subst.
  apply letterb_ok in L. contradiction.
Qed.

(* ---- signatures ---- *)
Definition sig_cls (nd : Z -> bool) (l : list act) : ocls :=
  after nd l (lib_cls "algos.SignedDigestAlgorithmId"%string map_algos_SignedDigestAlgorithmId).

Definition oeqb (a b : option str) : bool :=
  match a, b with Some x, Some y => String.eqb x y | None, None => true | _, _ => false end.
Lemma oeqb_ok a b : oeqb a b = true -> a = b.
Proof. destruct a, b; cbn; try discriminate; auto. intro H. apply String.eqb_eq in H. now subst. Qed.

Definition scheme_ok (x : str * (str * digest_of)) : bool :=
  match sget map_algos_SignedDigestAlgorithmId (fst x) with
  | None => false
  | Some n =>
      let '(s, d) := snd x in
      oeqb (sget signature_map n) (Some s) && sin s signature_names &&
      match d with
      | Fixed h => oeqb (sget algo_map n) (Some h) && sin h hash_names
      | InParameters => oeqb (sget algo_map n) None && String.eqb n "rsassa_pss"
      | Builtin c => oeqb (sget algo_map n) None && negb (String.eqb n "rsassa_pss") && oeqb (sget cms_hash_map n) (Some c) && sin c hash_names
      | Open => oeqb (sget algo_map n) None && negb (String.eqb n "rsassa_pss") && oeqb (sget cms_hash_map n) None
      end
  end.
Lemma schemes_checked : forallb scheme_ok schemes = true.
Proof. vm_compute. reflexivity. Qed.

Lemma eqb_tx a b : eqb_text (tx a) (tx b) = String.eqb a b.
Proof.
  destruct (String.eqb a b) eqn:E.
  - apply String.eqb_eq in E. subst. now apply text_ok.
  - destruct (eqb_text (tx a) (tx b)) eqn:F; [|reflexivity]. apply text_ok, tx_inj in F. subst.
    now rewrite String.eqb_refl in E.
Qed.

Lemma scheme_reads nd l oid s d b p : In (oid, (s, d)) schemes -> encodes (tx oid) b ->
  let a := Signed (snd (oid_read (sig_cls nd l) b)) p in
  signature_algo a = Ok (tx s) /\ In s signature_names /\
  match d with
  | Fixed h => hash_algo a = Ok (tx h) /\ cms_hash_algo a = Ok (tx h) /\ In h hash_names
  | InParameters => forall h, p = PssHash h -> hash_algo a = Ok h /\ cms_hash_algo a = Ok h
  | Builtin c => hash_algo a = Err ValueError /\ cms_hash_algo a = Ok (tx c) /\ In c hash_names
  | Open => hash_algo a = Err ValueError /\ cms_hash_algo a = Err ValueError
  end.
Proof.
  intros I E. pose proof schemes_checked as K. rewrite forallb_forall in K. specialize (K _ I).
  unfold scheme_ok in K. cbn [fst snd] in K.
  destruct (sget map_algos_SignedDigestAlgorithmId oid) as [n|] eqn:M; [|discriminate].
  cbv zeta. unfold sig_cls. rewrite (lib_read nd l _ _ oid n b M E).
  rewrite !andb_true_iff in K. destruct K as ((K1 & K2) & K3).
  apply oeqb_ok in K1. apply sin_iff in K2.
  unfold signature_algo, hash_algo, cms_hash_algo. cbn [s_algorithm s_params].
  change (tx "rsassa_pss") with (tx "rsassa_pss"%string). rewrite !name_get_sget, !eqb_tx, K1. cbn [option_map].
  split; [reflexivity|]. split; [exact K2|].
  destruct d as [h| |c|]; rewrite ?andb_true_iff in K3.
  - destruct K3 as [K3 K4]. apply oeqb_ok in K3. apply sin_iff in K4. rewrite K3. auto.
  - destruct K3 as [K3 K4]. apply oeqb_ok in K3. rewrite K3, K4. intros h ->. auto.
  - destruct K3 as (((K3 & K4) & K5) & K6). apply oeqb_ok in K3, K5. apply sin_iff in K6. apply negb_true_iff in K4.
    rewrite K3, K4, K5. auto.
  - destruct K3 as ((K3 & K4) & K5). apply oeqb_ok in K3, K5. apply negb_true_iff in K4. rewrite K3, K4, K5. auto.
Qed.

Lemma schemes_complete oid n : In (oid, n) map_algos_SignedDigestAlgorithmId -> exists s d, In (oid, (s, d)) schemes.
Proof.
  intro I. assert (C : forallb (fun kv => sin (fst kv) (map fst schemes)) map_algos_SignedDigestAlgorithmId = true)
    by (vm_compute; reflexivity).
  rewrite forallb_forall in C. specialize (C _ I). apply sin_iff, in_map_iff in C.
  destruct C as ([o [s d]] & E & J). cbn in E. subst. eauto.
Qed.
Lemma unknown_scheme nd l s b p : encodes s b -> (forall oid x, In (oid, x) schemes -> tx oid <> s) ->
  let a := Signed (snd (oid_read (sig_cls nd l) b)) p in
  signature_algo a = Err ValueError /\ hash_algo a = Err ValueError /\ cms_hash_algo a = Err ValueError.
Proof.
  intros E N. cbv zeta. unfold sig_cls. rewrite (lib_read_unknown nd l _ _ s b E).
  2:{ intros k n I. destruct (schemes_complete k n I) as (x & d & J). exact (N _ _ J). }
  apply encodes_oid in E. unfold signature_algo, hash_algo, cms_hash_algo. cbn [s_algorithm s_params].
  rewrite !(name_get_oid _ s E), (oid_not_text s _ E); try (vm_compute; reflexivity). auto.
Qed.

(* ---- encryption ---- *)
Definition enc_cls (nd : Z -> bool) (l : list act) : ocls :=
  after nd l (lib_cls "algos.EncryptionAlgorithmId"%string map_algos_EncryptionAlgorithmId).
Definition enc (nd : Z -> bool) (l : list act) (b : bytes) (p : params) : algorithm :=
  Alg (snd (oid_read (enc_cls nd l) b)) p.

Definition named (oid : str) (f : text -> Prop) : Prop :=
  match sget map_algos_EncryptionAlgorithmId oid with Some n => f (tx n) | None => False end.
Lemma named_read nd l oid b f : named oid f -> encodes (tx oid) b -> f (snd (oid_read (enc_cls nd l) b)).
Proof.
  unfold named. destruct (sget map_algos_EncryptionAlgorithmId oid) as [n|] eqn:M; [|intros []].
  intros H E. unfold enc_cls. now rewrite (lib_read nd l _ _ oid n b M E).
Qed.

(* what is said of an algorithm with a cipher *)
Definition is_cipher (a : algorithm) (c : cipher) : Prop :=
  encryption_cipher a = Ok (tx (c_name c)) /\ key_length a = Ok (c_key c) /\
  encryption_block_size a = Ok (c_block c) /\ encryption_mode a = Ok (tx (c_mode c)).
Ltac sweep := repeat (apply Forall_cons; [intros; vm_compute; repeat split|]); apply Forall_nil.
Lemma ciphers_checked : Forall (fun x => named (fst x) (fun n => forall p, is_cipher (Alg n p) (snd x))) ciphers.
Proof. sweep. Qed.
Lemma cipher_reads nd l oid c b p : In (oid, c) ciphers -> encodes (tx oid) b -> is_cipher (enc nd l b p) c.
Proof.
  intros I E. pose proof (proj1 (Forall_forall _ _) ciphers_checked _ I) as H. cbn [fst snd] in H.
  exact (named_read nd l oid b _ H E p).
Qed.

Lemma rc4_checked : Forall (fun x => named (fst x) (fun n => forall p,
    encryption_cipher (Alg n p) = Ok (tx "rc4") /\ key_length (Alg n p) = Ok (snd x) /\ encryption_block_size (Alg n p) = Ok 0))
  [("1.2.840.113549.1.12.1.1", 16); ("1.2.840.113549.1.12.1.2", 5)]%string.
Proof. sweep. Qed.
Lemma rc4_reads nd l oid k b p : In (oid, k) [("1.2.840.113549.1.12.1.1", 16); ("1.2.840.113549.1.12.1.2", 5)]%string ->
  encodes (tx oid) b -> let a := enc nd l b p in
  encryption_cipher a = Ok (tx "rc4") /\ key_length a = Ok k /\ encryption_block_size a = Ok 0.
Proof.
  intros I E. pose proof (proj1 (Forall_forall _ _) rc4_checked _ I) as H. cbn [fst snd] in H.
  exact (named_read nd l oid b _ H E p).
Qed.

Lemma rc2_reads nd l b v iv bits : encodes (tx "1.2.840.113549.3.2") b -> rc2_bits (Some v) bits -> bits < 256 ->
  is_cipher (enc nd l b (ERc2 (Some v) iv)) (Cipher "rc2" (bits / 8) 8 "cbc") /\
  encryption_iv (enc nd l b (ERc2 (Some v) iv)) = Ok (Some iv).
Proof.
  intros E R L.
  apply (named_read nd l "1.2.840.113549.3.2" b
    (fun n => is_cipher (Alg n (ERc2 (Some v) iv)) (Cipher "rc2" (bits / 8) 8 "cbc") /\
              encryption_iv (Alg n (ERc2 (Some v) iv)) = Ok (Some iv))); [|exact E].
  destruct R as [(A & ->)|[(A & ->)|[(A & ->)|[(A & B)|(A & B)]]]]; try discriminate; try lia;
    injection A as ->; vm_compute; repeat split.
Qed.
Lemma rc2_invalid nd l b v iv : encodes (tx "1.2.840.113549.3.2") b -> (forall bits, ~ rc2_bits (Some v) bits) ->
  key_length (enc nd l b (ERc2 (Some v) iv)) = Err ValueError.
Proof.
  intros E N.
  apply (named_read nd l "1.2.840.113549.3.2" b (fun n => key_length (Alg n (ERc2 (Some v) iv)) = Err ValueError)); [|exact E].
  assert (v <> 160) by (intros ->; apply (N 40); left; auto).
  assert (v <> 120) by (intros ->; apply (N 64); right; left; auto).
  assert (v <> 58) by (intros ->; apply (N 128); right; right; left; auto).
  assert (v < 256) by (destruct (Z_lt_le_dec v 256) as [?|L]; [assumption|]; elim (N v); right; right; right; left; auto).
  change (rc2_length (Some v) = Err ValueError). unfold rc2_length.
  repeat match goal with |- context [v =? ?k] => destruct (Z.eqb_spec v k); [contradiction|] end.
  destruct (Z.leb_spec 256 v); [lia|reflexivity].
Qed.
Lemma rc5_reads nd l b r bits iv : encodes (tx "1.2.840.113549.3.9") b ->
  let a := enc nd l b (ERc5 r bits iv) in
  encryption_cipher a = Ok (tx "rc5") /\ encryption_mode a = Ok (tx "cbc") /\
  (forall k, bits = 8 * k -> encryption_block_size a = Ok k) /\ encryption_iv a = Ok iv.
Proof.
  intros E. cbv zeta.
  apply (named_read nd l "1.2.840.113549.3.9" b (fun n =>
  encryption_cipher (Alg n (ERc5 r bits iv)) = Ok (tx "rc5") /\ encryption_mode (Alg n (ERc5 r bits iv)) = Ok (tx "cbc") /\
  (forall k, bits = 8 * k -> encryption_block_size (Alg n (ERc5 r bits iv)) = Ok k) /\ encryption_iv (Alg n (ERc5 r bits iv)) = Ok iv)); [|exact E].
  split; [vm_compute; reflexivity|]. split; [vm_compute; reflexivity|]. split; [|vm_compute; reflexivity].
  intros k ->. change (Ok (A := Z) (8 * k / 8) = Ok k). f_equal. rewrite Z.mul_comm. apply Z.div_mul. lia.
Qed.

(* PBES2 *)
Definition pbes2_oid : str := "1.2.840.113549.1.5.13"%string.
Definition key_length_of (k : kdf_params) : option Z :=
  match k with KPbkdf2 _ _ l _ => l | KScrypt _ _ _ _ l => l | KOther => None end.
Lemma pbes2_name nd l b p : encodes (tx pbes2_oid) b -> enc nd l b p = Alg (tx "pbes2") p.
Proof.
  intro E. apply (named_read nd l pbes2_oid b (fun n => Alg n p = Alg (tx "pbes2") p)); [|exact E].
  vm_compute. reflexivity.
Qed.
Lemma pbes2_cipher nd l b k e c : encodes (tx pbes2_oid) b -> kdf_args k <> KOther -> is_cipher e c ->
  is_cipher (enc nd l b (EPbes2 k e))
    (Cipher (c_name c) (match key_length_of (kdf_args k) with Some n => n | None => c_key c end) (c_block c) (c_mode c)) /\
  encryption_iv (enc nd l b (EPbes2 k e)) = encryption_iv e.
Proof.
  intros E N (A & B & C & D). rewrite (pbes2_name nd l b _ E). unfold is_cipher. cbn [c_name c_key c_block c_mode].
  split; [|reflexivity]. split; [exact A|]. split; [|split; [exact C|exact D]].
  change (match kdf_args k with
        | KPbkdf2 _ _ (Some l) _ | KScrypt _ _ _ _ (Some l) => Ok l
        | KPbkdf2 _ _ None _ | KScrypt _ _ _ _ None => key_length e
        | q => Err (kdf_no_field q)
        end = Ok (match key_length_of (kdf_args k) with Some n => n | None => c_key c end)).
  destruct (kdf_args k) as [s i [n|] prf|s x y z [n|]|]; cbn [key_length_of]; auto. now elim N.
Qed.
Lemma pbes2_pbkdf2 nd l b s i kl prf e : encodes (tx pbes2_oid) b ->
  let a := enc nd l b (EPbes2 (Kdf (tx "pbkdf2") (KPbkdf2 (SaltSpecified s) i kl prf)) e) in
  kdf a = Ok (tx "pbkdf2") /\ kdf_hmac a = Ok (Some prf) /\ kdf_salt a = Ok s /\ kdf_iterations a = Ok (Some i).
Proof. intro E. cbv zeta. rewrite (pbes2_name nd l b _ E). vm_compute. auto. Qed.
Lemma pbes2_other_salt nd l b i kl prf e : encodes (tx pbes2_oid) b ->
  let a := enc nd l b (EPbes2 (Kdf (tx "pbkdf2") (KPbkdf2 SaltOther i kl prf)) e) in
  kdf a = Ok (tx "pbkdf2") /\ kdf_hmac a = Ok (Some prf) /\ kdf_salt a = Err ValueError /\ kdf_iterations a = Ok (Some i).
Proof. intro E. cbv zeta. rewrite (pbes2_name nd l b _ E). vm_compute. auto. Qed.
Lemma pbes2_scrypt nd l b s x y z kl e : encodes (tx pbes2_oid) b ->
  let a := enc nd l b (EPbes2 (Kdf (tx "scrypt") (KScrypt s x y z kl)) e) in
  kdf a = Ok (tx "scrypt") /\ kdf_hmac a = Ok None /\ kdf_iterations a = Ok None.
Proof. intro E. cbv zeta. rewrite (pbes2_name nd l b _ E). vm_compute. auto. Qed.

(* PBES1 and PKCS#12 *)
Lemma pbe_checked : Forall (fun x => named (fst x) (fun n => forall s i,
    kdf (Alg n (EPbes1 s i)) = Ok (tx (fst (snd x))) /\ kdf_hmac (Alg n (EPbes1 s i)) = Ok (Some (tx (snd (snd x)))) /\
    kdf_salt (Alg n (EPbes1 s i)) = Ok s /\ kdf_iterations (Alg n (EPbes1 s i)) = Ok (Some i) /\
    encryption_iv (Alg n (EPbes1 s i)) = Ok None)) password_based.
Proof. sweep. Qed.
Lemma pbe_reads nd l oid f h b s i : In (oid, (f, h)) password_based -> encodes (tx oid) b ->
  let a := enc nd l b (EPbes1 s i) in
  kdf a = Ok (tx f) /\ kdf_hmac a = Ok (Some (tx h)) /\ kdf_salt a = Ok s /\ kdf_iterations a = Ok (Some i) /\
  encryption_iv a = Ok None.
Proof.
  intros I E. pose proof (proj1 (Forall_forall _ _) pbe_checked _ I) as H. cbn [fst snd] in H.
  exact (named_read nd l oid b _ H E s i).
Qed.

(* initialisation vectors *)
Definition octet_ivs : list str :=
  ["1.3.14.3.2.7"; "1.2.840.113549.3.7";
   "2.16.840.1.101.3.4.1.2"; "2.16.840.1.101.3.4.1.22"; "2.16.840.1.101.3.4.1.42";
   "2.16.840.1.101.3.4.1.3"; "2.16.840.1.101.3.4.1.23"; "2.16.840.1.101.3.4.1.43"]%string.
Lemma iv_checked : Forall (fun x => named x (fun n => forall iv, encryption_iv (Alg n (EOctets iv)) = Ok (Some iv))) octet_ivs.
Proof. sweep. Qed.
Lemma iv_reads nd l oid b iv : In oid octet_ivs -> encodes (tx oid) b -> encryption_iv (enc nd l b (EOctets iv)) = Ok (Some iv).
Proof.
  intros I E. pose proof (proj1 (Forall_forall _ _) iv_checked _ I) as H.
  exact (named_read nd l oid b _ H E iv).
Qed.

(* identifiers without a name *)
Lemma oid_dot s : is_oid s -> has 46 s = true.
Proof.
  intros (arcs & L & ->). unfold legal_oid in L. destruct arcs as [|a0 [|a1 r]]; try contradiction.
  apply existsb_exists. exists 46. split; [|reflexivity].
  unfold dotted_text. cbn [map join_with]. apply in_or_app. right. left. reflexivity.
Qed.
Lemma firstn_oid k s t : is_oid s -> letterb t = true -> eqb_text (firstn k s) t = false.
Proof.
  intros O L. destruct (eqb_text (firstn k s) t) eqn:E; [|reflexivity]. apply text_ok in E. subst t. exfalso.
  unfold letterb in L. apply existsb_exists in L. destruct L as (c & I & C).
  assert (J : In c s) by (rewrite <- (firstn_skipn k s); apply in_or_app; now left).
  pose proof (proj1 (Forall_forall _ _) (oid_chars s O) c J) as R. cbn beta in R.
  rewrite negb_true_iff, orb_false_iff, andb_false_iff, !Z.leb_gt, Z.eqb_neq in C. lia.
Qed.
Lemma unknown_cipher nd l s b p : encodes s b -> (forall k n, In (k, n) map_algos_EncryptionAlgorithmId -> tx k <> s) ->
  let a := enc nd l b p in
  kdf a = Err ValueError /\ kdf_hmac a = Err ValueError /\ kdf_salt a = Err ValueError /\ kdf_iterations a = Err ValueError /\
  key_length a = Err ValueError /\ encryption_mode a = Err ValueError /\ encryption_cipher a = Err ValueError /\
  encryption_block_size a = Err ValueError /\ encryption_iv a = Err ValueError.
Proof.
  intros E N. cbv zeta. unfold enc, enc_cls. rewrite (lib_read_unknown nd l _ _ s b E N). apply encodes_oid in E.
  pose proof (oid_dot s E) as D.
  unfold kdf, kdf_hmac, kdf_salt, kdf_iterations, key_length, encryption_mode, encryption_cipher,
    encryption_block_size, encryption_iv, starts, aes_prefix, oneof.
  cbn [existsb]. rewrite D. rewrite ?(firstn_oid _ s _ E), ?(oid_not_text s _ E); try (vm_compute; reflexivity).
  cbn. repeat split.
Qed.

(* every identifier of the lists has octets *)
Lemma listed_encode (oid : str) : In oid (map fst schemes ++ map fst ciphers ++ map fst password_based) -> exists b, encodes (tx oid) b.
Proof.
  intro I. apply is_oid_encodes, oidb_ok.
  assert (C : forallb (fun o => oidb (tx o)) (map fst schemes ++ map fst ciphers ++ map fst password_based) = true)
    by (vm_compute; reflexivity).
  rewrite forallb_forall in C. exact (C _ I).
Qed.
(* the identifiers of the library that stand for no cipher of the lists *)
Definition other_ids : list str :=
  ["1.2.840.113549.3.2"; "1.2.840.113549.3.4"; "1.2.840.113549.3.9"; "1.2.840.113549.1.5.13";
   "1.2.840.113549.1.12.1.1"; "1.2.840.113549.1.12.1.2"; "1.2.840.113549.1.1.1"; "1.2.840.113549.1.1.7"]%string.
Lemma ciphers_complete k n : In (k, n) map_algos_EncryptionAlgorithmId -> (exists c, In (k, c) ciphers) \/ In k other_ids.
Proof.
  intro I.
  assert (C : forallb (fun kv => sin (fst kv) (map fst ciphers) || sin (fst kv) other_ids) map_algos_EncryptionAlgorithmId = true)
    by (vm_compute; reflexivity).
  rewrite forallb_forall in C. specialize (C _ I). apply orb_true_iff in C. rewrite !sin_iff in C. destruct C as [C|C]; [left|now right].
  apply in_map_iff in C. destruct C as ([o c] & E & J). cbn in E. subst. eauto.
Qed.
Lemma listed_more (oid : str) : oidb (tx oid) = true -> exists b, encodes (tx oid) b.
Proof. intro H. apply is_oid_encodes, oidb_ok, H. Qed.
