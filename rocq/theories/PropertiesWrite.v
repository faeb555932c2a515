(* C97: structures of the library built from Python values are written as the DER encoding of the values given. *)
Require Import Verif.Base Verif.BaseFacts Verif.Text Verif.ParserModel Verif.ParserSpec Verif.ParserProofs Verif.TagSpec Verif.CodecModel Verif.BitModel Verif.PrimModel Verif.PrimSpec
  Verif.ContModel Verif.ContSpec Verif.ContBase Verif.BerSpec Verif.OidSpec Verif.OidModel Verif.OidProofs Verif.GenModel Verif.GenSpec Verif.ReadModel Verif.ReadSpec Verif.ReadProofs Verif.LibModel Verif.LibRead Verif.LibReadProofs
  Verif.RecodeModel Verif.RecodeSpec Verif.RecodeProofs Verif.LibRecode Verif.PropertiesRead Verif.PropertiesRecode
  Verif.WriteModel Verif.WriteSpec Verif.WriteProofs Verif.LibWrite Verif.LibWriteProofs.
Require Import Verif.LibProofs.
Require Verif.Tables Verif.ShapeModel.
Require Coq.Strings.String.
Require Import Coq.Bool.Bool.
Import Coq.Strings.String.StringSyntax.
Ltac calc := vm_compute; reflexivity.

(* cls(value).dump(), for any class of the table: if the value makes a native, then dump returns octets, and they are the encoding in DER of
   what the value makes (shorter than 2^1008 octets, which length octets can tell) *)
Theorem C97_written (texts : string -> bytes -> res (option text)) (settext : string -> text -> res bytes) (retext : string -> bytes -> res bytes) (pad : bool)
  (n m : nat) (r : ref) (i a : aval) :
  (n <= m)%nat -> makes (lib_env texts pad) (lib_own settext) (lib_redo retext) lib_fill lib_special n r None i a ->
  exists d, lib_write texts settext pad m r i = Ok d /\
    (len d < 2 ^ 1008 -> exists a' j, makes (lib_env texts pad) (lib_own settext) (lib_redo retext) lib_fill lib_special n r None i a' /\
       d = encoding_of j /\ ber_info max_budget j /\ recoded (lib_env texts pad) pad (lib_redo retext) lib_default lib_untouched n r no_params None a' j d).
Proof.
  intros L H.
  assert (P0 : params_fine (lib_env texts pad) r no_params) by (split; [split; [reflexivity|split; [constructor|cbn; auto]]|reflexivity]).
  destruct (write_ok (lib_env texts pad) pad (lib_own settext) (lib_redo retext) lib_default lib_untouched lib_fill lib_special (lib_env_ok texts pad)
    (lib_seqs texts settext pad) (lib_bare texts pad) (lib_keyed texts settext pad) (lib_defaults texts settext pad) (lib_named texts settext pad) (lib_outs texts settext retext pad)
    n m r no_params None i a L P0 H) as (d & E & W).
  exists d. split; [exact E|]. intros B. destruct (W B) as (a' & M & j & Ej & Bj & _ & R). exists a', j. auto.
Qed.
Print Assumptions C97_written.

(* the octets are read, with the same class, as what the value makes; and forced encoding does not change them *)
Theorem C97_read_back (texts : string -> bytes -> res (option text)) (settext : string -> text -> res bytes) (retext : string -> bytes -> res bytes) (pad : bool)
  (n m : nat) (r : ref) (i a : aval) :
  (n <= m)%nat -> makes (lib_env texts pad) (lib_own settext) (lib_redo retext) lib_fill lib_special n r None i a ->
  exists d, lib_write texts settext pad m r i = Ok d /\
    (len d < 2 ^ 1008 ->
       (exists a' a2, makes (lib_env texts pad) (lib_own settext) (lib_redo retext) lib_fill lib_special n r None i a' /\
          read_from (lib_env texts pad) pad m r d true = Ok a2 /\ alike a' a2) /\
       lib_recode texts retext pad m r d true = Ok d).
Proof.
  intros L H. destruct (C97_written texts settext retext pad n m r i a L H) as (d & E & W). exists d. split; [exact E|]. intros B.
  destruct (W B) as (a' & j & M & Ej & Bj & R). split.
  - destruct (C96_same_value texts retext pad n m r a' j d L Bj R) as (a2 & E2 & A). exists a', a2. rewrite Ej. auto.
  - pose proof (C96_forced texts retext pad n m r a' j d true [] L Bj R (fun _ => eq_refl)) as F. rewrite app_nil_r, <- Ej in F. exact F.
Qed.
Print Assumptions C97_read_back.

(* the order of the entries of a dict does not matter *)
Lemma get_perm (l l' : list (text * aval)) : Permutation.Permutation l l' -> NoDup (map fst l) -> forall n : text, dict_get l n = dict_get l' n.
Proof.
  induction 1 as [|[q x] l l' P IH|[q x] [q' y] l|l l2 l3 P1 IH1 P2 IH2]; intros N n; auto.
  - cbn [map] in N. apply NoDup_cons_iff in N as [_ N]. cbn [dict_get]. now rewrite IH.
  - cbn [map fst] in N. apply NoDup_cons_iff in N as [N _]. cbn [dict_get]. destruct (eqb_text q' n) eqn:A, (eqb_text q n) eqn:B; auto.
    apply eqb_text_iff in A, B. subst. destruct N. now left.
  - rewrite IH1 by auto. apply IH2. eapply Permutation.Permutation_NoDup; [|exact N]. now apply Permutation.Permutation_map.
Qed.
Lemma fill_same r l l' : Permutation.Permutation l l' -> NoDup (map fst l) ->
  (forall n, dict_get (lib_fill r l) n = dict_get (lib_fill r l') n).
Proof.
  intros P N n. pose proof (get_perm l l' P N) as G. destruct r as [c|]; cbn [lib_fill]; auto.
  destruct (mem "algos._ForceNullParameters" (ancestors c)); auto. rewrite <- !G. destruct (dict_get l (tx "parameters")) eqn:E; auto.
  destruct (dict_get l (tx "algorithm")) as [x|]; auto. destruct (WriteModel.bare x) as [|v| | | |]; auto. destruct v as [| | |t| | | |]; auto. destruct (null_algo c t); auto.
  assert (A : forall l : list (text * aval), dict_get (l ++ [(tx "parameters", AObj no_params ANone)]) n = match dict_get l n with Some y => Some y | None => dict_get [(tx "parameters", AObj no_params ANone)] n end).
  { induction l0 as [|[q y] l0 IH]; cbn [app dict_get]; auto. destruct (eqb_text q n); auto. }
  now rewrite !A, G.
Qed.
Lemma forallb_perm {A} (f : A -> bool) l l' : Permutation.Permutation l l' -> forallb f l = forallb f l'.
Proof. induction 1; cbn; try congruence. destruct (f x), (f y); auto. Qed.
Lemma parts_same env dflt wr l l' : (forall n, dict_get l n = dict_get l' n) -> forall fs o pk, parts_written env dflt wr fs o pk l = parts_written env dflt wr fs o pk l'.
Proof. intros G. induction fs as [|f fs IH]; intros o pk; cbn [parts_written]; auto. now rewrite G, IH. Qed.
Theorem C97_order (texts : string -> bytes -> res (option text)) (settext : string -> text -> res bytes) (pad : bool) (m : nat) (r : ref) (l l' : list (text * aval)) :
  Permutation.Permutation l l' -> NoDup (map fst l) -> lib_write texts settext pad m r (ADict l) = lib_write texts settext pad m r (ADict l').
Proof.
  intros P N. unfold lib_write. destruct m as [|m]; auto. cbn [write]. destruct (lib_env texts pad r) as [k|]; auto. destruct (lib_special r); auto.
  destruct (r_def k) as [kd| | |fs sel| |]; auto.
  assert (E : forall g h, seq_written (lib_env texts pad) lib_default g h fs sel l (lib_fill r l) = seq_written (lib_env texts pad) lib_default g h fs sel l' (lib_fill r l')).
  { intros g h. unfold seq_written. rewrite (forallb_perm _ _ _ P). destruct (forallb _ l'); auto. pose proof (fill_same r l l' P N) as G.
    assert (K : forall path, field_key h fs (lib_fill r l) path = field_key h fs (lib_fill r l') path) by (intros [|q rest]; cbn [field_key]; auto; now rewrite G).
    destruct sel as [s|]; [rewrite K; destruct (field_key h fs (lib_fill r l') (s_key s)); cbn [bind]; auto; destruct (picked s a); cbn [bind]; auto|cbn [bind]];
      now rewrite (parts_same _ _ _ _ _ G). }
  destruct l as [|e l]; [apply Permutation.Permutation_nil in P; now subst|]. destruct l' as [|e' l']; [symmetry in P; apply Permutation.Permutation_nil in P; discriminate|].
  now rewrite E.
Qed.
Print Assumptions C97_order.

Section Example.
  Variable texts : string -> bytes -> res (option text).
  Variable settext : string -> text -> res bytes.
  Variable retext : string -> bytes -> res bytes.
  Notation mk := (makes (lib_env texts true) (lib_own settext) (lib_redo retext) lib_fill lib_special).

  Lemma mk_seq m n c fs sel li a : lookup true (CName n) = Some (c, DSeq fs sel, OSame) -> lib_special (CName n) = false ->
    fields_made (lib_env texts true) (mk m) fs sel li (lib_fill (CName n) li) a -> mk (S m) (CName n) None (ADict li) a.
  Proof.
    intros L Sp H. cbn [makes]. unfold lib_env at 1. rewrite L. cbn [option_map fst snd]. eexists _, a. split; [reflexivity|]. split; [exact Sp|].
    split; [|reflexivity]. unfold body. cbn [r_def]. eauto.
  Qed.
  Lemma mk_prim m n c k v w : lookup true (CName n) = Some (c, DPrim k, OSame) -> lib_special (CName n) = false -> lib_own settext (CName n) = None ->
    lib_redo retext (CName n) = None -> means k v w -> mk (S m) (CName n) None (APrim v) (APrim w).
  Proof.
    intros L Sp Eo Er H. cbn [makes]. unfold lib_env at 1. rewrite L. cbn [option_map fst snd]. eexists _, (APrim w). split; [reflexivity|]. split; [exact Sp|].
    split; [|reflexivity]. unfold body. cbn [r_def]. rewrite Eo. eauto.
  Qed.
  Lemma mk_inside m n c bits r l a : lookup true (CName n) = Some (c, DParse bits, OSame) -> lib_special (CName n) = false -> mk m r None (ADict l) a -> mk (S m) (CName n) (Some r) (ADict l) a.
  Proof.
    intros L Sp H. cbn [makes]. unfold lib_env at 1. rewrite L. cbn [option_map fst snd]. eexists _, a. split; [reflexivity|]. split; [exact Sp|].
    split; [|reflexivity]. unfold body. cbn [r_def]. exact H.
  Qed.
  Lemma mk_bool m b : mk (S m) (CName "core.Boolean") None (APrim (NBool b)) (APrim (NBool b)).
  Proof. eapply mk_prim; try calc. split; [discriminate|]. split; [reflexivity|exact Logic.I]. Qed.
  Lemma mk_oid m n ids arcs pre post t : lookup true (CName n) = Some (Cls 0 6 [] [], DPrim (KOid ids), OSame) -> lib_special (CName n) = false -> lib_own settext (CName n) = None ->
    lib_redo retext (CName n) = None -> legal_oid arcs -> ids = pre ++ (dotted_text arcs, t) :: post -> existsb (eqb_text t) (map snd post) = false -> existsb (eqb_text t) (map fst ids) = false ->
    mk (S m) (CName n) None (APrim (NText t)) (APrim (NText t)).
  Proof.
    intros L Sp Eo Er A E N1 N2. eapply mk_prim; eauto. split; [discriminate|]. cbn [means].
    assert (G : forall l, existsb (eqb_text t) l = false -> ~ In t l).
    { intros l F J. rewrite <- not_true_iff_false in F. apply F. apply existsb_exists. exists t. split; auto. now apply eqb_text_iff. }
    left. split; auto. split; [now apply G|]. destruct (oid_encode_legal arcs A) as (x & _ & O). exists x, arcs. split; auto. split; auto. left. exists pre, post. split; auto.
  Qed.
  Lemma not_choice n c d o : lookup true (CName n) = Some (c, d, o) -> (match d with DChoice _ _ => false | _ => true end) = true -> ~ choice_type (lib_env texts true) (CName n).
  Proof. intros L D (k & alts & fx & E & F). unfold lib_env in E. rewrite L in E. cbn [option_map fst snd] in E. injection E as <-. cbn in F. subst d. discriminate. Qed.

  (* an algorithm: its parameters are set to NULL on their own *)
  Definition digest_ids : list (text * text) := match snd (fst (class_at "algos.DigestAlgorithmId")) with DPrim (KOid m) => m | _ => [] end.
  Lemma mk_sha256 m : mk (S (S m)) (CName "algos.DigestAlgorithm") None (ADict [(tx "algorithm", APrim (NText (tx "sha256")))])
    (ADict [(tx "algorithm", APrim (NText (tx "sha256"))); (tx "parameters", ANone)]).
  Proof.
    apply (mk_seq (S m) "algos.DigestAlgorithm" (Cls 0 16 [] []) (fields_at "algos.DigestAlgorithm") (sel_at "algos.DigestAlgorithm") _ _ ltac:(calc) ltac:(calc)).
    eexists _, (typed 1 (As (CName "core.Null")) (fields_at "algos.DigestAlgorithm")). split; [reflexivity|]. split; [discriminate|]. split.
    - intros n x [[= <- <-]|[]]. exists (nth 0 (fields_at "algos.DigestAlgorithm") (RField [] None no_params GReq)). split; [left; calc|calc].
    - split.
      + change (sel_at "algos.DigestAlgorithm") with (Some (match sel_at "algos.DigestAlgorithm" with Some s => s | None => Sel 0 [] [] None end)).
        exists (APrim (NText (tx "sha256"))), (As (CName "core.Null")). split; [exists (APrim (NText (tx "sha256"))); split; [calc|reflexivity]|]. split; [|calc].
        left. apply nth_error_In with (n := 7%nat). calc.
      + assert (F : lib_fill (CName "algos.DigestAlgorithm") [(tx "algorithm", APrim (NText (tx "sha256")))] = [(tx "algorithm", APrim (NText (tx "sha256"))); (tx "parameters", AObj no_params ANone)]) by calc.
        rewrite F. change (fields_at "algos.DigestAlgorithm") with
          [RField (tx "algorithm") (Some (CName "algos.DigestAlgorithmId")) no_params GReq; RField (tx "parameters") (Some (CName "core.Any")) no_params GOpt].
        cbn [typed all2]. split; [|split; [|exact Logic.I]]; (split; [reflexivity|]).
        * split; [eapply not_choice; calc|].
          apply (mk_oid m "algos.DigestAlgorithmId" digest_ids [2; 16; 840; 1; 101; 3; 4; 2; 1] (firstn 4 digest_ids) (skipn 5 digest_ids)); try calc.
          cbn; repeat split; try lia; repeat constructor; lia.
        * cbn [makes]. eexists _, ANone. split; [calc|]. split; [reflexivity|]. split; [|reflexivity]. unfold body. cbn. auto.
  Qed.

  (* an extension: the class of what is inside the octet string is chosen by the identifier, the default of critical is not written *)
  Definition ext_given : list (text * aval) :=
    [(tx "extn_id", APrim (NText (tx "basic_constraints"))); (tx "critical", APrim (NBool false)); (tx "extn_value", ADict [(tx "ca", APrim (NBool true))])].
  Lemma mk_constraints m : mk (S (S m)) (CName "x509.BasicConstraints") None (ADict [(tx "ca", APrim (NBool true))]) (ADict [(tx "ca", APrim (NBool true)); (tx "path_len_constraint", ANone)]).
  Proof.
    apply (mk_seq (S m) "x509.BasicConstraints" (Cls 0 16 [] []) (fields_at "x509.BasicConstraints") None _ _ ltac:(calc) ltac:(calc)).
    eexists _, (map (fun g => (g, Keep)) (fields_at "x509.BasicConstraints")). split; [reflexivity|]. split; [discriminate|]. split.
    - intros n x [[= <- <-]|[]]. exists (nth 0 (fields_at "x509.BasicConstraints") (RField [] None no_params GReq)). split; [left; calc|calc].
    - split; [reflexivity|].
      assert (F : forall l, lib_fill (CName "x509.BasicConstraints") l = l) by (intros; calc). rewrite F.
      change (fields_at "x509.BasicConstraints") with
        [RField (tx "ca") (Some (CName "core.Boolean")) no_params (GDef (APrim (NBool false)));
         RField (tx "path_len_constraint") (Some (CName "core.Integer")) no_params GOpt].
      cbn [map all2]. split; [|split; [|exact Logic.I]]; (split; [reflexivity|]).
      + left. split; [eapply not_choice; calc|]. apply mk_bool.
      + reflexivity.
  Qed.
  Lemma mk_extension : mk 4 (CName "x509.Extension") None (ADict ext_given) ber_ext_value.
  Proof.
    apply (mk_seq 3 "x509.Extension" (Cls 0 16 [] []) (fields_at "x509.Extension") (sel_at "x509.Extension") _ _ ltac:(calc) ltac:(calc)).
    eexists _, (typed 2 (Inside (CName "x509.BasicConstraints")) (fields_at "x509.Extension")). split; [reflexivity|]. split; [discriminate|]. split.
    - intros n x [[= <- <-]|[[= <- <-]|[[= <- <-]|[]]]].
      + exists (nth 0 (fields_at "x509.Extension") (RField [] None no_params GReq)). split; [left; calc|calc].
      + exists (nth 1 (fields_at "x509.Extension") (RField [] None no_params GReq)). split; [right; left; calc|calc].
      + exists (nth 2 (fields_at "x509.Extension") (RField [] None no_params GReq)). split; [right; right; left; calc|calc].
    - split.
      + change (sel_at "x509.Extension") with (Some (match sel_at "x509.Extension" with Some s => s | None => Sel 0 [] [] None end)).
        exists (APrim (NText (tx "basic_constraints"))), (Inside (CName "x509.BasicConstraints")).
        split; [exists (APrim (NText (tx "basic_constraints"))); split; [calc|reflexivity]|]. split; [|reflexivity].
        left. apply nth_error_In with (n := 6%nat). calc.
      + assert (F : forall l, lib_fill (CName "x509.Extension") l = l) by (intros; calc). rewrite F.
        change (fields_at "x509.Extension") with
          [RField (tx "extn_id") (Some (CName "x509.ExtensionId")) no_params GReq; RField (tx "critical") (Some (CName "core.Boolean")) no_params (GDef (APrim (NBool false)));
           RField (tx "extn_value") (Some (CName "core.ParsableOctetString")) no_params GReq].
        cbn [typed all2]. split; [|split; [|split; [|exact Logic.I]]]; (split; [reflexivity|]).
        * split; [eapply not_choice; calc|]. apply (mk_oid 2 "x509.ExtensionId" ext_ids [2; 5; 29; 19] (firstn 6 ext_ids) (skipn 7 ext_ids)); try calc.
          cbn; repeat split; try lia; repeat constructor; lia.
        * left. split; [eapply not_choice; calc|]. apply mk_bool.
        * eapply mk_inside; [calc|calc|]. apply mk_constraints.
  Qed.

  Example C97_written_ex : makes (lib_env texts true) (lib_own settext) (lib_redo retext) lib_fill lib_special 2 (CName "algos.DigestAlgorithm") None
      (ADict [(tx "algorithm", APrim (NText (tx "sha256")))]) (ADict [(tx "algorithm", APrim (NText (tx "sha256"))); (tx "parameters", ANone)]) /\
    lib_write texts settext true 2 (CName "algos.DigestAlgorithm") (ADict [(tx "algorithm", APrim (NText (tx "sha256")))]) = Ok [48; 13; 6; 9; 96; 134; 72; 1; 101; 3; 4; 2; 1; 5; 0].
  Proof. split; [apply mk_sha256|calc]. Qed.
  Example C97_read_back_ex : makes (lib_env texts true) (lib_own settext) (lib_redo retext) lib_fill lib_special 4 (CName "x509.Extension") None (ADict ext_given) ber_ext_value /\
    lib_write texts settext true 4 (CName "x509.Extension") (ADict ext_given) = Ok der_ext /\ read_from (lib_env texts true) true 4 (CName "x509.Extension") der_ext true = Ok ber_ext_value.
  Proof. split; [apply mk_extension|]. split; calc. Qed.
  Example C97_order_ex : Permutation.Permutation ext_given (rev ext_given) /\ NoDup (map fst ext_given) /\ rev ext_given <> ext_given /\
    lib_write texts settext true 4 (CName "x509.Extension") (ADict (rev ext_given)) = Ok der_ext.
  Proof.
    split; [apply Permutation.Permutation_rev|]. split; [apply (nodupb_sound _ eqb_text_iff); calc|]. split; [discriminate|calc].
  Qed.
  (* a name: a choice, and a set whose elements are sorted *)
  Example C97_name_ex : lib_write texts settext true 9 (CName "x509.Name") (AChoice [] (AList [AList
      [ADict [(tx "type", APrim (NText (tx "organization_name"))); (tx "value", AChoice (tx "utf8_string") (APrim (NText (tx "B"))))];
       ADict [(tx "type", APrim (NText (tx "common_name"))); (tx "value", AChoice (tx "printable_string") (APrim (NText (tx "A"))))]]])) =
    Ok [48; 22; 49; 20; 48; 8; 6; 3; 85; 4; 3; 19; 1; 65; 48; 8; 6; 3; 85; 4; 10; 12; 1; 66].
  Proof. calc. Qed.
End Example.

(* ---- NULL as parameters ---- *)
(* RFC 4055 sections 2.1 and 5, RFC 8017 appendix C: rsaEncryption, sha256WithRSAEncryption, sha384.., sha512.., sha224..; sha1, sha224, sha256, sha384, sha512 *)
Definition rsa_prefix : list Z := [1; 2; 840; 113549; 1; 1].
Definition null_required : list (list Z) :=
  [rsa_prefix ++ [1]; rsa_prefix ++ [11]; rsa_prefix ++ [12]; rsa_prefix ++ [13]; rsa_prefix ++ [14]; [1; 3; 14; 3; 2; 26];
   [2; 16; 840; 1; 101; 3; 4; 2; 4]; [2; 16; 840; 1; 101; 3; 4; 2; 1]; [2; 16; 840; 1; 101; 3; 4; 2; 2]; [2; 16; 840; 1; 101; 3; 4; 2; 3]].
Definition algorithm_classes : list (string * string) :=
  [("algos.DigestAlgorithm", "algos.DigestAlgorithmId"); ("algos.SignedDigestAlgorithm", "algos.SignedDigestAlgorithmId");
   ("algos.EncryptionAlgorithm", "algos.EncryptionAlgorithmId"); ("cms.KeyEncryptionAlgorithm", "cms.KeyEncryptionAlgorithmId");
   ("keys.PrivateKeyAlgorithm", "keys.PrivateKeyAlgorithmId"); ("keys.PublicKeyAlgorithm", "keys.PublicKeyAlgorithmId")]%string.
Definition names_known (c : string) : list text := match snd (fst (class_at c)) with DPrim (KOid m) => map snd m | _ => [] end.
Definition oid_written (arcs : list Z) : bytes := match oid_encode (dotted_text arcs) with Ok x => 6 :: len x :: x | Err _ => [] end.
Definition null_checked (texts : string -> bytes -> res (option text)) (settext : string -> text -> res bytes) (ck : string * string) (t : text) : bool :=
  match lib_write texts settext true 2 (CName (snd ck)) (APrim (NText t)), lib_write texts settext true 4 (CName (fst ck)) (ADict [(tx "algorithm", APrim (NText t))]) with
  | Ok o, Ok d =>
      let x := o ++ (if existsb (fun arcs => eqb_bytes o (oid_written arcs)) null_required then [5; 0] else []) in
      eqb_bytes d (48 :: len x :: x)
  | _, _ => false
  end.
(* an algorithm given by its name alone is written with NULL as parameters if its identifier is in the list, and without parameters otherwise *)
Theorem C97_null_parameters (texts : string -> bytes -> res (option text)) (settext : string -> text -> res bytes) (c k : string) (t : text) :
  In (c, k) algorithm_classes -> In t (names_known k) ->
  exists o d, lib_write texts settext true 2 (CName k) (APrim (NText t)) = Ok o /\
    lib_write texts settext true 4 (CName c) (ADict [(tx "algorithm", APrim (NText t))]) = Ok d /\
    ((exists arcs, In arcs null_required /\ o = oid_written arcs /\ d = 48 :: len (o ++ [5; 0]) :: o ++ [5; 0]) \/
     ((forall arcs, In arcs null_required -> o <> oid_written arcs) /\ d = 48 :: len o :: o)).
Proof.
  assert (A : forallb (fun ck => forallb (null_checked texts settext ck) (names_known (snd ck))) algorithm_classes = true) by calc.
  intros I J. rewrite forallb_forall in A. specialize (A _ I). cbn [snd] in A. rewrite forallb_forall in A. specialize (A _ J). unfold null_checked in A. cbn [fst snd] in A.
  destruct (lib_write texts settext true 2 (CName k) (APrim (NText t))) as [o|]; [|discriminate].
  destruct (lib_write texts settext true 4 (CName c) (ADict [(tx "algorithm", APrim (NText t))])) as [d|]; [|discriminate].
  apply eqb_bytes_spec in A. exists o, d. split; auto. split; auto. destruct (existsb _ null_required) eqn:E.
  - left. apply existsb_exists in E as (arcs & I2 & E). apply eqb_bytes_spec in E. exists arcs. auto.
  - right. rewrite app_nil_r in A. split; auto. intros arcs I2 F. rewrite <- not_true_iff_false in E. apply E. apply existsb_exists. exists arcs. split; auto. now apply eqb_bytes_spec.
Qed.
Print Assumptions C97_null_parameters.
Example C97_null_parameters_ex : In ("algos.DigestAlgorithm", "algos.DigestAlgorithmId")%string algorithm_classes /\ In (tx "sha256") (names_known "algos.DigestAlgorithmId") /\
  length (flat_map (fun ck => names_known (snd ck)) algorithm_classes) = 136%nat.
Proof. split; [left; reflexivity|]. split; [|calc]. apply nth_error_In with (n := 4%nat). calc. Qed.
(* RFC 3279 section 2.2.1 asks for NULL with sha1WithRSAEncryption and md5WithRSAEncryption as well *)
Theorem C97_null_refuted : exists t u, forall texts settext,
  lib_write texts settext true 4 (CName "algos.SignedDigestAlgorithm") (ADict [(tx "algorithm", APrim (NText t))]) = Ok (48 :: 11 :: oid_written (rsa_prefix ++ [5])) /\
  lib_write texts settext true 4 (CName "algos.SignedDigestAlgorithm") (ADict [(tx "algorithm", APrim (NText u))]) = Ok (48 :: 11 :: oid_written (rsa_prefix ++ [4])).
Proof. exists (tx "sha1_rsa"), (tx "md5_rsa"). intros. split; calc. Qed.
Print Assumptions C97_null_refuted.

(* not every value that has an encoding can be given: an empty dict counts as no value (see C24), though every field of BasicConstraints may
   be left out *)
Theorem C97_empty_refuted : exists r d,
  (forall texts, read_from (lib_env texts true) true 9 r d true = Ok (ADict [(tx "ca", APrim (NBool false)); (tx "path_len_constraint", ANone)])) /\
  (forall texts retext, lib_recode texts retext true 9 r d true = Ok d) /\
  forall texts settext, lib_write texts settext true 9 r (ADict []) = Err ValueError.
Proof. exists (CName "x509.BasicConstraints"), [48; 0]. split; [intros; calc|]. split; intros; calc. Qed.
Print Assumptions C97_empty_refuted.
(* an AnyAlgorithmId is read but cannot be made *)
Theorem C97_any_algorithm_refuted : exists r d t,
  (forall texts, read_from (lib_env texts true) true 9 r d true = Ok (APrim (NText t))) /\
  forall texts settext, lib_write texts settext true 9 r (APrim (NText t)) = Err TypeError.
Proof. exists (CName "algos.AnyAlgorithmId"), [6; 9; 96; 134; 72; 1; 101; 3; 4; 2; 1], (tx "sha256"). split; intros; calc. Qed.
Print Assumptions C97_any_algorithm_refuted.
(* the native of a structure is not always a value it can be made of: the native of a choice does not tell the name of the alternative *)
Theorem C97_native_refuted : exists r d a,
  (forall texts, read_from (lib_env texts true) true 9 r d true = Ok a) /\ forall texts settext, lib_write texts settext true 9 r a = Err ValueError.
Proof.
  exists (CName "x509.NameTypeAndValue"), [48; 8; 6; 3; 85; 4; 3; 19; 1; 65], (ADict [(tx "type", APrim (NText (tx "common_name"))); (tx "value", APrim (NText (tx "A")))]).
  split; intros; calc.
Qed.
Print Assumptions C97_native_refuted.
