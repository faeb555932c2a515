(* C100: the exceptions of reading the structures of the library. *)
Require Import Verif.Base Verif.Text Verif.ParserModel Verif.PrimModel Verif.ContModel Verif.ReadModel Verif.LibModel Verif.LibRead Verif.RaiseSpec Verif.RaiseLib.
Require Coq.Strings.String.
Require Import Coq.Bool.Bool.
Import Coq.Strings.String.StringSyntax.
Ltac calc := vm_compute; reflexivity.

(* the texts of names raise ValueError or UnicodeError only *)
Definition texts_fine (texts : string -> bytes -> res (option text)) : Prop := forall n b e, bytes_ok b -> texts n b = Err e -> expected e.
Definition no_texts (n : string) (b : bytes) : res (option text) := Err UnicodeError.
Lemma no_texts_fine : texts_fine no_texts.
Proof. intros n b e _ H. right. unfold no_texts in H. congruence. Qed.

(* cls.load(data).native for any class of the table and any octets: an exception other than
   ValueError has a cause in the definition of the class or of one it is read with *)
Theorem C100_causes (texts : string -> bytes -> res (option text)) (pad : bool) (fuel : nat) (r : ref) (data : bytes) (strict : bool) (e : exn) :
  texts_fine texts -> bytes_ok data -> read_from (lib_env texts pad) pad fuel r data strict = Err e ->
  expected e \/ e = OutOfFuel \/ can_raise (lib_env texts pad) e r.
Proof. intros T. exact (read_from_err texts pad T fuel r data strict e). Qed.
Print Assumptions C100_causes.

(* ---- which classes ---- *)
(* the classes with a cause, by the length of their names *)
Definition with_type : list (list ref) := Eval vm_compute in steps 12 true TypeError [].
Definition with_index : list (list ref) := Eval vm_compute in steps 12 true IndexError [].
Definition with_overflow : list (list ref) := Eval vm_compute in steps 12 true OverflowError [].
Definition with_attribute : list (list ref) := Eval vm_compute in steps 12 true AttributeError [].
Definition with_key : list (list ref) := Eval vm_compute in steps 12 true KeyError [].
(* CertificateChoices and the classes read with it *)
Definition with_revision : list (list ref) := Eval vm_compute in steps 12 true StructError [].

Lemma never_of (l : list (list ref)) (e : exn) : forallb (fun pad => closed_under pad e l) [true; false] = true ->
  forall texts pad r, has l r = false -> ~ can_raise (lib_env texts pad) e r.
Proof.
  intros H texts pad r N. rewrite forallb_forall in H. apply (never texts pad e l r); [|exact N]. apply H. destruct pad; cbn; auto.
Qed.
Lemma never_type : forall texts pad r, has with_type r = false -> ~ can_raise (lib_env texts pad) TypeError r.
Proof. apply never_of. calc. Qed.
Lemma never_index : forall texts pad r, has with_index r = false -> ~ can_raise (lib_env texts pad) IndexError r.
Proof. apply never_of. calc. Qed.
Lemma never_overflow : forall texts pad r, has with_overflow r = false -> ~ can_raise (lib_env texts pad) OverflowError r.
Proof. apply never_of. calc. Qed.
Lemma never_attribute : forall texts pad r, has with_attribute r = false -> ~ can_raise (lib_env texts pad) AttributeError r.
Proof. apply never_of. calc. Qed.
Lemma never_key : forall texts pad r, has with_key r = false -> ~ can_raise (lib_env texts pad) KeyError r.
Proof. apply never_of. calc. Qed.
Lemma never_other (e : exn) : In e [ValueError; UnicodeError; StructError; ZeroDivisionError; NameError; OutOfFuel] ->
  forall texts pad r, has with_revision r = false -> ~ can_raise (lib_env texts pad) e r.
Proof. intros I. apply never_of. cbn in I. destruct I as [<-|[<-|[<-|[<-|[<-|[<-|[]]]]]]]; calc. Qed.

(* KeyError: not with these classes *)
Theorem C100_no_key_error (texts : string -> bytes -> res (option text)) (pad : bool) (fuel : nat) (r : ref) (data : bytes) (strict : bool) :
  texts_fine texts -> bytes_ok data -> has with_key r = false -> read_from (lib_env texts pad) pad fuel r data strict <> Err KeyError.
Proof.
  intros T B N H. apply C100_causes in H; auto. destruct H as [[H|H]|[H|H]]; try discriminate. exact (never_key _ _ _ N H).
Qed.
Print Assumptions C100_no_key_error.

(* five exceptions, unless certificates of an unknown version have to be looked into *)
Theorem C100_exceptions (texts : string -> bytes -> res (option text)) (pad : bool) (fuel : nat) (r : ref) (data : bytes) (strict : bool) (e : exn) :
  texts_fine texts -> bytes_ok data -> has with_revision r = false -> read_from (lib_env texts pad) pad fuel r data strict = Err e ->
  In e [ValueError; UnicodeError; TypeError; IndexError; OverflowError; AttributeError; KeyError; OutOfFuel].
Proof.
  intros T B N H. apply C100_causes in H; auto. destruct H as [[->| ->]|[->|H]]; cbn; auto 10.
  destruct e; cbn; auto 10; exfalso; (eapply never_other; [|exact N|exact H]); cbn; auto 10.
Qed.
Print Assumptions C100_exceptions.

(* ValueError alone: strings, numbers, identifiers, times in UTC, choices and lists of them *)
Definition quiet (r : ref) : bool :=
  negb (has with_type r) && negb (has with_index r) && negb (has with_overflow r) && negb (has with_attribute r) && negb (has with_key r) && negb (has with_revision r).
Theorem C100_value_errors (texts : string -> bytes -> res (option text)) (pad : bool) (fuel : nat) (r : ref) (data : bytes) (strict : bool) (e : exn) :
  texts_fine texts -> bytes_ok data -> quiet r = true -> read_from (lib_env texts pad) pad fuel r data strict = Err e -> expected e \/ e = OutOfFuel.
Proof.
  intros T B N H. unfold quiet in N. rewrite !andb_true_iff, !negb_true_iff in N. destruct N as [[[[[N1 N2] N3] N4] N5] N6].
  pose proof (C100_exceptions _ _ _ _ _ _ _ T B N6 H) as E. apply C100_causes in H; auto. destruct H as [H|[H|H]]; auto.
  cbn in E. destruct E as [<-|[<-|[<-|[<-|[<-|[<-|[<-|[<-|[]]]]]]]]]; exfalso.
  - eapply never_other; [|exact N6|exact H]; cbn; auto 10.
  - eapply never_other; [|exact N6|exact H]; cbn; auto 10.
  - exact (never_type _ _ _ N1 H).
  - exact (never_index _ _ _ N2 H).
  - exact (never_overflow _ _ _ N3 H).
  - exact (never_attribute _ _ _ N4 H).
  - exact (never_key _ _ _ N5 H).
  - eapply never_other; [|exact N6|exact H]; cbn; auto 10.
Qed.
Print Assumptions C100_value_errors.

(* of 430 classes 328 never raise KeyError, 398 only what is in the list above, and 110 ValueError alone *)
Definition count (f : ref -> bool) : nat := length (filter f (map fst (concat (table true)))).
Theorem C100_library : length (concat (table true)) = 430%nat /\ length (concat (table false)) = 430%nat /\
  count (fun r => negb (has with_key r)) = 328%nat /\ count (fun r => negb (has with_revision r)) = 398%nat /\ count quiet = 110%nat /\
  forallb (fun n => negb (has with_key (CName n)))
    (["x509.Name"; "x509.GeneralNames"; "x509.AuthorityKeyIdentifier"; "x509.CRLDistributionPoints"; "x509.NameConstraints"; "x509.CertificatePolicies";
     "algos.DigestInfo"; "algos.SignedDigestAlgorithm"; "keys.RSAPrivateKey"; "keys.ECPrivateKey"; "keys.EncryptedPrivateKeyInfo"; "tsp.TSTInfo"; "tsp.TimeStampReq"]%string) = true /\
  forallb (fun n => negb (has with_revision (CName n))) (["x509.Certificate"; "crl.CertificateList"; "csr.CertificationRequest"; "ocsp.OCSPRequest"; "ocsp.OCSPResponse"; "keys.PrivateKeyInfo"]%string) = true /\
  forallb (fun n => quiet (CName n)) (["x509.ExtKeyUsageSyntax"; "x509.DirectoryString"; "x509.KeyPurposeIdentifiers"; "core.UTF8String"; "core.Integer"; "core.UTCTime"; "core.ObjectIdentifier"; "cms.SetOfOctetString"]%string) = true.
Proof. repeat split; calc. Qed.
Print Assumptions C100_library.

Example C100_ex : texts_fine no_texts /\
  read_from (lib_env no_texts true) true 5 (CName "x509.ExtKeyUsageSyntax") [48; 3; 6; 5; 43] true = Err ValueError /\ quiet (CName "x509.ExtKeyUsageSyntax") = true /\
  read_from (lib_env no_texts true) true 5 (CName "x509.DirectoryString") [12; 1; 255] true = Err UnicodeError /\
  has with_key (CName "x509.NameConstraints") = false /\
  read_from (lib_env no_texts true) true 9 (CName "x509.NameConstraints") [48; 2; 160; 0] true = Ok (ADict [(tx "permitted_subtrees", AList []); (tx "excluded_subtrees", ANone)]).
Proof. split; [exact no_texts_fine|]. repeat split; calc. Qed.

(* ValueError alone is false of sequences: elements after the last field are read by their tags
   alone, here an enumerated number, a bit string of no octets, a real number and the last
   instant of 9999 after a BasicConstraints without fields *)
Theorem C100_trailing_refuted : exists a b c d, Forall bytes_ok [a; b; c; d] /\ forall texts pad,
  let ask x := read_from (lib_env texts pad) pad 5 (CName "x509.BasicConstraints") x true in
  ask a = Err TypeError /\ ask b = Err IndexError /\ ask c = Err AttributeError /\ ask d = Err OverflowError.
Proof.
  exists [48; 3; 10; 1; 0], [48; 2; 3; 0], [48; 2; 9; 0], ([48; 25; 24; 23] ++ tx "99991231235959.9999999Z").
  split; [repeat constructor; unfold byte_ok; lia|]. intros texts pad. destruct pad; repeat split; calc.
Qed.
Print Assumptions C100_trailing_refuted.

(* and of names that are missing: an unknown reason, an attribute certificate of version 1 whose
   first element is an empty sequence, where validate() has to say ValueError (cms.py:490-513) *)
Theorem C100_names_refuted : exists a b, bytes_ok a /\ bytes_ok b /\ forall texts pad,
  read_from (lib_env texts pad) pad 5 (CName "crl.CRLReason") a true = Err KeyError /\
  read_from (lib_env texts pad) pad 5 (CName "cms.CertificateChoices") b true = Err KeyError.
Proof.
  exists [10; 1; 7], [161; 2; 48; 0].
  split; [repeat constructor; unfold byte_ok; lia|]. split; [repeat constructor; unfold byte_ok; lia|]. intros texts pad. destruct pad; split; calc.
Qed.
Print Assumptions C100_names_refuted.
