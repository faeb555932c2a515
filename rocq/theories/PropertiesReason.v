(* C102: every reason that can be read has a text of its own. *)
Require Import Verif.Base Verif.BaseFacts Verif.Text Verif.IntModel Verif.BitModel Verif.ParserModel Verif.PrimModel Verif.ContModel Verif.ReadModel Verif.LibModel Verif.LibRead Verif.PrimRead Verif.RaiseProofs Verif.ReasonModel.
Require Coq.Strings.String.
Require Import Coq.Bool.Bool.
Import Coq.Strings.String.StringSyntax.
Ltac calc := vm_compute; reflexivity.

(* RFC 5280, 5.3.1, with the texts *)
Definition reasons : list (Z * (text * text)) :=
  map (fun x => (fst x, (tx (fst (snd x)), tx (snd (snd x)))))
  [(0, ("unspecified", "an unspecified reason")); (1, ("key_compromise", "a compromised key")); (2, ("ca_compromise", "the CA being compromised"));
   (3, ("affiliation_changed", "an affiliation change")); (4, ("superseded", "certificate supersession"));
   (5, ("cessation_of_operation", "a cessation of operation")); (6, ("certificate_hold", "a certificate hold"));
   (8, ("remove_from_crl", "removal from the CRL")); (9, ("privilege_withdrawn", "privilege withdrawl")); (10, ("aa_compromise", "the AA being compromised"))]%string.

Definition reason_kind : kind := KEnum (Some (map (fun x => (fst x, fst (snd x))) reasons)).
Lemma reason_env texts pad : exists k, lib_env texts pad (CName "crl.CRLReason") = Some k /\ r_def k = DPrim reason_kind /\ forall a, r_out k a = Ok a.
Proof. eexists. split; [destruct pad; vm_compute; reflexivity|]. split; [vm_compute; reflexivity|reflexivity]. Qed.
Lemma map_get_in m z t : map_get m z = Some t -> In (z, t) m.
Proof.
  induction m as [|[a b] m IH]; cbn; [discriminate|]. destruct (Z.eqb_spec a z) as [->|]; [intros H; inversion H; auto|auto].
Qed.
Lemma enum_gives m c p i a : info_ok i -> prim_native (KEnum (Some m)) c p i = Ok a -> exists z t, In (z, t) m /\ a = APrim (NText t).
Proof.
  intros (_ & B & _) H. unfold prim_native in H. destruct (build _ _ _ _) as [o|] eqn:E; [|discriminate]. cbn [bind] in H.
  destruct (build_contents _ _ _ _ _ B E) as (b & C & _ & N & _). unfold get_native in H. rewrite C in H. unfold cached in H. rewrite N in H. cbn [c_native no_cache] in H.
  destruct (map_get m _) as [s|] eqn:G; cbn in H; [|discriminate]. injection H as <-. apply map_get_in in G. eauto.
Qed.

Theorem C102_text (texts : string -> bytes -> res (option text)) (pad : bool) (fuel : nat) (data : bytes) (strict : bool) (a : aval) :
  bytes_ok data -> read_from (lib_env texts pad) pad fuel (CName "crl.CRLReason") data strict = Ok a ->
  exists z name words, In (z, (name, words)) reasons /\ a = APrim (NText name) /\ human_friendly a = Ok words.
Proof.
  intros B H. unfold read_from in H. destruct (parse_ _ _ _) as [[i q]|] eqn:P; [|discriminate]. cbn [bind] in H.
  apply parse_0 in P; [|exact B]. destruct (strict && _); [discriminate|]. destruct fuel as [|fuel]; [discriminate|]. cbn [read] in H.
  destruct (reason_env texts pad) as (k & E & D & O). rewrite E, D in H.
  destruct (prim_native _ _ _ _) as [v|] eqn:Q; [|discriminate]. cbn [bind] in H. rewrite O in H. injection H as <-.
  apply enum_gives in Q; [|exact P]. destruct Q as (z & t & I & ->). apply in_map_iff in I as ([z' [n w]] & J & I). cbn in J. injection J as -> ->.
  exists z, t, w. repeat split; [exact I|]. clear - I. unfold reasons in I. cbn [map fst snd] in I.
  repeat (destruct I as [I|I]; [inversion I; subst; vm_compute; reflexivity|]). destruct I.
Qed.
Print Assumptions C102_text.

(* texts tell reasons apart, and there is none for anything else *)
Theorem C102_apart (a b : aval) (w : text) : human_friendly a = Ok w -> human_friendly b = Ok w -> a = b.
Proof.
  assert (F : forall a, human_friendly a = Ok w -> exists x, In x reason_texts /\ a = APrim (NText (tx (fst x))) /\ w = tx (snd x)).
  { intros [|v| | | |]; try discriminate. destruct v; try discriminate. cbn [human_friendly]. destruct (find _ _) as [x|] eqn:G; [|discriminate].
    intros H. injection H as <-. apply find_some in G as [I G]. apply Text.eqb_text_spec in G. subst. eauto. }
  intros A B. destruct (F _ A) as (x & I & -> & X). destruct (F _ B) as (y & J & -> & Y). rewrite X in Y. clear A B F X.
  unfold reason_texts in I, J. cbn [In] in I, J.
  repeat (destruct I as [<-|I]; [repeat (destruct J as [<-|J]; [first [reflexivity|exfalso; vm_compute in Y; discriminate Y]|]); destruct J|]). destruct I.
Qed.
Print Assumptions C102_apart.

Theorem C102_only (a : aval) (w : text) : human_friendly a = Ok w -> exists z name, In (z, (name, w)) reasons /\ a = APrim (NText name).
Proof.
  destruct a as [|v| | | |]; try discriminate. destruct v; try discriminate. cbn [human_friendly]. destruct (find _ _) as [x|] eqn:G; [|discriminate].
  intros H. injection H as <-. apply find_some in G as [I G]. apply Text.eqb_text_spec in G. subst.
  assert (E : map snd reasons = map (fun x => (tx (fst x), tx (snd x))) reason_texts) by calc.
  apply (in_map (fun x => (tx (fst x), tx (snd x)))) in I. rewrite <- E in I. apply in_map_iff in I as ([z p] & J & I). cbn [snd] in J. subst p. eauto.
Qed.
Print Assumptions C102_only.

(* the texts come from RFC 5280, 5.3.1: numbers 0 to 10 without 7 *)
Theorem C102_numbers : map fst reasons = [0; 1; 2; 3; 4; 5; 6; 8; 9; 10] /\ forall texts pad strict,
  Forall (fun x => read_from (lib_env texts pad) pad 1 (CName "crl.CRLReason") [10; 1; fst x] strict = Ok (APrim (NText (fst (snd x)))) /\
                   human_friendly (APrim (NText (fst (snd x)))) = Ok (snd (snd x))) reasons.
Proof. split; [calc|]. intros texts pad strict. destruct pad, strict; repeat constructor; calc. Qed.
Print Assumptions C102_numbers.

Example C102_ex : forall texts, bytes_ok [10; 2; 0; 4] /\
  read_from (lib_env texts true) true 1 (CName "crl.CRLReason") [10; 2; 0; 4] true = Ok (APrim (NText (tx "superseded"))) /\
  human_friendly (APrim (NText (tx "superseded"))) = Ok (tx "certificate supersession") /\ human_friendly ANone = Err KeyError.
Proof. intros texts. split; [repeat constructor; unfold byte_ok; lia|]. repeat split; calc. Qed.
