(* C22, C23, C29, C47, C59 for structures loaded from BER, and C86. *)
Require Import Verif.Base Verif.ParserModel Verif.ParserSpec Verif.ParserProofs Verif.Text Verif.TagSpec Verif.PrimModel Verif.PrimSpec Verif.PrimMore
  Verif.ContModel Verif.ContSpec Verif.ContBase Verif.ContPath Verif.ContHistSpec Verif.ContEx
  Verif.BerSpec Verif.BerFinal Verif.BerKeep Verif.BerRead Verif.BerEx.

Ltac calc := vm_compute; reflexivity.

(* C86 *)
Theorem C86_load (s : spec) (p : params) (a : aval) (d r : bytes) (strict : bool) :
  wf s -> taggable s p -> ber_encodes s (stags s p) a d -> (strict = true -> r = []) ->
  exists v a', cload s p (d ++ r) strict = Ok v /\ sim s a a' /\ follows_from Lost s (stags s p) a' v.
Proof. exact (ber_load s p a d r strict). Qed.
Print Assumptions C86_load.

Theorem C86_one_value (s : spec) (p : params) (a b : aval) (d : bytes) :
  wf s -> taggable s p -> ber_encodes s (stags s p) a d -> ber_encodes s (stags s p) b d -> sim s a b.
Proof. exact (ber_unambiguous s p a b d). Qed.
Print Assumptions C86_one_value.

Theorem C86_der_is_ber (s : spec) (p : params) (a : aval) (d : bytes) :
  wf s -> taggable s p -> der s (stags s p) a d -> ber_encodes s (stags s p) a d.
Proof. intros W. exact (der_is_ber s W p a d). Qed.
Print Assumptions C86_der_is_ber.

Example C86_ex : wf REC /\ taggable REC no_params /\ ber_encodes REC (stags REC no_params) rec_value rec_ber /\
  ber_encodes REC (stags REC no_params) rec_value rec_long /\ der REC (stags REC no_params) rec_value rec_der.
Proof. split; [exact wf_rec|]. split; [exact take_rec|]. split; [exact rec_ber_encodes|]. split; [exact rec_long_encodes|exact rec_encoded]. Qed.
Example C86_ex_run : lastly REC [] [] ARead (cload REC no_params rec_ber true) =
    Ok (RNat (ADict [(tx "version", num 0); (tx "flag", ANone); (tx "ids", AList [num 5; num 3]); (tx "who", AList [APrim (NBool true)])])) /\
  lastly REC nil [2%nat] ALen (cload REC no_params (rec_ber ++ [1]) false) = lastly REC nil [2%nat] ALen (cload REC no_params rec_der true).
Proof. split; calc. Qed.

(* C22 *)
Theorem C22_structures (s : spec) (c : pcls) (p : params) (d : bytes) (strict : bool) (v : value) :
  own_class s = Some c -> bytes_ok d -> cload s p d strict = Ok v ->
  exists i t rest, ber_info max_budget i /\ d = encoding_of i ++ rest /\ (strict = true -> rest = []) /\ init_tagging c p = Ok t /\
    (ends_80 (header_of v) = false -> exists x, x_dump (methods s) false v = (v, Ok x) /\ len x <= len (encoding_of i) /\
       (x = encoding_of i <-> exact_ber max_budget (length (t_explicit t)) (encoding_of i))).
Proof. exact (container_load_dump s c p d strict v). Qed.
Print Assumptions C22_structures.

Theorem C22_ber_kept (s : spec) (p : params) (a : aval) (d r : bytes) (strict : bool) (v : value) :
  wf s -> taggable s p -> ber_encodes s (stags s p) a d -> cload s p (d ++ r) strict = Ok v -> settled v = true ->
  x_dump (methods s) false v = (v, Ok d).
Proof. exact (ber_kept s p a d r strict v). Qed.
Print Assumptions C22_ber_kept.

Example C22_ex_structures : exists v, cload REC no_params (rec_long ++ [9]) false = Ok v /\ settled v = true /\ snd (x_dump (methods REC) false v) = Ok rec_long.
Proof. eexists. split; [calc|]. split; calc. Qed.

(* the value below an explicitly tagged choice is written anew, the header around it is not *)
Theorem C22_choice_refuted : exists s d v x, cload s no_params d true = Ok v /\ snd (x_dump (methods s) false v) = Ok x /\ x <> d /\
  cload s no_params x true = Err ValueError.
Proof.
  exists TCH, ([160; 130; 0; 132; 4; 130; 0; 128] ++ repeat 7 128). eexists. eexists. split; [calc|]. split; [calc|]. split; [vm_compute; discriminate|calc].
Qed.
Print Assumptions C22_choice_refuted.

(* C29 *)
Theorem C29_any_encoding (s : spec) (p : params) (d : bytes) (strict : bool) (v : value) :
  flat_defaults s = true -> cload s p d strict = Ok v -> settled v = true ->
  exists x, forall h, forallb (fun x => quiet s (fst x) (snd x)) h = true -> snd (x_dump (methods s) false (after s h v)) = Ok x.
Proof. exact (reading_keeps_dump s p d strict v). Qed.
Print Assumptions C29_any_encoding.

Theorem C29_ber_kept (s : spec) (p : params) (a : aval) (d r : bytes) (strict : bool) (v : value) :
  wf s -> taggable s p -> flat_defaults s = true -> ber_encodes s (stags s p) a d -> cload s p (d ++ r) strict = Ok v -> settled v = true ->
  forall h, forallb (fun x => quiet s (fst x) (snd x)) h = true -> snd (x_dump (methods s) false (after s h v)) = Ok d.
Proof. exact (ber_dump_kept s p a d r strict v). Qed.
Print Assumptions C29_ber_kept.

Definition rec_reads : list deed :=
  [([], ARead); ([3%nat; 0%nat], ADump true); ([2%nat; 1%nat], ADump false); ([], ALen); ([], AGet 7%nat); ([2%nat; 9%nat], ARead)].
Example C29_ex_ber : flat_defaults REC = true /\ forallb (fun x => quiet REC (fst x) (snd x)) rec_reads = true /\
  lastly REC rec_reads [] (ADump false) (cload REC no_params rec_long true) = Ok (RDump rec_long).
Proof. repeat split; calc. Qed.
(* the reads may fail *)
Example C29_ex_failing : let d := [48; 129; 6; 2; 1; 5; 10; 1; 7] in
  lastly TWO [] [] ARead (cload TWO no_params d true) = Err KeyError /\
  lastly TWO [([], ARead); ([1%nat], ARead)] [] (ADump false) (cload TWO no_params d true) = Ok (RDump d).
Proof. split; calc. Qed.

(* an absent field whose default is a sequence counts as a change once the object was looked into *)
Theorem C29_structured_default_refuted : exists s d x, cload s no_params d true <> Err ValueError /\
  lastly s [] [] (ADump false) (cload s no_params d true) = Ok (RDump d) /\ lastly s [([], ALen)] [] (ADump false) (cload s no_params d true) = Ok (RDump x) /\
  lastly s [([], AGet 1%nat)] [] (ADump false) (cload s no_params d true) = Ok (RDump x) /\ x <> d.
Proof. exists DEF, [48; 129; 4; 128; 2; 0; 7], [48; 4; 128; 2; 0; 7]. split; [vm_compute; discriminate|]. split; [calc|]. split; [calc|]. split; [calc|discriminate]. Qed.
Print Assumptions C29_structured_default_refuted.

(* dump(force=True) of what a choice holds leaves the header around it outdated *)
Theorem C29_choice_refuted : exists s d x, lastly s [] [] (ADump false) (cload s no_params d true) = Ok (RDump d) /\
  lastly s [([0%nat], ADump true)] [] (ADump false) (cload s no_params d true) = Ok (RDump x) /\ x <> d /\ cload s no_params x true = Err ValueError.
Proof. exists TCH, [160; 4; 2; 129; 1; 5], [160; 4; 2; 1; 5]. split; [calc|]. split; [calc|]. split; [discriminate|calc]. Qed.
Print Assumptions C29_choice_refuted.

(* C23 *)
Theorem C23_structures (s : spec) (p : params) (a : aval) (d e : bytes) :
  wf s -> taggable s p -> ber_encodes s (stags s p) a d -> der s (stags s p) a e ->
  exists v, cload s p d true = Ok v /\ forall h, forallb (fun x => reading (snd x)) h = true ->
    snd (x_dump (methods s) true (after s h v)) = Ok e /\
    exists x, snd (x_native (methods s) (after s h v)) = Ok x /\ exists a', sim s a a' /\ shows s a' x.
Proof. exact (ber_normal s p a d e). Qed.
Print Assumptions C23_structures.

(* with an indefinite length outside, dump() does the same *)
Theorem C23_indefinite (s : spec) (c : pcls) (p : params) (a : aval) (d e : bytes) (v : value) :
  wf s -> taggable s p -> own_class s = Some c -> ber_encodes s (stags s p) a d -> der s (stags s p) a e ->
  cload s p d true = Ok v -> ends_80 (header_of v) = true -> snd (x_dump (methods s) false v) = Ok e.
Proof. exact (ber_dump_anew s c p a d e v). Qed.
Print Assumptions C23_indefinite.

Example C23_ex_structures : lastly REC rec_reads [] (ADump true) (cload REC no_params rec_long true) = Ok (RDump rec_der) /\
  lastly REC [] [] (ADump false) (cload REC no_params rec_ber true) = Ok (RDump rec_der).
Proof. split; calc. Qed.

(* C47 *)
(* two BER encodings of one value, whatever forms of length they use, load as that value *)
Theorem C47_structures_partial (s : spec) (p : params) (a : aval) (d e : bytes) :
  wf s -> taggable s p -> ber_encodes s (stags s p) a d -> ber_encodes s (stags s p) a e ->
  exists v w a' b', cload s p d true = Ok v /\ cload s p e true = Ok w /\ sim s a a' /\ sim s a b' /\
    follows_from Lost s (stags s p) a' v /\ follows_from Lost s (stags s p) b' w.
Proof.
  intros W T D E. destruct (ber_load s p a d [] true W T D (fun _ => eq_refl)) as (v & a' & Ev & Sa & Fv).
  destruct (ber_load s p a e [] true W T E (fun _ => eq_refl)) as (w & b' & Ew & Sb & Fw). rewrite app_nil_r in Ev, Ew. exists v, w, a', b'. auto 10.
Qed.
Print Assumptions C47_structures_partial.

(* C59 *)
Theorem C59_ber_reads_agree_partial (s : spec) (p : params) (a : aval) (d : bytes) :
  wf s -> taggable s p -> ber_encodes s (stags s p) a d ->
  exists v a', cload s p d true = Ok v /\ sim s a a' /\ forall h, forallb (fun x => reading (snd x)) h = true ->
    exists x, snd (x_native (methods s) (after s h v)) = Ok x /\ shows s a' x.
Proof. exact (ber_reads_agree s p a d). Qed.
Print Assumptions C59_ber_reads_agree_partial.

Example C59_ex_ber : lastly REC rec_reads [] ARead (cload REC no_params rec_ber true) = lastly REC [] [] ARead (cload REC no_params rec_ber true).
Proof. calc. Qed.
