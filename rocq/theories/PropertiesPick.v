(* C91: pickled objects. *)
Require Import Verif.Base Verif.ParserModel Verif.ParserSpec Verif.Text Verif.TagSpec Verif.PrimModel Verif.PrimSpec
  Verif.ContModel Verif.ContSpec Verif.ContBase Verif.ContPath Verif.ContHistSpec Verif.ContFinal Verif.ContEx
  Verif.BerSpec Verif.BerFinal Verif.BerEx Verif.PickModel Verif.PickProofs.

Ltac calc := vm_compute; reflexivity.

(* an object made or loaded from DER and worked with comes back from a pickle as an object
   for the value it then has, whose encoding is the one pickled *)
Theorem C91_pickled_partial (s : spec) (i a : aval) (d : bytes) (v : value) :
  wf s -> taggable s no_params -> denotes s i a -> der s (stags s no_params) a d -> either_way s no_params i d v ->
  exists a', sim s a a' /\ pickles_from Clean s a' v.
Proof. exact (pickles_made s i a d v). Qed.
Print Assumptions C91_pickled_partial.

(* the same for an object loaded from BER, once its contents were replaced *)
Theorem C91_ber_pickled_partial (s : spec) (a : aval) (d r : bytes) (strict : bool) :
  wf s -> taggable s no_params -> ber_encodes s (stags s no_params) a d -> (strict = true -> r = []) ->
  exists v a', cload s no_params (d ++ r) strict = Ok v /\ sim s a a' /\ pickles_from Lost s a' v.
Proof. exact (pickles_ber s a d r strict). Qed.
Print Assumptions C91_ber_pickled_partial.

(* examples: an object is changed, pickled, and what comes back is changed *)
Definition through_pickle (s : spec) (h h' : list deed) (q : list nat) (x : act) (v : res value) : res answer :=
  do v <- v; do w <- repickled s (after s h v); snd (through q x s (after s h' w)).
Definition pick_edits : list deed := [([2%nat], AAppend (num 7)); ([], ARead); ([], ADump true)].
Example C91_ex : wf REC /\ taggable REC no_params /\ denotes REC rec_arg rec_value /\ der REC (stags REC no_params) rec_value rec_der /\
  ber_encodes REC (stags REC no_params) rec_value rec_long /\ trusted REC pick_edits Clean = Clean /\ trusted REC pick_edits Lost = Clean /\
  safe BOX [([0%nat], AAppend (num 7))] (ADict [(tx "a", AList [num 5])]).
Proof.
  split; [exact wf_rec|]. split; [exact take_rec|]. split; [exact rec_denotes|]. split; [exact rec_encoded|]. split; [exact rec_long_encodes|]. split; [calc|]. split; [calc|].
  split; [|intros; exact I]. exists (ADict [(tx "a", AList [num 5; num 7])]).
  apply (B_field c_seq _ (Fld (tx "a") no_params Required, INTS) [] (AAppend (num 7)) [] (tx "a") (AList [num 5]) (AList [num 5; num 7]) []); [reflexivity|reflexivity|].
  apply B_here. apply (C_append INTS INTEGER (num 7) [num 5] (num 7)); [exists c_seq; now left|apply int_accepted; lia].
Qed.
Example C91_ex_run : through_pickle REC pick_edits [] [] (ADump false) (cload REC no_params rec_long true) =
    Ok (RDump [48; 18; 49; 9; 2; 1; 3; 2; 1; 5; 2; 1; 7; 162; 5; 48; 3; 1; 1; 255]) /\
  through_pickle REC pick_edits [([2%nat], ADel 0%nat)] [2%nat] ARead (x_make (methods REC) no_params None rec_arg) = Ok (RNat (AList [num 5; num 7])).
Proof. split; calc. Qed.

(* the tags an object was given are not kept: the class can not read its own pickle *)
Theorem C91_tagged_refuted : exists s p i v d, wf s /\ taggable s p /\ x_make (methods s) p None i = Ok v /\ snd (reduce s v) = Ok d /\
  cload s p d true <> Err ValueError /\ repickled s v = Err ValueError.
Proof.
  exists INTEGER, (implicit 3), (num 5). eexists. exists [131; 1; 5]. split; [exact wf_int|]. split; [apply take_plain; auto; now apply params_im|].
  split; [calc|]. split; [calc|]. split; [intros H; vm_compute in H; discriminate H|calc].
Qed.
Print Assumptions C91_tagged_refuted.

(* a change that dump() does not see is lost *)
Theorem C91_lost_change_refuted : exists s d h p, wf s /\ lastly s h p ARead (cload s no_params d true) = Ok (RNat (num 7)) /\
  through_pickle s h [] p ARead (cload s no_params d true) = Ok (RNat (num 5)).
Proof. exists BOX, [48; 5; 48; 3; 2; 1; 5], [([0%nat; 0%nat], AStore (NInt 7))], [0%nat; 0%nat]. split; [exact wf_box|]. split; calc. Qed.
Print Assumptions C91_lost_change_refuted.
