(* Pickling. *)
Require Import Verif.Base Verif.BaseFacts Verif.IntModel Verif.IntSpec Verif.IntProofs
  Verif.ParserModel Verif.ParserSpec Verif.ParserProofs Verif.ParserFacts Verif.Text Verif.TagSpec Verif.TagProofs
  Verif.PrimModel Verif.PrimSpec Verif.PrimProofs Verif.PrimSet Verif.PrimDump Verif.PrimLoad Verif.HistSpec Verif.PrimHist
  Verif.PrimRead Verif.PrimSide Verif.ContModel Verif.ContSpec Verif.ContBase Verif.ContRep Verif.ContPrim Verif.ContSeq Verif.ContSeq2
  Verif.ContList Verif.ContChoice Verif.ContPath Verif.ContHistSpec Verif.ContHist Verif.ContHist2 Verif.ContFinal Verif.BerSpec Verif.BerProofs Verif.BerFinal
  Verif.PickModel.

(* an object without tags of its own, after any history whose contents can be relied upon:
   it is pickled as its encoding and comes back as an object for the same value *)
Definition pickles_from (q : trust) (s : spec) (a : aval) (v : value) : Prop :=
  let t := stags s no_params in
  forall h, safe s h a -> trusted s h q <> Lost -> exists b, leads s h a b /\ forall d, der s t b d ->
    snd (reduce s (after s h v)) = Ok d /\
    exists w c, repickled s (after s h v) = Ok w /\ sim s b c /\ follows s t c w /\ forall f, snd (x_dump (methods s) f w) = Ok d.

Theorem pickles_ok q n s a v : wf s -> taggable s no_params -> rep (mode_of q) n s (stags s no_params) a v -> pickles_from q s a v.
Proof.
  intros W T R h Sf Tr. pose proof (tok s no_params W T) as Ht. destruct (history_ok s _ W Ht h a q n v Sf R) as (b & L & Rb). exists b. split; auto. intros d D.
  assert (A : acc (mode_of (trusted s h q)) = true) by (destruct (trusted s h q); auto; congruence).
  assert (E : snd (reduce s (after s h v)) = Ok d).
  { unfold reduce. destruct (K_dump s (contract_all s W) _ _ _ _ _ false Ht Rb) as (v' & d' & E & _ & _ & _ & En). rewrite E. cbn [snd]. f_equal.
    eapply encodes_fun; [exact W|apply En; now left|now apply der_encodes]. }
  split; auto. destruct (load_ok s no_params b d [] false W T D) as (w & c & Ew & S & _ & Du & _ & F); [discriminate|]. rewrite app_nil_r in Ew.
  exists w, c. split; [|auto]. unfold repickled, unpickle. rewrite E. exact Ew.
Qed.
Theorem pickles_made s i a d v : wf s -> taggable s no_params -> denotes s i a -> der s (stags s no_params) a d -> either_way s no_params i d v ->
  exists a', sim s a a' /\ pickles_from Clean s a' v.
Proof.
  intros W T Di D Ev. destruct (either_rep s no_params i a d v W T Di D Ev) as (a1 & S1 & R1 & _). exists a1. split; auto. eapply pickles_ok; eauto.
Qed.
Theorem pickles_ber s a d r strict : wf s -> taggable s no_params -> ber_encodes s (stags s no_params) a d -> (strict = true -> r = []) ->
  exists v a', cload s no_params (d ++ r) strict = Ok v /\ sim s a a' /\ pickles_from Lost s a' v.
Proof.
  intros W T H Hr. destruct (load_rep s no_params a d r strict W T H Hr) as (v & a' & E & S & R). exists v, a'. split; auto. split; auto.
  eapply pickles_ok; eauto.
Qed.
