(* C48: sets with named members. *)
Require Import Verif.Base Verif.BaseFacts Verif.ParserModel Verif.ParserSpec Verif.Text Verif.TagSpec Verif.PrimModel Verif.PrimSpec
  Verif.ContModel Verif.ContSpec Verif.ContBase Verif.ContPath Verif.ContHistSpec Verif.ContFinal Verif.ContEx
  Verif.BerSpec Verif.BerEx Verif.AddrProofs Verif.SetSpec Verif.SetLoad Verif.SetFinal Verif.SetEx.
Require Import Sorting.Permutation Sorting.Sorted.

Ltac calc := vm_compute; reflexivity.

(* an object made from a dict encodes with its members in the order of their tags, now and
   after whatever is done to it that leaves every member with a value *)
Theorem C48_made_partial (c : pcls) (fs : list (fld * spec)) (p : params) (i a : aval) (d : bytes) :
  wf (SSeq c fs) -> plain_members fs -> orderly fs -> apart fs -> taggable (SSeq c fs) p -> denotes (SSeq c fs) i a -> der_set fs (tags_of c p) a d ->
  exists v b, x_make (methods (SSet c fs)) p None i = Ok v /\ sim (SSeq c fs) a b /\ set_follows c fs Clean (tags_of c p) b v /\
    (full a -> forall f, snd (perform (SSet c fs) (ADump f) v) = Ok (RDump d)).
Proof. exact (set_make c fs p i a d). Qed.
Print Assumptions C48_made_partial.
Example C48_made_ex : wf BOXQ /\ plain_members box_fields /\ orderly box_fields /\ apart box_fields /\ taggable BOXQ no_params /\
  denotes BOXQ box_arg box_value /\ der_set box_fields (tags_of c_set no_params) box_value box_der /\ full box_value /\
  lastly BOX [] [] (ADump false) (x_make (methods BOX) no_params None box_arg) = Ok (RDump box_der).
Proof.
  split; [exact wf_box|]. split; [exact box_plain|]. split; [exact box_orderly|]. split; [exact box_apart|]. split; [exact take_box|].
  split; [exact box_given|]. split; [exact box_encoded|]. split; [exact box_full|calc].
Qed.
Definition box_deeds : list deed := [([], ADump false); ([2%nat], AAppend (num 9)); ([], ASet 1%nat (APrim (NBool true))); ([], ARead); ([], ASet 0%nat (num 6))].
Example C48_made_ex_deeds : safe BOXQ [([2%nat], AAppend (num 9))] box_value /\ stays_full BOXQ [([2%nat], AAppend (num 9))] box_value /\
  lastly BOX box_deeds [] (ADump false) (x_make (methods BOX) no_params None box_arg) =
  Ok (RDump [49; 17; 1; 1; 255; 2; 1; 6; 131; 1; 255; 165; 6; 2; 1; 7; 2; 1; 9]).
Proof.
  split; [|split; [|calc]].
  - split; [|intros; exact Logic.I]. eexists. apply (B_field c_set box_fields (Fld (tx "ids") (implicit 5) Required, SSeqOf c_seq INTEGER) [] (AAppend (num 9))
      [(tx "size", num 5); (tx "flag", APrim (NBool false))] (tx "ids") (AList [num 7])); [reflexivity|reflexivity|]. apply B_here. eapply C_append; [eexists; left; reflexivity|].
    apply int_accepted; lia.
  - split; [exact box_full|]. intros b B. split; [|exact Logic.I]. inversion B as [? ? ? ? Rd|? ? ? ? Ch|? ? f ? ? l n a a' r Hf _ Ba|? ? ? ? l ? ? r Lc| ]; subst; try discriminate.
    destruct l as [|x0 [|x1 [|x2 l]]]; try discriminate. cbn in H4. injection H4 as -> -> _ -> ->. cbn in Hf. injection Hf as <-.
    inversion Ba as [? ? ? ? Rd|? ? ? ? Ch|? ? ? ? ? ? ? ? ? ? ? ? ?| | ]; subst; try discriminate. inversion Ch; subst. repeat constructor; discriminate.
Qed.

(* the encoding of a value is unique *)
Theorem C48_encoding_unique (c : pcls) (fs : list (fld * spec)) (t : tagging) (a : aval) (d d' : bytes) :
  wf (SSeq c fs) -> apart fs -> tagging_ok t -> der_set fs t a d -> der_set fs t a d' -> d = d'.
Proof. exact (der_set_unique c fs t a d d'). Qed.
Print Assumptions C48_encoding_unique.

(* an object loaded from DER shows its value, and once it was read follows it; its encoding is
   what it was loaded from unless the number of contents octets is 128 more than a multiple of 256 *)
Theorem C48_loaded_partial (c : pcls) (fs : list (fld * spec)) (p : params) (a : aval) (d r : bytes) (strict : bool) :
  wf (SSeq c fs) -> plain_members fs -> apart fs -> orderly fs -> taggable (SSeq c fs) p -> der_set fs (tags_of c p) a d -> (strict = true -> r = []) ->
  exists v b, cload (SSet c fs) p (d ++ r) strict = Ok v /\ sim (SSeq c fs) a b /\ set_shows c fs true (tags_of c p) b v /\
    set_follows c fs Clean (tags_of c p) b (fst (perform (SSet c fs) ARead v)) /\
    exists x, der_constructed (tags_of c p) x d /\ (len x mod 256 <> 128 -> snd (perform (SSet c fs) (ADump false) v) = Ok (RDump d)).
Proof. intros W PM AP. exact (set_load_der c fs W PM AP p a d r strict). Qed.
Print Assumptions C48_loaded_partial.
Example C48_loaded_ex : wf BOXQ /\ plain_members box_fields /\ apart box_fields /\ orderly box_fields /\ taggable BOXQ no_params /\
  der_set box_fields (tags_of c_set no_params) box_value box_der /\
  lastly BOX [] [] ARead (cload BOX no_params box_der true) = Ok (RNat box_value) /\
  lastly BOX (([], ARead) :: box_deeds) [] (ADump false) (cload BOX no_params box_der true) =
  Ok (RDump [49; 17; 1; 1; 255; 2; 1; 6; 131; 1; 255; 165; 6; 2; 1; 7; 2; 1; 9]).
Proof.
  split; [exact wf_box|]. split; [exact box_plain|]. split; [exact box_apart|]. split; [exact box_orderly|]. split; [exact take_box|].
  split; [exact box_encoded|]. split; calc.
Qed.

(* from BER, with the members in any order; encoding anew then gives DER *)
Theorem C48_loaded_ber_partial (c : pcls) (fs : list (fld * spec)) (p : params) (a : aval) (d r : bytes) (strict : bool) :
  wf (SSeq c fs) -> plain_members fs -> apart fs -> orderly fs -> taggable (SSeq c fs) p -> ber_set fs (tags_of c p) a d -> (strict = true -> r = []) ->
  exists v b, cload (SSet c fs) p (d ++ r) strict = Ok v /\ sim (SSeq c fs) a b /\ set_shows c fs false (tags_of c p) b v /\
    set_follows c fs Lost (tags_of c p) b (fst (perform (SSet c fs) ARead v)).
Proof. intros W PM AP. exact (set_load_ber c fs W PM AP p a d r strict). Qed.
Print Assumptions C48_loaded_ber_partial.
Example C48_loaded_ber_ex : ber_set box_fields (tags_of c_set no_params) box_value box_ber /\
  lastly BOX [] [] ARead (cload BOX no_params box_ber true) = Ok (RNat box_value) /\
  lastly BOX [([], ARead)] [] (ADump true) (cload BOX no_params box_ber true) = Ok (RDump box_der).
Proof. split; [exact box_ber_encoded|]. split; calc. Qed.
Example C48_encoding_unique_ex : wf BOXQ /\ apart box_fields /\ tagging_ok (tags_of c_set no_params) /\ der_set box_fields (tags_of c_set no_params) box_value box_der.
Proof. split; [exact wf_box|]. split; [exact box_apart|]. split; [now apply t_none|exact box_encoded]. Qed.

(* the order is by the number of the tag alone: a context specific [0] is put before a
   universal INTEGER *)
Theorem C48_order_of_classes_refuted : exists c fs i a d e, wf (SSeq c fs) /\ plain_members fs /\ apart fs /\ denotes (SSeq c fs) i a /\ full a /\
  der_set fs (tags_of c no_params) a d /\ lastly (SSet c fs) [] [] (ADump true) (x_make (methods (SSet c fs)) no_params None i) = Ok (RDump e) /\
  ~ der_set fs (tags_of c no_params) a e.
Proof.
  exists c_set, pair_fields, pair_value, pair_value, pair_der, [49; 6; 128; 1; 7; 2; 1; 5].
  split; [exact wf_pair|]. split; [repeat constructor|]. assert (A : apart pair_fields) by apart_now. split; [exact A|]. split; [exact pair_given|].
  split; [repeat constructor; discriminate|]. split; [exact pair_encoded|]. split; [calc|].
  intros D. assert (X := der_set_unique c_set _ _ _ _ _ wf_pair A (t_none 17 ltac:(lia)) pair_encoded D). discriminate X.
Qed.
Print Assumptions C48_order_of_classes_refuted.

(* explicit tags are not looked at: the order is that of the tags inside *)
Theorem C48_order_of_explicit_tags_refuted : exists c fs i a d e, wf (SSeq c fs) /\ plain_members fs /\ apart fs /\ denotes (SSeq c fs) i a /\ full a /\
  der_set fs (tags_of c no_params) a d /\ lastly (SSet c fs) [] [] (ADump true) (x_make (methods (SSet c fs)) no_params None i) = Ok (RDump e) /\
  ~ der_set fs (tags_of c no_params) a e.
Proof.
  exists c_set, outer_fields, outer_value, outer_value, outer_der, [49; 10; 161; 3; 1; 1; 255; 160; 3; 2; 1; 7].
  split; [exact wf_outer|]. split; [repeat constructor|]. assert (A : apart outer_fields) by apart_now. split; [exact A|]. split; [exact outer_given|].
  split; [repeat constructor; discriminate|]. split; [exact outer_encoded|]. split; [calc|].
  intros D. assert (X := der_set_unique c_set _ _ _ _ _ wf_outer A (t_none 17 ltac:(lia)) outer_encoded D). discriminate X.
Qed.
Print Assumptions C48_order_of_explicit_tags_refuted.

(* dump() of a set loaded from DER fails where the last octet of its length is 0x80 *)
Theorem C48_length_ending_in_80_refuted : exists c fs a d, wf (SSeq c fs) /\ plain_members fs /\ apart fs /\ orderly fs /\ full a /\
  der_set fs (tags_of c no_params) a d /\ lastly (SSet c fs) [] [] (ADump false) (cload (SSet c fs) no_params d true) = Err AttributeError.
Proof.
  exists c_set, long_fields, long_value, long_der. split; [exact wf_long|]. split; [repeat constructor|]. split; [apart_now|]. split; [orders|].
  split; [repeat constructor; discriminate|]. split; [exact long_encoded|calc].
Qed.
Print Assumptions C48_length_ending_in_80_refuted.

(* a member assigned to a set that was loaded and not read: dump() fails, although the
   assignment did not *)
Theorem C48_assigned_before_read_refuted : exists c fs a d i x, wf (SSeq c fs) /\ plain_members fs /\ apart fs /\ orderly fs /\ full a /\
  der_set fs (tags_of c no_params) a d /\ lastly (SSet c fs) [] [] (ASet i x) (cload (SSet c fs) no_params d true) = Ok RNone /\
  lastly (SSet c fs) [([], ASet i x)] [] (ADump false) (cload (SSet c fs) no_params d true) = Err AttributeError.
Proof.
  exists c_set, box_fields, box_value, box_der, 0%nat, (num 9). split; [exact wf_box|]. split; [exact box_plain|]. split; [exact box_apart|]. split; [exact box_orderly|].
  split; [exact box_full|]. split; [exact box_encoded|]. split; calc.
Qed.
Print Assumptions C48_assigned_before_read_refuted.

(* a key that names no field is refused when an object is made *)
Lemma stranger_unknown (L : list (fld * ops)) (d : list (text * aval)) (k : text) (x : aval) :
  In (k, x) d -> (forall f o, In (f, o) L -> f_name f <> k) -> known_keys L d = false.
Proof.
  intros H N. destruct (known_keys L d) eqn:E; auto. unfold known_keys in E. rewrite forallb_forall in E. specialize (E _ H).
  apply existsb_exists in E as ((f & o) & I & E). apply eqb_text_iff in E. exfalso. exact (N f o I E).
Qed.
Theorem C24_unknown_keys (c : pcls) (fs : list (fld * spec)) (p : params) (d : list (text * aval)) (k : text) (x : aval) :
  In (k, x) d -> (forall f s, In (f, s) fs -> f_name f <> k) ->
  (forall v, x_make (methods (SSeq c fs)) p None (ADict d) <> Ok v) /\ (forall v, x_make (methods (SSet c fs)) p None (ADict d) <> Ok v).
Proof.
  intros H N. assert (K : known_keys (map (fun f => (fst f, methods (snd f))) fs) d = false).
  { apply stranger_unknown with k x; auto. intros f o I. apply in_map_iff in I as ((f' & s) & E & I). injection E as <- _. now apply (N f' s). }
  split; intros v E; cbn [methods x_make seq_ops] in E; unfold make_seq in E;
    apply bind_ok in E as (t & _ & E); cbn [set_dict] in E; apply bind_ok in E as (w & _ & E); rewrite K in E; discriminate E.
Qed.
Print Assumptions C24_unknown_keys.
Example C24_unknown_keys_ex : x_make (methods BOXQ) no_params None (ADict [(tx "size", num 5); (tx "colour", num 1)]) = Err ValueError /\
  x_make (methods BOX) no_params None (ADict [(tx "size", num 5); (tx "colour", num 1)]) = Err ValueError.
Proof. split; calc. Qed.
