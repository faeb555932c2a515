(* C56: copies of structures after any history. *)
Require Import Verif.Base Verif.ParserModel Verif.ParserSpec Verif.Text Verif.TagSpec Verif.PrimModel Verif.PrimSpec
  Verif.ContModel Verif.ContSpec Verif.ContBase Verif.ContPath Verif.ContHistSpec Verif.ContFinal Verif.ContEx
  Verif.BerSpec Verif.BerFinal Verif.BerEx Verif.CopySpec Verif.CopyProofs.

Ltac calc := vm_compute; reflexivity.

(* whatever was done to a constructed or loaded object, a copy of it with the same or with
   other tags stands for its value and behaves accordingly from then on *)
Theorem C56_copy_after_partial (s : spec) (p : params) (i a : aval) (d : bytes) (v : value) :
  wf s -> taggable s p -> denotes s i a -> der s (stags s p) a d -> either_way s p i d v ->
  exists a', sim s a a' /\ copies_from Clean s (stags s p) a' v.
Proof. exact (copies_made s p i a d v). Qed.
Print Assumptions C56_copy_after_partial.

(* the same for an object loaded from BER, once its contents were replaced *)
Theorem C56_ber_copy_after_partial (s : spec) (p : params) (a : aval) (d r : bytes) (strict : bool) :
  wf s -> taggable s p -> ber_encodes s (stags s p) a d -> (strict = true -> r = []) ->
  exists v a', cload s p (d ++ r) strict = Ok v /\ sim s a a' /\ copies_from Lost s (stags s p) a' v.
Proof. exact (copies_ber s p a d r strict). Qed.
Print Assumptions C56_ber_copy_after_partial.

(* examples: an object is changed, copied, and the copy changed *)
Definition copied (s : spec) (h h' : list deed) (p : option params) (q : list nat) (x : act) (v : res value) : res answer :=
  do v <- v;
  do w <- match p with None => x_copy (methods s) (after s h v) | Some p => x_retag (methods s) p (after s h v) end;
  snd (through q x s (after s h' w)).
Definition edits : list deed := [([2%nat], AAppend (num 7)); ([], ADump true)].
Example C56_ex_after : wf REC /\ taggable REC no_params /\ denotes REC rec_arg rec_value /\ der REC (stags REC no_params) rec_value rec_der /\
  ber_encodes REC (stags REC no_params) rec_value rec_long /\ trusted REC edits Clean = Clean /\ trusted REC edits Lost = Clean /\ unread REC edits = true /\
  safe BOX [([0%nat], AAppend (num 7))] (ADict [(tx "a", AList [num 5])]).
Proof.
  split; [exact wf_rec|]. split; [exact take_rec|]. split; [exact rec_denotes|]. split; [exact rec_encoded|]. split; [exact rec_long_encodes|]. split; [calc|]. split; [calc|].
  split; [calc|]. split; [|intros; exact I]. exists (ADict [(tx "a", AList [num 5; num 7])]).
  apply (B_field c_seq _ (Fld (tx "a") no_params Required, INTS) [] (AAppend (num 7)) [] (tx "a") (AList [num 5]) (AList [num 5; num 7]) []); [reflexivity|reflexivity|].
  apply B_here. apply (C_append INTS INTEGER (num 7) [num 5] (num 7)); [exists c_seq; now left|apply int_accepted; lia].
Qed.
Example C56_ex_copied : copied REC edits [] None [] (ADump false) (cload REC no_params rec_der true) =
    Ok (RDump [48; 18; 49; 9; 2; 1; 3; 2; 1; 5; 2; 1; 7; 162; 5; 48; 3; 1; 1; 255]) /\
  copied REC edits [([2%nat], ADel 0%nat)] (Some (explicit 5)) [] (ADump true) (cload REC no_params rec_der true) =
    Ok (RDump [165; 17; 48; 15; 49; 6; 2; 1; 5; 2; 1; 7; 162; 5; 48; 3; 1; 1; 255]) /\
  copied REC edits [([2%nat], ADel 0%nat)] (Some (explicit 5)) [2%nat] ARead (cload REC no_params rec_long true) = Ok (RNat (AList [num 5; num 7])).
Proof. repeat split; calc. Qed.

(* a copy of a structure or list whose native was read shows, at first, what the original shows *)
Definition of_fields_or_items (s : spec) : Prop := match s with SPrim _ _ | SChoice _ _ => False | _ => True end.
Theorem C56_copied_native (s : spec) (v w : value) (r : aval) : of_fields_or_items s -> has_dict v = true ->
  snd (x_native (methods s) v) = Ok r ->
  (x_copy (methods s) v = Ok w \/ exists p, x_retag (methods s) p v = Ok w) -> snd (x_native (methods s) w) = Ok r.
Proof.
  assert (S : forall fs b v x v1 t, contents_seq fs b v = (v1, Ok x) -> has_dict v = true -> snd (native_seq fs b v) = Ok r ->
     snd (native_seq fs b (VSeq t (Enc 1 None x [] false) None false (snap_dict v1))) = Ok r).
  { intros fs b u x v1 t E H N. unfold native_seq in *. rewrite E in N. cbn [contents_seq e_contents]. destruct x as [x|]; [|exact N].
    destruct u as [| | |t0 e ch m [nc|]| |]; try discriminate E.
    - assert (K : exists t1 e1 ch1 m1, v1 = VSeq t1 e1 ch1 m1 (Some nc)).
      { cbn [contents_seq] in E. destruct ch as [l|]; [|injection E as <- _; eauto].
        destruct (mutated (VSeq t0 e (Some l) m (Some nc))); [|injection E as <- _; eauto].
        unfold set_contents_seq in E. cbn [ensure] in E.
        destruct b; [destruct (dump_members false fs l) as [l' [ms|y]]; cbn [bind] in E; [destruct (sort_members ms) as [bs|y]|]|
                     destruct (dump_fields false fs l) as [l' [bs|y]]]; try discriminate E; injection E as <- _; eauto. }
      destruct K as (t1 & e1 & ch1 & m1 & ->). cbn [snd] in N. rewrite <- N. cbn [snap_dict cached_native snd]. do 2 f_equal.
      rewrite !map_map. apply map_ext. intros [k y]. reflexivity.
    - cbn in H. discriminate. }
  assert (L : forall o q v x v1 t, contents_list o q v = (v1, Ok x) -> has_dict v = true -> snd (native_list o q v) = Ok r ->
     snd (native_list o q (VList t (Enc 1 None x [] false) None false (snap_list v1))) = Ok r).
  { intros o q u x v1 t E H N. unfold native_list in *. rewrite E in N. cbn [contents_list e_contents]. destruct x as [x|]; [|exact N].
    destruct u as [| | | |t0 e ch m [nc|]|]; try discriminate E.
    - assert (K : exists t1 e1 ch1 m1, v1 = VList t1 e1 ch1 m1 (Some nc)).
      { cbn [contents_list] in E. destruct ch as [l|]; [|injection E as <- _; eauto].
        destruct (mutated (VList t0 e (Some l) m (Some nc))); [|injection E as <- _; eauto].
        unfold set_contents_list in E. cbn [ensure_list] in E.
        destruct (dump_elts o false l) as [l' [bs|y]]; try discriminate E; injection E as <- _; eauto. }
      destruct K as (t1 & e1 & ch1 & m1 & ->). cbn [snd] in N. rewrite <- N. cbn [snap_list cached_native snd]. do 2 f_equal.
      rewrite !map_map. apply map_ext. reflexivity.
    - cbn in H. discriminate. }
  intros F H N C. destruct s as [k c|c fs|c fs|c s|c s|ex alts]; try contradiction; cbn [methods seq_ops list_ops x_native x_copy x_retag] in *;
    match type of C with _ \/ exists p, (do t <- init_tagging ?c p; @?f t) = _ =>
      assert (G : exists t, f t = Ok w) by (destruct C as [C|(p & C)]; [eexists; exact C|destruct (init_tagging c p); [eexists; exact C|discriminate]]) end;
    destruct G as (t & G); cbv beta in G; clear C.
  1,2: unfold copy_seq in G; match type of G with match ?y with _ => _ end = _ => destruct y as [v1 [x|]] eqn:E end; try discriminate; injection G as <-; eapply S; eauto.
  all: unfold copy_list in G; match type of G with match ?y with _ => _ end = _ => destruct y as [v1 [x|]] eqn:E end; try discriminate; injection G as <-; eapply L; eauto.
Qed.
Print Assumptions C56_copied_native.
Example C56_ex_copied_native : of_fields_or_items REC /\ of_fields_or_items INTS /\
  match cload INTS no_params [48; 6; 2; 1; 5; 2; 1; 7] true with
  | Ok v => let v := after INTS [([], ARead)] v in has_dict v = true /\ snd (x_native (methods INTS) v) = Ok (AList [num 5; num 7]) /\
      copied INTS [([], ARead)] [] None [] ARead (cload INTS no_params [48; 6; 2; 1; 5; 2; 1; 7] true) = Ok (RNat (AList [num 5; num 7]))
  | Err _ => False
  end.
Proof. split; [exact I|]. split; [exact I|]. vm_compute. auto. Qed.
