(* C24-C30, C47, C48, C56, C59: sequences, lists, sets and choices. *)
Require Import Verif.Base Verif.ParserModel Verif.ParserSpec Verif.Text Verif.TagSpec Verif.PrimModel Verif.PrimSpec
  Verif.ContModel Verif.ContSpec Verif.ContBase Verif.ContPath Verif.ContHistSpec Verif.ContHist2 Verif.ContFinal Verif.ContEx.
Require Import Sorting.Permutation.

Ltac calc := vm_compute; reflexivity.

(* C24 *)
Theorem C24_roundtrip (s : spec) (p : params) (i a : aval) : wf s -> taggable s p -> denotes s i a ->
  exists d, encodes s (stags s p) a d /\ (len d < 2 ^ 1008 -> der s (stags s p) a d /\
    (exists v a', x_make (methods s) p None i = Ok v /\ sim s a a' /\
      (forall f, snd (x_dump (methods s) f v) = Ok d) /\ exists x, snd (x_native (methods s) v) = Ok x /\ shows s a' x) /\
    exists v a', cload s p d true = Ok v /\ sim s a a' /\
      (forall f, snd (x_dump (methods s) f v) = Ok d) /\ exists x, snd (x_native (methods s) v) = Ok x /\ shows s a' x).
Proof. exact (roundtrip s p i a). Qed.
Print Assumptions C24_roundtrip.

Theorem C24_load (s : spec) (p : params) (a : aval) (d r : bytes) (strict : bool) :
  wf s -> taggable s p -> der s (stags s p) a d -> (strict = true -> r = []) ->
  exists v a', cload s p (d ++ r) strict = Ok v /\ sim s a a' /\ der s (stags s p) a' d /\
    (forall f, snd (x_dump (methods s) f v) = Ok d) /\ (exists x, snd (x_native (methods s) v) = Ok x /\ shows s a' x) /\
    follows s (stags s p) a' v.
Proof. exact (load_ok s p a d r strict). Qed.
Print Assumptions C24_load.

Theorem C24_strict (s : spec) (p : params) (a : aval) (d r : bytes) :
  wf s -> der s (stags s p) a d -> r <> [] -> cload s p (d ++ r) true = Err ValueError.
Proof. exact (load_strict s p a d r). Qed.
Print Assumptions C24_strict.

Theorem C24_one_value_per_encoding (s : spec) (p : params) (a b : aval) (d : bytes) :
  wf s -> taggable s p -> der s (stags s p) a d -> der s (stags s p) b d -> sim s a b.
Proof. exact (unambiguous s p a b d). Qed.
Print Assumptions C24_one_value_per_encoding.

Example C24_ex : wf REC /\ taggable REC no_params /\ denotes REC rec_arg rec_value /\ der REC (stags REC no_params) rec_value rec_der.
Proof. split; [exact wf_rec|]. split; [exact take_rec|]. split; [exact rec_denotes|exact rec_encoded]. Qed.
Example C24_ex_run : lastly REC [] [] (ADump false) (x_make (methods REC) no_params None rec_arg) = Ok (RDump rec_der) /\
  lastly REC [] [] ARead (cload REC no_params rec_der true) =
    Ok (RNat (ADict [(tx "version", num 0); (tx "flag", ANone); (tx "ids", AList [num 3; num 5]); (tx "who", AList [APrim (NBool true)])])) /\
  cload REC no_params (rec_der ++ [0]) true = Err ValueError.
Proof. repeat split; calc. Qed.

(* an empty dict is taken for no value at all, although every field is optional *)
Theorem C24_empty_dict_refuted : exists s v, x_make (methods s) no_params None (ADict []) = Ok v /\
  snd (x_dump (methods s) false v) = Err TypeError /\ snd (x_native (methods s) v) = Ok ANone /\
  lastly s [] [] (ADump false) (x_make (methods s) no_params None (ADict [(tx "n", ANone)])) = Ok (RDump [48; 0]).
Proof. exists OPT. eexists. split; [calc|]. repeat split; calc. Qed.
Print Assumptions C24_empty_dict_refuted.

(* C25 *)
Theorem C25_not_encoded (c : pcls) (l : list (fld * spec)) (f : fld * spec) (r : list (fld * spec)) (p : params) (i : aval)
  (la : list (text * aval)) (na : text * aval) (lb : list (text * aval)) (d : bytes) : let s := SSeq c (l ++ f :: r) in
  wf s -> taggable s p -> length la = length l -> denotes s i (ADict (la ++ na :: lb)) -> silent f (snd na) ->
  der (SSeq c (l ++ r)) (stags s p) (ADict (la ++ lb)) d ->
  exists v, x_make (methods s) p None i = Ok v /\ forall b, snd (x_dump (methods s) b v) = Ok d.
Proof. exact (silent_field_dump c l f r p i la na lb d). Qed.
Print Assumptions C25_not_encoded.

Theorem C25_absent_reads_default (c : pcls) (l : list (fld * spec)) (f : fld * spec) (r : list (fld * spec)) (p : params)
  (la : list (text * aval)) (a : aval) (lb : list (text * aval)) (d : bytes) : let s := SSeq c (l ++ f :: r) in
  wf s -> taggable s p -> length la = length l -> silent f a -> der (SSeq c (l ++ r)) (stags s p) (ADict (la ++ lb)) d ->
  exists v lx y, cload s p d true = Ok v /\ snd (x_native (methods s) v) = Ok (ADict lx) /\ nth_error lx (length l) = Some (fname f, y) /\
    match fpres f with Optional => y = ANone | _ => exists a', sim (snd f) a a' /\ shows (snd f) a' y end.
Proof. exact (silent_field_read c l f r p la a lb d). Qed.
Print Assumptions C25_absent_reads_default.

Theorem C25_encoding_lacks_field (c : pcls) (l : list (fld * spec)) (f : fld * spec) (r : list (fld * spec)) (t : tagging)
  (la : list (text * aval)) (na : text * aval) (lb : list (text * aval)) (d : bytes) : let s := SSeq c (l ++ f :: r) in
  wf s -> tagging_ok t -> length la = length l -> der s t (ADict (la ++ na :: lb)) d -> silent f (snd na) ->
  der (SSeq c (l ++ r)) t (ADict (la ++ lb)) d.
Proof. exact (der_without c l f r t la na lb d). Qed.
Print Assumptions C25_encoding_lacks_field.

Example C25_ex : let f := (Fld (tx "version") (explicit 0) (Default (num 0)), INTEGER) in
  REC = SSeq c_seq ([] ++ f :: tl rec_fields) /\ silent f (num 0) /\
  denotes REC rec_arg (ADict ([] ++ (tx "version", num 0) :: [(tx "flag", ANone); (tx "ids", AList [num 5; num 3]); (tx "who", who_arg (AList [APrim (NBool true)]))])) /\
  der (SSeq c_seq ([] ++ tl rec_fields)) (stags REC no_params) (ADict [(tx "flag", ANone); (tx "ids", AList [num 5; num 3]); (tx "who", who_arg (AList [APrim (NBool true)]))]) rec_der.
Proof.
  intros f. assert (Hs : silent f (num 0)) by (cbn; split; auto; split; [discriminate|tauto]).
  split; [reflexivity|]. split; [exact Hs|]. split; [exact rec_denotes|].
  assert (T : tagging_ok (stags REC no_params)) by apply tags_seq.
  exact (der_without c_seq [] f (tl rec_fields) (stags REC no_params) [] (tx "version", num 0) _ rec_der wf_rec T eq_refl rec_encoded Hs).
Qed.

(* a default that is a sequence leaks into values that lack its optional fields *)
Theorem C25_default_leaks_refuted : exists s d d', lastly s [] [] (ADump false) (cload s no_params d true) = Ok (RDump d) /\
  lastly s [] [] ARead (cload s no_params d true) = Ok (RNat (ADict [(tx "cfg", ADict [(tx "a", ANone); (tx "b", num 2)])])) /\
  lastly s [] [] (ADump true) (cload s no_params d true) = Ok (RDump d') /\
  lastly s [] [] ARead (cload s no_params d' true) = Ok (RNat (ADict [(tx "cfg", ADict [(tx "a", num 1); (tx "b", num 2)])])).
Proof. exists HAS, [48; 5; 48; 3; 129; 1; 2], [48; 8; 48; 6; 128; 1; 1; 129; 1; 2]. repeat split; calc. Qed.
Print Assumptions C25_default_leaks_refuted.

(* C26 *)
Theorem C26_constructed_list (c : pcls) (s : spec) (p : params) (li la : list aval) (h : list deed) (lfa : list aval) (d : bytes) :
  wf (SSeqOf c s) -> taggable (SSeqOf c s) p -> denotes (SSeqOf c s) (AList li) (AList la) -> fits (SSeqOf c s) (AList la) ->
  Forall (list_deed s) h -> denotes (SSeqOf c s) (AList (plains h li)) (AList lfa) -> der (SSeqOf c s) (stags (SSeqOf c s) p) (AList lfa) d ->
  exists v, x_make (methods (SSeqOf c s)) p None (AList li) = Ok v /\ like_list c s false (plains h li) lfa d (after (SSeqOf c s) h v).
Proof. exact (fun W => list_history c s false W p li la h lfa d). Qed.
Print Assumptions C26_constructed_list.

Theorem C26_loaded_list (c : pcls) (s : spec) (p : params) (li la : list aval) (d0 : bytes) (h : list deed) (lfa : list aval) (d : bytes) :
  wf (SSeqOf c s) -> taggable (SSeqOf c s) p -> denotes (SSeqOf c s) (AList li) (AList la) -> der (SSeqOf c s) (stags (SSeqOf c s) p) (AList la) d0 ->
  Forall (list_deed s) h -> denotes (SSeqOf c s) (AList (plains h li)) (AList lfa) -> der (SSeqOf c s) (stags (SSeqOf c s) p) (AList lfa) d ->
  exists v, cload (SSeqOf c s) p d0 true = Ok v /\ like_list c s false (plains h li) lfa d (after (SSeqOf c s) h v).
Proof. exact (list_load_history c s p li la d0 h lfa d). Qed.
Print Assumptions C26_loaded_list.

(* the same for SetOf: the elements are kept in the order of the operations *)
Theorem C26_constructed_set (c : pcls) (s : spec) (p : params) (li la : list aval) (h : list deed) (lfa : list aval) (d : bytes) :
  wf (SSetOf c s) -> taggable (SSetOf c s) p -> denotes (SSetOf c s) (AList li) (AList la) -> fits (SSetOf c s) (AList la) ->
  Forall (list_deed s) h -> denotes (SSetOf c s) (AList (plains h li)) (AList lfa) -> der (SSetOf c s) (stags (SSetOf c s) p) (AList lfa) d ->
  exists v, x_make (methods (SSetOf c s)) p None (AList li) = Ok v /\ like_list c s true (plains h li) lfa d (after (SSetOf c s) h v).
Proof. exact (fun W => list_history c s true W p li la h lfa d). Qed.
Print Assumptions C26_constructed_set.

Definition list_ops_ex : list deed :=
  [([], AAppend (num 9)); ([], ADump false); ([], ASet 0%nat (num 4)); ([1%nat], ARead); ([], ADel 7%nat); ([], ADel 1%nat); ([], ASet 2%nat (num 6))].
Example C26_ex : wf INTS /\ denotes INTS (AList [num 1; num 2]) (AList [num 1; num 2]) /\
  der INTS (stags INTS no_params) (AList [num 1; num 2]) [48; 6; 2; 1; 1; 2; 1; 2] /\
  Forall (list_deed INTEGER) list_ops_ex /\ plains list_ops_ex [num 1; num 2] = [num 4; num 9; num 6] /\
  denotes INTS (AList [num 4; num 9; num 6]) (AList [num 4; num 9; num 6]) /\
  der INTS (stags INTS no_params) (AList [num 4; num 9; num 6]) [48; 9; 2; 1; 4; 2; 1; 9; 2; 1; 6].
Proof.
  assert (Hi : forall z, 0 <= z < 128 -> welcome INTEGER (num z)).
  { intros z Hz. destruct (int_accepted z Hz) as (a & G & F & _). exists a. auto. }
  split; [exact wf_ints|]. split; [cbn; repeat split; try discriminate; auto|].
  split; [apply (ints_at [1; 2]); [repeat constructor; lia|reflexivity|short]|].
  split; [repeat constructor; cbn [list_deed]; auto; apply Hi; lia|]. split; [reflexivity|].
  split; [cbn; repeat split; try discriminate; auto|]. apply (ints_at [4; 9; 6]); [repeat constructor; lia|reflexivity|short].
Qed.
Example C26_ex_run : lastly INTS list_ops_ex [] (ADump false) (cload INTS no_params [48; 6; 2; 1; 1; 2; 1; 2] true) = Ok (RDump [48; 9; 2; 1; 4; 2; 1; 9; 2; 1; 6]).
Proof. calc. Qed.

(* C27 *)
Theorem C27_order_independent (c : pcls) (s : spec) (p : params) (li li' : list aval) (a : aval) (d : bytes) :
  wf (SSetOf c s) -> taggable (SSetOf c s) p -> denotes (SSetOf c s) (AList li) a ->
  der (SSetOf c s) (stags (SSetOf c s) p) a d -> Permutation li li' ->
  exists v v', x_make (methods (SSetOf c s)) p None (AList li) = Ok v /\ x_make (methods (SSetOf c s)) p None (AList li') = Ok v' /\
    forall f, snd (x_dump (methods (SSetOf c s)) f v) = Ok d /\ snd (x_dump (methods (SSetOf c s)) f v') = Ok d.
Proof. exact (setof_order c s p li li' a d). Qed.
Print Assumptions C27_order_independent.

Example C27_ex : let s := SSetOf c_set INTEGER in
  lastly s [] [] (ADump false) (x_make (methods s) no_params None (AList [num 5; num 3; num 200; num 3])) = Ok (RDump [49; 13; 2; 1; 3; 2; 1; 3; 2; 1; 5; 2; 2; 0; 200]) /\
  lastly s [] [] (ADump true) (x_make (methods s) no_params None (AList [num 200; num 3; num 3; num 5])) = Ok (RDump [49; 13; 2; 1; 3; 2; 1; 3; 2; 1; 5; 2; 2; 0; 200]).
Proof. split; calc. Qed.

(* C28 *)
Theorem C28_selects_by_tag (ex : list (Z * Z)) (alts : list (fld * spec)) (p : params) (k : nat) (f : fld * spec) (a : aval) (w d : bytes) :
  wf (SChoice ex alts) -> taggable (SChoice ex alts) p -> nth_error alts k = Some f ->
  der (snd f) (ftags f) a w -> der_wrapped (ex ++ p_explicit p) w d ->
  exists v, cload (SChoice ex alts) p d true = Ok v /\ chosen v = Some k /\ forall b, snd (x_dump (methods (SChoice ex alts)) b v) = Ok d.
Proof. exact (choice_loads ex alts p k f a w d). Qed.
Print Assumptions C28_selects_by_tag.

Theorem C28_refuses_other_tags (ex : list (Z * Z)) (alts : list (fld * spec)) (p : params) (data : bytes) (i : info) (e : Z) (strict : bool) :
  wf (SChoice ex alts) -> taggable (SChoice ex alts) p ->
  parse_ data (len data) 0 = Ok (i, e) -> ~ In (i_class i, i_tag i) (outer_ids (SChoice ex alts) p) ->
  cload (SChoice ex alts) p data strict = Err ValueError.
Proof. exact (choice_refuses ex alts p data i e strict). Qed.
Print Assumptions C28_refuses_other_tags.

Theorem C28_constructed (ex : list (Z * Z)) (alts : list (fld * spec)) (p : params) (n : text) (b a : aval) (f : fld * spec) (w d : bytes) :
  wf (SChoice ex alts) -> taggable (SChoice ex alts) p -> In f alts -> fname f = n -> denotes (snd f) b a ->
  der (snd f) (ftags f) a w -> der_wrapped (ex ++ p_explicit p) w d -> (forall q c, b <> AObj q c) ->
  exists v, x_make (methods (SChoice ex alts)) p None (AChoice n b) = Ok v /\ forall force, snd (x_dump (methods (SChoice ex alts)) force v) = Ok d.
Proof. exact (choice_made ex alts p n b a f w d). Qed.
Print Assumptions C28_constructed.

Example C28_ex : wf WHO /\ taggable WHO (explicit 7) /\
  der (SSeqOf c_seq BOOLEAN) (ftags (Fld (tx "bools") (explicit 2) Required, SSeqOf c_seq BOOLEAN)) (AList [APrim (NBool true)]) [162; 5; 48; 3; 1; 1; 255] /\
  cload WHO no_params [2; 1; 5] true = Err ValueError /\ outer_ids WHO no_params = [(2, 1); (2, 2)] /\
  match cload WHO (explicit 7) [167; 7; 162; 5; 48; 3; 1; 1; 255] true with Ok v => chosen v | Err _ => None end = Some 1%nat.
Proof.
  split; [exact wf_who|]. split; [split; [now apply params_ex|]; split; [now left|]; cbn; lia|].
  split; [|repeat split; calc]. exists [[1; 1; 255]]. split.
  - cbn [all2]. split; [|exact I]. apply bool_at; [apply tags_c; [now apply cls_small|apply params_none]|reflexivity|short].
  - apply constructed_at; [apply tags_c; [now apply cls_small|now apply params_ex]|reflexivity|short].
Qed.

(* a choice under two explicit tags: dump without force forgets the inner one *)
Theorem C28_two_explicit_tags_refuted : exists s d, lastly s [] [] (ADump false) (cload s no_params d true) = Ok (RDump d) /\
  lastly s [] [0%nat] (ADump true) (cload s no_params d true) = Ok (RDump [164; 7; 161; 5; 48; 3; 2; 1; 5]) /\
  lastly s [] [0%nat] (ADump false) (cload s no_params d true) = Ok (RDump [164; 7; 48; 3; 2; 1; 5]) /\
  (exists x, parse_ [164; 7; 48; 3; 2; 1; 5] 7 0 = Err x).
Proof. exists FCH1, [48; 9; 164; 7; 161; 5; 48; 3; 2; 1; 5]. repeat split; try calc. eexists. calc. Qed.
Print Assumptions C28_two_explicit_tags_refuted.

(* after a change inside, the explicit tag of a choice keeps its old length *)
Theorem C28_outdated_length_refuted : exists s a d h b d' bad, wf s /\ der s (stags s no_params) a d /\ leads s h a b /\ der s (stags s no_params) b d' /\
  lastly s h [] (ADump false) (cload s no_params d true) = Ok (RDump bad) /\ bad <> d' /\ lastly s h [] (ADump true) (cload s no_params d true) = Ok (RDump d') /\
  exists x, parse_ bad (len bad) 0 = Ok x /\ snd x <> len bad.
Proof.
  exists CH1, (AChoice (tx "l") (AList [num 5])), [161; 5; 48; 3; 2; 1; 5], [([0%nat], AAppend (num 7))], (AChoice (tx "l") (AList [num 5; num 7])),
    [161; 8; 48; 6; 2; 1; 5; 2; 1; 7], [161; 5; 48; 6; 2; 1; 5; 2; 1; 7].
  split; [exact wf_ch1|]. split; [|split; [|split]].
  - exists [48; 3; 2; 1; 5]. split; [apply wrapped_at; [reflexivity|short]|]. left. split; [reflexivity|]. apply (ints_at [5]); [repeat constructor; lia|reflexivity|short].
  - eapply L_step; [|apply L_done]. eapply B_alt with (f := (Fld (tx "l") no_params Required, INTS)); [now left|reflexivity|reflexivity|].
    apply B_here. apply (C_append INTS INTEGER (num 7) [num 5] (num 7)); [exists c_seq; now left|apply int_accepted; lia].
  - exists [48; 6; 2; 1; 5; 2; 1; 7]. split; [apply wrapped_at; [reflexivity|short]|]. left. split; [reflexivity|]. apply (ints_at [5; 7]); [repeat constructor; lia|reflexivity|short].
  - split; [calc|]. split; [discriminate|]. split; [calc|]. eexists. split; [calc|]. vm_compute. discriminate.
Qed.
Print Assumptions C28_outdated_length_refuted.

(* C29 *)
Theorem C29_containers (s : spec) (p : params) (a : aval) (d r : bytes) (strict : bool) :
  wf s -> taggable s p -> der s (stags s p) a d -> (strict = true -> r = []) ->
  exists v a', cload s p (d ++ r) strict = Ok v /\ sim s a a' /\
    forall h, forallb (fun x => reading (snd x)) h = true ->
      (forall f, snd (x_dump (methods s) f (after s h v)) = Ok d) /\
      (exists x, snd (x_native (methods s) (after s h v)) = Ok x /\ shows s a' x).
Proof. exact (reading_harmless s p a d r strict). Qed.
Print Assumptions C29_containers.

Example C29_ex_containers : let h := [([], AGet 2%nat); ([2%nat; 0%nat], ARead); ([], ALen); ([3%nat], AContents); ([3%nat; 0%nat], ADump false); ([], ARead)] in
  forallb (fun x => reading (snd x)) h = true /\ lastly REC h [] (ADump false) (cload REC no_params rec_der true) = Ok (RDump rec_der).
Proof. split; calc. Qed.

(* C59 *)
Theorem C59_reads_agree_partial (s : spec) (p : params) (a : aval) (d : bytes) :
  wf s -> taggable s p -> der s (stags s p) a d ->
  exists v a', cload s p d true = Ok v /\ sim s a a' /\ forall h, forallb (fun x => reading (snd x)) h = true ->
    exists x, snd (x_native (methods s) (after s h v)) = Ok x /\ shows s a' x.
Proof. exact (reads_agree s p a d). Qed.
Print Assumptions C59_reads_agree_partial.

Example C59_ex : lastly REC [([], ARead)] [] ARead (cload REC no_params rec_der true) = lastly REC [] [] ARead (cload REC no_params rec_der true).
Proof. calc. Qed.

(* after an error, native returns what had been collected up to then *)
Theorem C59_truncated_after_error_refuted : exists s d v, cload s no_params d true = Ok v /\
  snd (through [] ARead s v) = Err KeyError /\ snd (through [] ARead s (after s [([], ARead)] v)) = Ok (RNat (ADict [(tx "n", num 5)])).
Proof. exists TWO, [48; 6; 2; 1; 5; 10; 1; 7]. eexists. split; [calc|]. split; calc. Qed.
Print Assumptions C59_truncated_after_error_refuted.

(* C30 *)
Theorem C30_any_history (s : spec) (p : params) (i a : aval) (d : bytes) (v : value) (h : list deed) :
  wf s -> taggable s p -> denotes s i a -> der s (stags s p) a d -> either_way s p i d v ->
  exists a', sim s a a' /\ (safe s h a' -> exists b e, leads s h a' b /\
    snd (through [] (ADump true) s (after s h v)) = Ok (RDump e) /\ (len e < 2 ^ 1008 -> der s (stags s p) b e)).
Proof. exact (forced_dump_after s p i a d v h). Qed.
Print Assumptions C30_any_history.

(* dump() without force, as long as nothing made the object forget a change *)
Theorem C30_any_part_partial (s : spec) (p : params) (i a : aval) (d : bytes) (v : value) :
  wf s -> taggable s p -> denotes s i a -> der s (stags s p) a d -> either_way s p i d v ->
  exists a', sim s a a' /\ follows s (stags s p) a' v.
Proof. exact (fresh_follows s p i a d v). Qed.
Print Assumptions C30_any_part_partial.

Definition nested_ops : list deed := [([3%nat; 0%nat], AAppend (APrim (NBool false))); ([], ASet 0%nat (num 2)); ([2%nat], ADel 0%nat); ([2%nat], ADump false); ([1%nat], ARead)].
Example C30_ex : lastly REC nested_ops [] (ADump true) (cload REC no_params rec_der true) =
  Ok (RDump [48; 20; 160; 3; 2; 1; 2; 49; 3; 2; 1; 5; 162; 8; 48; 6; 1; 1; 255; 1; 1; 0]).
Proof. calc. Qed.
Example C30_ex_safe : safe BOX [([0%nat], AAppend (num 7))] (ADict [(tx "a", AList [num 5])]) /\ trusted BOX [([0%nat], AAppend (num 7)); ([], ARead); ([0%nat], ADump false)] Clean = Clean.
Proof.
  split; [|reflexivity]. split; [|intros; exact I]. exists (ADict [(tx "a", AList [num 5; num 7])]).
  apply (B_field c_seq _ (Fld (tx "a") no_params Required, INTS) [] (AAppend (num 7)) [] (tx "a") (AList [num 5]) (AList [num 5; num 7]) []); [reflexivity|reflexivity|].
  apply B_here. apply (C_append INTS INTEGER (num 7) [num 5] (num 7)); [exists c_seq; now left|apply int_accepted; lia].
Qed.

(* dumping the part that was changed hides the change from the whole *)
Theorem C30_dump_of_part_hides_change_refuted : exists s a d h b d', wf s /\ der s (stags s no_params) a d /\ leads s h a b /\ der s (stags s no_params) b d' /\
  lastly s h [] (ADump false) (cload s no_params d true) = Ok (RDump d) /\ d <> d'.
Proof.
  exists BOX, (ADict [(tx "a", AList [num 5])]), [48; 5; 48; 3; 2; 1; 5], [([0%nat], AAppend (num 7)); ([0%nat], ADump false)], (ADict [(tx "a", AList [num 5; num 7])]),
    [48; 8; 48; 6; 2; 1; 5; 2; 1; 7].
  split; [exact wf_box|]. split; [|split; [|split]].
  - apply one_field_at with [48; 3; 2; 1; 5]; [discriminate| |reflexivity|short]. apply (ints_at [5]); [repeat constructor; lia|reflexivity|short].
  - eapply L_step; [|eapply L_step; [apply B_read; reflexivity|apply L_done]].
    apply (B_field c_seq _ (Fld (tx "a") no_params Required, INTS) [] (AAppend (num 7)) [] (tx "a") (AList [num 5]) (AList [num 5; num 7]) []); [reflexivity|reflexivity|].
    apply B_here. apply (C_append INTS INTEGER (num 7) [num 5] (num 7)); [exists c_seq; now left|apply int_accepted; lia].
  - apply one_field_at with [48; 6; 2; 1; 5; 2; 1; 7]; [discriminate| |reflexivity|short]. apply (ints_at [5; 7]); [repeat constructor; lia|reflexivity|short].
  - split; [calc|discriminate].
Qed.
Print Assumptions C30_dump_of_part_hides_change_refuted.

(* set() of a primitive inside goes unnoticed, both by dump and by native *)
Theorem C30_set_of_primitive_unnoticed_refuted : exists s a d h b d', wf s /\ der s (stags s no_params) a d /\ leads s h a b /\ der s (stags s no_params) b d' /\
  lastly s h [] (ADump false) (cload s no_params d true) = Ok (RDump d) /\ d <> d' /\
  lastly s (([], ARead) :: h) [] ARead (cload s no_params d true) = lastly s [] [] ARead (cload s no_params d true).
Proof.
  exists ONE, (ADict [(tx "n", num 5)]), [48; 3; 2; 1; 5], [([0%nat], AStore (NInt 9))], (ADict [(tx "n", num 9)]), [48; 3; 2; 1; 9].
  split; [exact wf_one|]. split; [|split; [|split]].
  - apply one_field_at with [2; 1; 5]; [discriminate| |reflexivity|short]. apply int_at; [apply tags_int|lia|reflexivity|short].
  - eapply L_step; [|apply L_done].
    apply (B_field c_seq _ (Fld (tx "n") no_params Required, INTEGER) [] (AStore (NInt 9)) [] (tx "n") (num 5) (num 9) []); [reflexivity|reflexivity|].
    apply B_here. apply C_store. cbn. tauto.
  - apply one_field_at with [2; 1; 9]; [discriminate| |reflexivity|short]. apply int_at; [apply tags_int|lia|reflexivity|short].
  - split; [calc|]. split; [discriminate|calc].
Qed.
Print Assumptions C30_set_of_primitive_unnoticed_refuted.

(* a change below a choice goes unnoticed *)
Theorem C30_change_below_choice_unnoticed_refuted : exists s d h v, wf s /\ cload s no_params d true = Ok v /\
  snd (through [] (ADump false) s (after s h v)) = Ok (RDump d) /\
  snd (through [] (ADump true) s (after s h v)) = Ok (RDump [48; 18; 49; 6; 2; 1; 3; 2; 1; 5; 162; 8; 48; 6; 1; 1; 255; 1; 1; 0]) /\ len d = 17.
Proof.
  exists REC, rec_der, [([3%nat; 0%nat], AAppend (APrim (NBool false)))]. eexists. split; [exact wf_rec|]. split; [calc|]. repeat split; calc.
Qed.
Print Assumptions C30_change_below_choice_unnoticed_refuted.

(* C23: elements the schema does not know are lost in a forced dump *)
Theorem C23_unknown_elements_lost_refuted : exists s d, lastly s [] [] ALen (cload s no_params d true) = Ok (RLen 2) /\
  lastly s [] [] (ADump false) (cload s no_params d true) = Ok (RDump d) /\
  lastly s [] [] (ADump true) (cload s no_params d true) = Ok (RDump [48; 3; 2; 1; 5]) /\ d <> [48; 3; 2; 1; 5].
Proof. exists ONE, [48; 6; 2; 1; 5; 1; 1; 255]. repeat split; try calc. discriminate. Qed.
Print Assumptions C23_unknown_elements_lost_refuted.

(* C47 *)
Theorem C47_choice_refuses_indefinite_refuted : exists s alt d d', s = SChoice [] [(Fld (tx "l") no_params Required, alt)] /\
  (exists v, cload s no_params d true = Ok v) /\ cload s no_params d' true = Err ValueError /\
  (exists x, lastly alt [] [] ARead (cload alt no_params d true) = Ok x /\ lastly alt [] [] ARead (cload alt no_params d' true) = Ok x).
Proof.
  exists CH, INTS, [48; 3; 2; 1; 5], [48; 128; 2; 1; 5; 0; 0]. split; [reflexivity|]. split; [eexists; calc|]. split; [calc|]. eexists. split; calc.
Qed.
Print Assumptions C47_choice_refuses_indefinite_refuted.

(* C48 *)
Theorem C48_absent_member_refuted : exists s a d, (exists v, x_make (methods s) no_params None a = Ok v) /\
  lastly s [] [] (ADump false) (x_make (methods s) no_params None a) = Err TypeError /\
  lastly s [] [] ARead (cload s no_params d true) = Ok (RNat (ADict [(tx "a", num 5); (tx "b", ANone)])).
Proof. exists ST, (ADict [(tx "a", num 5)]), [49; 3; 128; 1; 5]. split; [eexists; calc|]. split; calc. Qed.
Print Assumptions C48_absent_member_refuted.

Theorem C48_forced_dump_of_loaded_set_refuted : exists s d, lastly s [] [] (ADump true) (cload s no_params d true) = Err AttributeError /\
  lastly s [([], ARead)] [] (ADump true) (cload s no_params d true) = Ok (RDump d).
Proof. exists ST, [49; 6; 128; 1; 5; 129; 1; 7]. split; calc. Qed.
Print Assumptions C48_forced_dump_of_loaded_set_refuted.

(* C56 *)
Theorem C56_container_copy_partial (s : spec) (p : params) (i a : aval) (d : bytes) (v : value) :
  wf s -> taggable s p -> denotes s i a -> der s (stags s p) a d -> either_way s p i d v ->
  exists v' a', x_copy (methods s) v = Ok v' /\ sim s a a' /\ follows s (stags s p) a' v'.
Proof. exact (copy_fresh s p i a d v). Qed.
Print Assumptions C56_container_copy_partial.

Theorem C56_container_retag_partial (s : spec) (p p' : params) (i a : aval) (d : bytes) (v : value) :
  wf s -> taggable s p -> taggable s p' -> denotes s i a -> der s (stags s p) a d -> either_way s p i d v ->
  exists v' a', x_retag (methods s) p' v = Ok v' /\ sim s a a' /\ follows s (stags s p') a' v'.
Proof. exact (retag_fresh s p p' i a d v). Qed.
Print Assumptions C56_container_retag_partial.

Example C56_ex_container : either_way REC no_params rec_arg rec_der (match cload REC no_params rec_der true with Ok v => v | Err _ => VVoid end) /\
  match cload REC no_params rec_der true with
  | Ok v => lastly REC [] [] (ADump false) (x_retag (methods REC) (implicit 9) v)
  | Err e => Err e
  end = Ok (RDump (169 :: tl rec_der)).
Proof. split; [right; calc|calc]. Qed.

(* the copy of an object whose native had been read never sees later changes inside *)
Theorem C56_copy_keeps_old_native_refuted : exists s d v w w', cload s no_params d true = Ok v /\
  x_copy (methods s) v = Ok w /\ x_copy (methods s) (after s [([], ARead)] v) = Ok w' /\
  lastly s [([0%nat], AAppend (num 7))] [] ARead (Ok w) = Ok (RNat (ADict [(tx "a", AList [num 5; num 7])])) /\
  lastly s [([0%nat], AAppend (num 7))] [] ARead (Ok w') = Ok (RNat (ADict [(tx "a", AList [num 5])])) /\
  lastly s [([0%nat], AAppend (num 7))] [] (ADump true) (Ok w') = Ok (RDump [48; 8; 48; 6; 2; 1; 5; 2; 1; 7]).
Proof. exists BOX, [48; 5; 48; 3; 2; 1; 5]. do 3 eexists. split; [calc|]. split; [calc|]. split; [calc|]. repeat split; calc. Qed.
Print Assumptions C56_copy_keeps_old_native_refuted.
