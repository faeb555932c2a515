(* C90: sequences with a field whose class an object identifier selects. *)
Require Import Verif.Base Verif.BaseFacts Verif.ParserModel Verif.ParserSpec Verif.Text Verif.TagSpec Verif.PrimModel Verif.PrimSpec
  Verif.ContModel Verif.ContSpec Verif.ContBase Verif.ContPath Verif.ContHistSpec Verif.ContFinal Verif.ContEx
  Verif.BerSpec Verif.BerFinal Verif.BerEx Verif.AddrProofs Verif.ContHist Verif.OpenModel Verif.OpenSpec Verif.OpenProofs Verif.OpenEx.

Ltac calc := vm_compute; reflexivity.

(* an object made from a dict, and whatever is done to it without changing the object
   identifier: as the sequence with the class of the entry; copies too *)
Theorem C90_made_partial (any : ops) (c : pcls) (fs : list (fld * spec)) (i j : nat) (m : list (text * text)) (tbl : list (text * spec))
  (o : text) (s : spec) (p : params) (l : list (text * aval)) (a : aval) (d : bytes) :
  open_pair fs i j m -> entry_for tbl o s -> names_oid i o a ->
  let S := closed c fs j s in
  wf S -> taggable S p -> denotes S (ADict l) a -> der S (stags S p) a d ->
  exists x a', open_make any c fs i j tbl p l = Ok x /\ sim S a a' /\ open_follows any fs i j tbl Clean S (stags S p) a' x /\
    open_copies any fs i j tbl c Clean S (stags S p) a' x.
Proof. exact (made_follows any c fs i j m tbl o s p l a d). Qed.
Print Assumptions C90_made_partial.

(* the same for an object loaded from DER *)
Theorem C90_loaded_partial (any : ops) (c : pcls) (fs : list (fld * spec)) (i j : nat) (m : list (text * text)) (tbl : list (text * spec))
  (o : text) (s : spec) (p : params) (a : aval) (d r : bytes) (strict : bool) :
  open_pair fs i j m -> entry_for tbl o s -> names_oid i o a ->
  let S := closed c fs j s in
  wf S -> taggable S p -> der S (stags S p) a d -> (strict = true -> r = []) ->
  exists x a', open_load any c fs j tbl p (d ++ r) strict = Ok x /\ sim S a a' /\ open_follows any fs i j tbl Clean S (stags S p) a' x /\
    open_copies any fs i j tbl c Clean S (stags S p) a' x.
Proof. exact (loaded_follows any c fs i j m tbl o s p a d r strict). Qed.
Print Assumptions C90_loaded_partial.

(* and from BER *)
Theorem C90_ber_partial (any : ops) (c : pcls) (fs : list (fld * spec)) (i j : nat) (m : list (text * text)) (tbl : list (text * spec))
  (o : text) (s : spec) (p : params) (a : aval) (d r : bytes) (strict : bool) :
  open_pair fs i j m -> entry_for tbl o s -> names_oid i o a ->
  let S := closed c fs j s in
  wf S -> taggable S p -> ber_encodes S (stags S p) a d -> (strict = true -> r = []) ->
  exists x a', open_load any c fs j tbl p (d ++ r) strict = Ok x /\ sim S a a' /\ open_follows any fs i j tbl Lost S (stags S p) a' x /\
    open_copies any fs i j tbl c Lost S (stags S p) a' x.
Proof. exact (ber_follows any c fs i j m tbl o s p a d r strict). Qed.
Print Assumptions C90_ber_partial.

(* examples *)
Definition info_do (x : res oobj) (h : list deed) (p : list nat) (y : act) : res answer :=
  do v <- x; snd (open_through some_any info_fields 0 1 info_table p y (open_after some_any info_fields 0 1 info_table h v)).
Definition info_made (l : list (text * aval)) : res oobj := open_make some_any c_seq info_fields 0 1 info_table no_params l.
Definition info_of (d : bytes) : res oobj := open_load some_any c_seq info_fields 1 info_table no_params d true.

Example C90_ex : open_pair info_fields 0 1 kinds /\ entry_for info_table (tx "ints") INTS /\ names_oid 0 (tx "ints") ints_value /\
  closed c_seq info_fields 1 INTS = INFO INTS /\ wf (INFO INTS) /\ taggable (INFO INTS) no_params /\ denotes (INFO INTS) (ADict ints_arg) ints_value /\
  der (INFO INTS) (stags (INFO INTS) no_params) ints_value ints_der /\ ber_encodes (INFO INTS) (stags (INFO INTS) no_params) ints_value ints_der.
Proof.
  split; [exact info_pair|]. split; [exact info_entry|]. split; [now exists ints_arg, (tx "type")|]. split; [reflexivity|]. split; [exact wf_info|].
  split; [exact take_info|]. split; [exact ints_denotes|]. split; [exact ints_encoded|]. apply der_is_ber; [exact wf_info|exact take_info|exact ints_encoded].
Qed.
Example C90_ex_made : info_do (info_made ints_arg) [] [] (ADump false) = Ok (RDump ints_der) /\
  info_do (info_made ints_arg) [([1%nat], AAppend (num 7)); ([1%nat], ADel 0%nat)] [] (ADump false) = Ok (RDump [48; 14; 6; 2; 42; 3; 160; 8; 48; 6; 2; 1; 5; 2; 1; 7]).
Proof. split; calc. Qed.
Example C90_ex_loaded : info_do (info_of ints_der) [([], ADump true); ([1%nat; 0%nat], ARead)] [1%nat] ARead = Ok (RNat (AList [num 3; num 5])) /\
  info_do (info_of ints_der) [([], ASet 1%nat (AList [num 1])); ([], ARead)] [1%nat] (ADump false) = Ok (RDump [160; 5; 48; 3; 2; 1; 1]) /\
  info_do (info_of [48; 7; 6; 2; 42; 4; 2; 1; 9]) [] [] ARead = Err ValueError /\
  info_do (info_of [48; 9; 6; 2; 42; 4; 160; 3; 2; 1; 9]) [] [1%nat] ARead = Ok (RNat (num 9)).
Proof. repeat split; calc. Qed.

(* an object is changed, copied, and the copy changed *)
Definition info_copy (x : res oobj) (h h' : list deed) (p : option params) (q : list nat) (y : act) : res answer :=
  do v <- x;
  let v1 := open_after some_any info_fields 0 1 info_table h v in
  do w <- match p with None => open_copy some_any info_fields 1 info_table v1 | Some p => open_retag some_any c_seq info_fields 1 info_table p v1 end;
  info_do (Ok w) h' q y.
Definition info_edits : list deed := [([1%nat], AAppend (num 7)); ([], ADump true)].
Example C90_ex_copied : trusted (INFO INTS) info_edits Lost = Clean /\
  info_copy (info_of ints_der) info_edits [([1%nat], ADel 0%nat)] (Some (implicit 5)) [] (ADump true) = Ok (RDump [165; 14; 6; 2; 42; 3; 160; 8; 48; 6; 2; 1; 5; 2; 1; 7]) /\
  info_copy (info_of ints_der) info_edits [([1%nat], ADel 0%nat)] None [1%nat] ARead = Ok (RNat (AList [num 5; num 7])).
Proof. repeat split; calc. Qed.

(* an object identifier assigned afterwards does not change the class of the value that is
   there: what is then dumped can not be read *)
Definition info_loaded : oobj := match info_of ints_der with Ok x => x | Err _ => OObj None VVoid end.
Definition info_changed : oobj := fst (open_through some_any info_fields 0 1 info_table [] (ASet 0%nat (APrim (NText (tx "number")))) info_loaded).
Theorem C90_reassigned_refuted : exists x y d,
  info_of ints_der = Ok x /\
  open_through some_any info_fields 0 1 info_table [] (ASet 0%nat (APrim (NText (tx "number")))) x = (y, Ok RNone) /\
  snd (open_through some_any info_fields 0 1 info_table [] (ADump false) y) = Ok (RDump d) /\
  info_do (info_of d) [] [] ARead = Err ValueError.
Proof. exists info_loaded, info_changed, [48; 14; 6; 2; 42; 4; 160; 8; 48; 6; 2; 1; 3; 2; 1; 5]. split; [calc|]. split; [calc|]. split; calc. Qed.
Print Assumptions C90_reassigned_refuted.

(* a key that names no field is refused *)
Theorem C90_unknown_keys (any : ops) (c : pcls) (fs : list (fld * spec)) (i j : nat) (tbl : list (text * spec)) (p : params) (d : list (text * aval)) (k : text) (x : aval) :
  In (k, x) d -> (forall f s, In (f, s) fs -> f_name f <> k) -> forall o, open_make any c fs i j tbl p d <> Ok o.
Proof.
  intros H N o E. unfold open_make in E. apply bind_ok in E as (t & _ & E). apply bind_ok in E as (w & _ & E).
  destruct (known_keys (fields_as any fs j tbl None) d) eqn:K; [|discriminate]. unfold known_keys in K. rewrite forallb_forall in K. specialize (K _ H).
  apply existsb_exists in K as ((f & g) & I & K). apply eqb_text_iff in K. cbn [fst] in K.
  assert (I' : In f (map fst fs)).
  { apply (in_map fst) in I. cbn [fst] in I. unfold fields_as in I. destruct (nth_error fs j) as [fj|] eqn:J; [|now rewrite map_map in I].
    rewrite map_update, map_map in I. cbn [fst] in I. rewrite update_same in I; auto. erewrite map_nth_error by exact J. reflexivity. }
  apply in_map_iff in I' as ((f' & s) & <- & I'). exact (N f' s I' K).
Qed.
Print Assumptions C90_unknown_keys.
Example C90_ex_unknown : info_made ((tx "colour", num 1) :: ints_arg) = Err ValueError.
Proof. calc. Qed.
