(* C87: octet and bit strings that hold the encoding of a value. *)
Require Import Verif.Base Verif.ParserModel Verif.ParserSpec Verif.Text Verif.TagSpec Verif.PrimModel Verif.PrimSpec Verif.PrimLoad Verif.PrimHist Verif.ChunkSpec Verif.ChunkProofs
  Verif.ContModel Verif.ContSpec Verif.ContBase Verif.ContPath Verif.ContHistSpec Verif.ContFinal Verif.ContEx
  Verif.BerSpec Verif.BerFinal Verif.BerEx Verif.ParsModel Verif.ParsSpec Verif.ParsProofs Verif.ParsFinal.

Ltac calc := vm_compute; reflexivity.

(* the octets of a loaded string *)
Theorem C87_octets (bits : bool) (c : pcls) (p : params) (t : tagging) (b d : bytes) (strict : bool) :
  init_tagging c p = Ok t -> tags_compatible c p -> k_explicit c = [] -> string_of bits c t b d ->
  exists x, p_load bits c p d strict = Ok x /\ q_parsed x = None /\ snd (p_bytes bits c x) = Ok b.
Proof. intros T C X S. destruct (p_load_string bits c p t b d strict T C X S) as (x & E & N & B & _). eauto. Qed.
Print Assumptions C87_octets.

(* looking at the string in any way changes neither its octets nor what parsing them gives nor what dump() gives *)
Theorem C87_looking (cls : nat -> spec) (guess : option params -> bytes -> res (nat * value)) (bits : bool) (c : pcls)
  (x : pobj) (b : bytes) (h : list pdeed) :
  q_parsed x = None -> snd (p_bytes bits c x) = Ok b -> forallb (looks (e_indef (o_enc (q_obj x)))) h = true ->
  let y := pafter cls guess bits c h x in
  snd (p_bytes bits c y) = Ok b /\
  (forall s p, match snd (p_parse cls guess bits c s p y) with
               | Ok (n, v) => exists l v0, forallb (fun d => reading (snd d)) l = true /\ parse_with cls guess s p b = Ok (n, v0) /\ v = after (cls n) l v0
               | Err e => parse_with cls guess s p b = Err e
               end) /\
  (e_indef (o_enc (q_obj x)) = false -> snd (p_dump cls bits c false y) = snd (p_dump cls bits c false x)).
Proof. exact (looking cls guess bits c x b h). Qed.
Print Assumptions C87_looking.

(* set() after anything: the octets and dump() are those of the new string; and if the
   string had not been parsed, so are native and dump(force=True) *)
Theorem C87_set_partial (cls : nat -> spec) (guess : option params -> bytes -> res (nat * value)) (bits : bool) (c : pcls)
  (p : params) (t : tagging) (x : pobj) (h : list pdeed) (b : bytes) :
  init_tagging c p = Ok t -> tags_compatible c p -> tagging_ok t -> begins cls bits c p x ->
  let y := pafter cls guess bits c (h ++ [PSet (NBytes b)]) x in
  let der_string r := exists d, r = Ok d /\ (len d < 2 ^ 1008 -> der_object t (whole bits b) d) in
  snd (p_bytes bits c y) = Ok b /\ der_string (snd (p_dump cls bits c false y)) /\
  (q_parsed x = None -> forallb unparsing h = true ->
     q_parsed y = None /\ snd (p_native cls bits c y) = Ok (APrim (NBytes b)) /\ der_string (snd (p_dump cls bits c true y))).
Proof. exact (set_any cls guess bits c p t x h b). Qed.
Print Assumptions C87_set_partial.

(* the value in the string: read as encoded, and written as DER by dump(force=True) (and by
   dump() of a string in segments); what follows it in the string is then gone *)
Theorem C87_forced (cls : nat -> spec) (guess : option params -> bytes -> res (nat * value)) (bits : bool) (c : pcls)
  (p0 : params) (t : tagging) (x : pobj) (n : nat) (p : option params) (a : aval) (d r e : bytes) (h : list pdeed) :
  init_tagging c p0 = Ok t -> tags_compatible c p0 -> tagging_ok t -> begins cls bits c p0 x ->
  q_parsed x = None -> snd (p_bytes bits c x) = Ok (d ++ r) -> forallb (looks (e_indef (o_enc (q_obj x)))) h = true ->
  wf (cls n) -> taggable (cls n) (given_params p) -> ber_encodes (cls n) (stags (cls n) (given_params p)) a d ->
  der (cls n) (stags (cls n) (given_params p)) a e ->
  exists y v a', p_parse cls guess bits c (Some n) p (pafter cls guess bits c h x) = (y, Ok (n, v)) /\ sim (cls n) a a' /\
    (exists w, snd (p_native cls bits c y) = Ok w /\ shows (cls n) a' w) /\
    forall force, e_indef (o_enc (q_obj x)) || force = true ->
      (exists D, snd (p_dump cls bits c force y) = Ok D /\ (len D < 2 ^ 1008 -> der_object t (whole bits e) D)) /\
      snd (p_bytes bits c (fst (p_dump cls bits c force y))) = Ok e /\
      exists w, snd (p_native cls bits c (fst (p_dump cls bits c force y))) = Ok w /\ shows (cls n) a' w.
Proof. exact (forced cls guess bits c p0 t x n p a d r e h). Qed.
Print Assumptions C87_forced.

(* built from an object *)
Theorem C87_from_object (cls : nat -> spec) (bits : bool) (c : pcls) (p : params) (t : tagging) (n : nat) (q : params) (i a : aval) (d : bytes) (v : value) :
  init_tagging c p = Ok t -> tagging_ok t ->
  wf (cls n) -> taggable (cls n) q -> denotes (cls n) i a -> der (cls n) (stags (cls n) q) a d -> x_make (methods (cls n)) q None i = Ok v ->
  exists x a', p_make_parsed cls bits c p n v = Ok x /\ snd (p_bytes bits c x) = Ok d /\ sim (cls n) a a' /\
    (exists w, snd (p_native cls bits c x) = Ok w /\ shows (cls n) a' w) /\
    forall force, exists D, snd (p_dump cls bits c force x) = Ok D /\ (len D < 2 ^ 1008 -> der_object t (whole bits d) D).
Proof. exact (from_object cls bits c p t n q i a d v). Qed.
Print Assumptions C87_from_object.

(* copies *)
Theorem C87_copy (cls : nat -> spec) (guess : option params -> bytes -> res (nat * value)) (bits : bool) (c : pcls)
  (p : params) (t : tagging) (x : pobj) (h : list pdeed) (b : bytes) :
  init_tagging c p = Ok t -> tags_compatible c p -> tagging_ok t -> begins cls bits c p x ->
  let y := pafter cls guess bits c h x in
  let der_string r := exists d, r = Ok d /\ (len d < 2 ^ 1008 -> der_object t (whole bits b) d) in
  contents (q_obj y) <> None -> snd (p_bytes bits c y) = Ok b ->
  match q_parsed y with
  | None => exists z, p_copy cls bits c y = Ok z /\ q_parsed z = None /\ snd (p_bytes bits c z) = Ok b /\
              snd (p_native cls bits c z) = Ok (APrim (NBytes b)) /\ der_string (snd (p_dump cls bits c false z))
  | Some q => forall v, x_copy (methods (cls (q_class q))) (q_value q) = Ok v ->
      exists z, p_copy cls bits c y = Ok z /\ q_parsed z = Some (Parsed (q_class q) v (q_spec q) (q_params q)) /\
        snd (p_bytes bits c z) = Ok b /\ der_string (snd (p_dump cls bits c false z))
  end.
Proof. exact (copied cls guess bits c p t x h b). Qed.
Print Assumptions C87_copy.

(* examples *)
Definition OCT : pcls := Cls 0 4 [] [].
Definition BIT : pcls := Cls 0 3 [] [].
Definition some_cls (n : nat) : spec := match n with O => INTEGER | 1%nat => INTS | _ => REC end.
Definition no_guess (_ : option params) (_ : bytes) : res (nat * value) := Err ValueError.
Definition then_do {A} (x : res pobj) (h : list pdeed) (bits : bool) (c : pcls) (f : pobj -> pobj * res A) : res A :=
  do y <- x; snd (f (pafter some_cls no_guess bits c h y)).

Example C87_ex_octets : string_of false OCT (Tagging 0 4 false []) [2; 1; 5] [4; 3; 2; 1; 5] /\
  string_of true BIT (Tagging 0 3 false []) [2; 1; 5] [35; 128; 3; 2; 0; 2; 3; 3; 0; 1; 5; 0; 0].
Proof.
  split.
  - constructor. exists [4; 3; 2; 1; 5]. split; [|reflexivity]. exists [4], [3]. split; [apply (ident_low 0 0 4); lia|]. split; [constructor; cbn; lia|reflexivity].
  - apply (SO_segments true BIT (Tagging 0 3 false []) 0 [35] [3; 2; 0; 2; 3; 3; 0; 1; 5] [[2]; [1; 5]]); [reflexivity|apply (ident_low 0 1 3); lia|lia| |discriminate].
    apply (seg_prim 0 _ false 0 3 [3] [2] [0; 2] [3; 3; 0; 1; 5] [[0; 1; 5]]); [left; reflexivity|apply (ident_low 0 0 3); lia|constructor; cbn; lia|discriminate|].
    apply (seg_prim 0 _ false 0 3 [3] [3] [0; 1; 5] [] []); [left; reflexivity|apply (ident_low 0 0 3); lia|constructor; cbn; lia|discriminate|constructor].
Qed.

Definition oct_of (b : bytes) : res pobj := p_load false OCT no_params (4 :: len b :: b) true.
Definition oct_segments : res pobj := p_load false OCT no_params [36; 128; 4; 2; 2; 1; 4; 4; 5; 2; 1; 7; 0; 0] true.
Definition bit_of (b : bytes) : res pobj := p_load true BIT no_params (3 :: len b + 1 :: 0 :: b) true.

Example C87_ex_looking :
  let h := [PParse (Some 0%nat) None; PNative; PParse (Some 1%nat) None; PDump false; PParsed; PInner [([], ARead); ([], ADump true)]; PBytes] in
  forallb (looks false) h = true /\
  (exists x, oct_of [2; 1; 5; 2; 1; 7] = Ok x /\ q_parsed x = None /\ e_indef (o_enc (q_obj x)) = false /\ snd (p_bytes false OCT x) = Ok [2; 1; 5; 2; 1; 7]) /\
  then_do (oct_of [2; 1; 5; 2; 1; 7]) h false OCT (p_dump some_cls false OCT false) = Ok [4; 6; 2; 1; 5; 2; 1; 7] /\
  then_do (oct_of [2; 1; 5; 2; 1; 7]) h false OCT (p_native some_cls false OCT) = Ok (num 5) /\
  then_do (oct_of [2; 1; 5; 2; 1; 7]) h false OCT (p_parse some_cls no_guess false OCT (Some 1%nat) None) = Err ValueError.
Proof. split; [calc|]. split; [eexists; split; [calc|]; repeat split; calc|]. repeat split; calc. Qed.

Example C87_ex_set : let h := [PBytes; PDump true; PSet (NBytes [9]); PNative] in
  (exists x, oct_segments = Ok x /\ begins some_cls false OCT no_params x /\ q_parsed x = None /\ forallb unparsing h = true) /\
  then_do oct_segments (h ++ [PSet (NBytes [1; 2])]) false OCT (p_dump some_cls false OCT true) = Ok [4; 2; 1; 2] /\
  then_do (bit_of [5]) (h ++ [PSet (NBytes [1; 2])]) true BIT (p_dump some_cls true BIT false) = Ok [3; 3; 0; 1; 2].
Proof.
  split; [|split; calc]. eexists. split; [calc|]. split; [|split; calc].
  apply BG_load with (d := [36; 128; 4; 2; 2; 1; 4; 4; 5; 2; 1; 7; 0; 0]) (strict := true); [|calc]. repeat (constructor; [unfold byte_ok; lia|]). constructor.
Qed.

Example C87_ex_forced : wf (some_cls 2) /\ taggable (some_cls 2) (given_params None) /\
  ber_encodes (some_cls 2) (stags (some_cls 2) (given_params None)) rec_value rec_long /\ der (some_cls 2) (stags (some_cls 2) (given_params None)) rec_value rec_der /\
  (exists x, bit_of (rec_long ++ [7; 7]) = Ok x /\ q_parsed x = None /\ snd (p_bytes true BIT x) = Ok (rec_long ++ [7; 7])) /\
  then_do (bit_of (rec_long ++ [7; 7])) [PParse (Some 2%nat) None] true BIT (p_dump some_cls true BIT true) = Ok (3 :: 18 :: 0 :: rec_der).
Proof.
  split; [exact wf_rec|]. split; [exact take_rec|]. split; [exact rec_long_encodes|]. split; [exact rec_encoded|].
  split; [eexists; split; [calc|]; split; calc|calc].
Qed.

Example C87_ex_object : wf (some_cls 2) /\ taggable (some_cls 2) no_params /\ denotes (some_cls 2) rec_arg rec_value /\
  der (some_cls 2) (stags (some_cls 2) no_params) rec_value rec_der /\
  (do v <- x_make (methods REC) no_params None rec_arg; then_do (p_make_parsed some_cls false OCT no_params 2 v) [] false OCT (p_dump some_cls false OCT true)) = Ok (4 :: 17 :: rec_der).
Proof. split; [exact wf_rec|]. split; [exact take_rec|]. split; [exact rec_denotes|]. split; [exact rec_encoded|calc]. Qed.

Example C87_ex_copy : (do x <- oct_segments; then_do (p_copy some_cls false OCT (pafter some_cls no_guess false OCT [PParse (Some 0%nat) None; PNative] x)) [] false OCT (p_dump some_cls false OCT false)) = Ok [4; 6; 2; 1; 5; 2; 1; 7].
Proof. calc. Qed.

(* set() of a string that was parsed: native and parse() go on giving the old value, and
   dump(force=True) puts the old octets back *)
Theorem C87_set_after_parse_refuted : exists d h b e,
  h = [PParse (Some 0%nat) None; PSet (NBytes b)] /\
  then_do (p_load false OCT no_params d true) h false OCT (p_bytes false OCT) = Ok b /\
  then_do (p_load false OCT no_params d true) h false OCT (p_dump some_cls false OCT false) = Ok e /\ e <> d /\
  then_do (p_load false OCT no_params d true) h false OCT (p_native some_cls false OCT) = Ok (num 5) /\
  then_do (p_load false OCT no_params e true) [PParse (Some 0%nat) None] false OCT (p_native some_cls false OCT) = Ok (num 7) /\
  then_do (p_load false OCT no_params d true) h false OCT (p_dump some_cls false OCT true) = Ok d.
Proof. exists [4; 3; 2; 1; 5]. eexists. exists [2; 1; 7], [4; 3; 2; 1; 7]. split; [reflexivity|]. split; [calc|]. split; [calc|]. split; [discriminate|]. repeat split; calc. Qed.
Print Assumptions C87_set_after_parse_refuted.

(* parse() changes what dump() writes for a string in segments: octets are lost *)
Theorem C87_parse_changes_dump_refuted : exists d e e' b,
  then_do (p_load false OCT no_params d true) [] false OCT (p_dump some_cls false OCT false) = Ok e /\
  then_do (p_load false OCT no_params d true) [PParse (Some 0%nat) None] false OCT (p_dump some_cls false OCT false) = Ok e' /\
  then_do (p_load false OCT no_params d true) [] false OCT (p_bytes false OCT) = Ok b /\
  then_do (p_load false OCT no_params e true) [] false OCT (p_bytes false OCT) = Ok b /\
  then_do (p_load false OCT no_params e' true) [] false OCT (p_bytes false OCT) <> Ok b.
Proof.
  exists [36; 128; 4; 2; 2; 1; 4; 4; 5; 2; 1; 7; 0; 0], [4; 6; 2; 1; 5; 2; 1; 7], [4; 3; 2; 1; 5], [2; 1; 5; 2; 1; 7].
  split; [calc|]. split; [calc|]. split; [calc|]. split; [calc|]. vm_compute. discriminate.
Qed.
Print Assumptions C87_parse_changes_dump_refuted.

(* a change of the parsed object shows in native, not in dump(), nor in the octets *)
Theorem C87_change_inside_unnoticed_refuted : exists d h e,
  h = [PParse (Some 1%nat) None; PInner [([], AAppend (num 7))]] /\
  then_do (p_load false OCT no_params d true) h false OCT (p_native some_cls false OCT) = Ok (AList [num 5; num 7]) /\
  then_do (p_load false OCT no_params d true) h false OCT (p_dump some_cls false OCT false) = Ok d /\
  then_do (p_load false OCT no_params d true) (h ++ [PDump false]) false OCT (p_bytes false OCT) = Ok [48; 3; 2; 1; 5] /\
  then_do (p_load false OCT no_params d true) h false OCT (p_dump some_cls false OCT true) = Ok e /\ e <> d.
Proof. exists [4; 5; 48; 3; 2; 1; 5]. eexists. exists [4; 8; 48; 6; 2; 1; 5; 2; 1; 7]. split; [reflexivity|]. split; [calc|]. split; [calc|]. split; [calc|]. split; [calc|discriminate]. Qed.
Print Assumptions C87_change_inside_unnoticed_refuted.

(* a bit string without the octet of unused bits, and one without segments, are not refused
   with ValueError *)
Theorem C87_empty_bit_string_refuted :
  then_do (p_load true BIT no_params [3; 0] true) [] true BIT (p_native some_cls true BIT) = Err IndexError /\
  then_do (p_load true BIT no_params [35; 128; 0; 0] true) [] true BIT (p_dump some_cls true BIT false) = Err IndexError /\
  then_do (p_load true BIT no_params [3; 1; 1] true) [] true BIT (p_native some_cls true BIT) = Err ValueError.
Proof. repeat split; calc. Qed.
Print Assumptions C87_empty_bit_string_refuted.
