(* C10, C21-C23, C29, C31, C44-C46, C52, C54-C57: primitive value objects. *)
Require Import Verif.Base Verif.IntSpec Verif.ParserModel Verif.ParserSpec Verif.ParserProofs Verif.Text Verif.OidSpec
  Verif.BitModel Verif.BitSpec Verif.CodecModel Verif.Calendar Verif.TimeModel Verif.TagSpec Verif.PrimModel Verif.PrimSpec
  Verif.PrimProofs Verif.PrimDump Verif.PrimLoad Verif.HistSpec Verif.PrimHist Verif.PrimRead Verif.PrimMore Verif.PrimSide Verif.PrimFinal.

Ltac exs := repeat (split; [vm_compute; reflexivity|]); vm_compute; reflexivity.
Ltac ex := repeat match goal with |- exists _, _ => eexists end; exs.

(* some classes of core.py *)
Definition c_bool : pcls := Cls 0 1 [] [].
Definition c_int : pcls := Cls 0 2 [] [].
Definition c_bits : pcls := Cls 0 3 [] [].
Definition c_octets : pcls := Cls 0 4 [] [].
Definition c_null : pcls := Cls 0 5 [] [].
Definition c_oid : pcls := Cls 0 6 [] [].
Definition c_enum : pcls := Cls 0 10 [] [].
Definition c_utf8 : pcls := Cls 0 12 [] [].
Definition c_utc : pcls := Cls 0 23 [] [].
Definition c_gen : pcls := Cls 0 24 [] [].
Definition version : list (Z * text) := [(0, tx "v1"); (1, tx "v2"); (2, tx "v3")].
(* tagging [1] EXPLICIT inside [APPLICATION 40] EXPLICIT *)
Definition twice : params := Params [(2, 1); (1, 40)] None false.

(* C10 *)
Theorem C10_integer_roundtrip (cls : pcls) (p : params) (t : tagging) (z : Z) :
  init_tagging cls p = Ok t -> tagging_ok t -> tags_compatible cls p ->
  exists o o' c d, make (KInt []) cls p (NInt z) = Ok o /\ dump (KInt []) cls o false = (o', Ok d) /\ der_int z c /\
    (len d < 2 ^ 1008 -> der_object t c d /\
      exists o2 v, load (KInt []) cls p d true = Ok o2 /\ contents o2 = Some c /\ o_tagging o2 = t /\
        snd (get_native (KInt []) cls o2) = Ok v /\ NInt z = v /\ snd (dump (KInt []) cls o2 true) = Ok d).
Proof. exact (fun I T C => construct_dump_load (KInt []) cls p t (NInt z) (conj (NoDup_nil _) (NoDup_nil _)) I T C (fun H => H)). Qed.
Print Assumptions C10_integer_roundtrip.

Theorem C10_same_bytes_iff_same_value (cls : pcls) (p : params) (t : tagging) (a b : Z) (oa ob : obj) (da db : bytes) :
  init_tagging cls p = Ok t -> tagging_ok t -> tags_compatible cls p ->
  make (KInt []) cls p (NInt a) = Ok oa -> make (KInt []) cls p (NInt b) = Ok ob ->
  snd (dump (KInt []) cls oa false) = Ok da -> snd (dump (KInt []) cls ob false) = Ok db -> len da < 2 ^ 1008 ->
  (da = db <-> a = b).
Proof. exact (integer_distinct cls p t a b oa ob da db). Qed.
Print Assumptions C10_same_bytes_iff_same_value.

Theorem C10_any_contents (cls : pcls) (p : params) (d : bytes) (s : bool) (o : obj) :
  bytes_ok d -> load (KInt []) cls p d s = Ok o ->
  exists c, contents o = Some c /\ bytes_ok c /\ snd (get_native (KInt []) cls o) = Ok (NInt (twos_value c)).
Proof. exact (integer_any_contents cls p d s o). Qed.
Print Assumptions C10_any_contents.

Example C10_ex : (exists o, make (KInt []) c_int no_params (NInt (-129)) = Ok o /\
    snd (dump (KInt []) c_int o false) = Ok [2; 2; 255; 127]) /\
  (exists o, load (KInt []) c_int twice [127; 40; 6; 161; 4; 2; 2; 0; 5] true = Ok o /\
     snd (get_native (KInt []) c_int o) = Ok (NInt 5) /\ snd (dump (KInt []) c_int o true) = Ok [127; 40; 5; 161; 3; 2; 1; 5]) /\
  init_tagging c_int twice = Ok (Tagging 0 2 false [(2, 1); (1, 40)]) /\ tags_compatible c_int twice.
Proof.
  split; [ex|]. split; [ex|].
  split; [reflexivity|]. right. left. reflexivity.
Qed.

(* C21 *)
Theorem C21_tagging_roundtrip (k : kind) (cls : pcls) (p : params) (t : tagging) (v : native) :
  kind_ok k -> init_tagging cls p = Ok t -> tagging_ok t -> tags_compatible cls p -> holds k None v ->
  exists o o' c d, make k cls p v = Ok o /\ dump k cls o false = (o', Ok d) /\ der_value k None v c /\
    (len d < 2 ^ 1008 -> der_object t c d /\
      exists o2 v', load k cls p d true = Ok o2 /\ contents o2 = Some c /\ o_tagging o2 = t /\
        snd (get_native k cls o2) = Ok v' /\ same_value k v v' /\ snd (dump k cls o2 true) = Ok d).
Proof. exact (construct_dump_load k cls p t v). Qed.
Print Assumptions C21_tagging_roundtrip.

Theorem C21_other_tagging_rejected (k : kind) (cls : pcls) (p : params) (t t2 : tagging) (x d : bytes) (s : bool) :
  init_tagging cls p = Ok t -> tags_compatible cls p -> der_object t2 x d ->
  (t_class t2, t_tag t2, t_explicit t2) <> (t_class t, t_tag t, t_explicit t) -> ~ In (t_tag t2) (k_bad cls) ->
  load k cls p d s = Err ValueError.
Proof. exact (load_other k cls p t t2 x d s). Qed.
Print Assumptions C21_other_tagging_rejected.

Example C21_ex : tagging_ok (Tagging 0 4 false [(2, 1); (1, 40)]) /\ holds KOctets None (NBytes [1; 2]) /\ kind_ok KOctets /\
  (exists o, make KOctets c_octets twice (NBytes [1; 2]) = Ok o /\
     snd (dump KOctets c_octets o false) = Ok [127; 40; 6; 161; 4; 4; 2; 1; 2]) /\
  load KOctets c_octets twice [161; 4; 4; 2; 1; 2] true = Err ValueError /\
  load KOctets c_octets twice [127; 41; 6; 161; 4; 4; 2; 1; 2] true = Err ValueError /\
  (exists o, load KOctets c_octets (Params [] (Some (2, 31)) false) [159; 31; 1; 9] true = Ok o /\ contents o = Some [9]).
Proof.
  split; [repeat split; cbn; try lia; repeat constructor; cbn; lia|]. split; [repeat constructor; unfold byte_ok; lia|].
  split; [exact I|]. split; [ex|]. split; [reflexivity|]. split; [reflexivity|].
  ex.
Qed.

(* C21 without tags_compatible: an implicit tag given for a class that has explicit
   tags of its own is written but cannot be read back *)
Theorem C21_implicit_in_explicit_class_refuted : exists cls p t v o d,
  init_tagging cls p = Ok t /\ tagging_ok t /\ make (KInt []) cls p v = Ok o /\
  snd (dump (KInt []) cls o false) = Ok d /\ load (KInt []) cls p d true = Err ValueError.
Proof.
  exists (Cls 0 2 [(2, 3)] []), (Params [] (Some (2, 7)) false), (Tagging 2 7 true [(2, 3)]), (NInt 5).
  eexists. exists [163; 3; 135; 1; 5]. split; [reflexivity|].
  split; [repeat split; cbn; try lia; repeat constructor; cbn; lia|]. exs.
Qed.
Print Assumptions C21_implicit_in_explicit_class_refuted.

(* with an explicit and an implicit tag, as in [0] EXPLICIT [1] IMPLICIT, the implicit one is
   not used; both together can only be had by an explicit tag of the class *)
Theorem C21_both_tags_refuted : exists ex im d v o,
  make (KInt []) c_int (Params ex (Some im) false) v = Ok o /\
  snd (dump (KInt []) c_int o false) = Ok [160; 3; 2; 1; 5] /\
  load (KInt []) c_int (Params ex (Some im) false) d true = Err ValueError /\
  (exists t e, tagging_ok t /\ t_explicit t = ex /\ (t_class t, t_tag t) = im /\ make (KInt []) (Cls 0 2 ex []) (Params [] (Some im) false) v = Ok e /\
     o_tagging e = t /\ snd (dump (KInt []) (Cls 0 2 ex []) e false) = Ok d).
Proof.
  exists [(2, 0)], (2, 1), [160; 3; 129; 1; 5], (NInt 5). eexists. split; [vm_compute; reflexivity|]. split; [vm_compute; reflexivity|].
  split; [vm_compute; reflexivity|]. exists (Tagging 2 1 true [(2, 0)]). eexists.
  split; [repeat split; cbn; try lia; repeat constructor; cbn; lia|]. exs.
Qed.
Print Assumptions C21_both_tags_refuted.

(* C22 *)
Theorem C22_load_dump_partial (k : kind) (cls : pcls) (p : params) (d : bytes) (s : bool) (o : obj) :
  bytes_ok d -> load k cls p d s = Ok o ->
  exists i t rest, ber_info max_budget i /\ d = encoding_of i ++ rest /\ (s = true -> rest = []) /\
    init_tagging cls p = Ok t /\
    (ends_80 (e_header (o_enc o)) = false -> exists x, dump k cls o false = (o, Ok x) /\ len x <= len (encoding_of i) /\
      (x = encoding_of i <-> exact_ber max_budget (length (t_explicit t)) (encoding_of i))).
Proof. exact (load_dump k cls p d s o). Qed.
Print Assumptions C22_load_dump_partial.

Example C22_ex : exists o, load (KInt []) c_int twice [127; 40; 130; 0; 8; 161; 6; 2; 129; 3; 0; 0; 5] true = Ok o /\
  ends_80 (e_header (o_enc o)) = false /\
  snd (dump (KInt []) c_int o false) = Ok [127; 40; 130; 0; 8; 161; 6; 2; 129; 3; 0; 0; 5].
Proof. ex. Qed.

(* C22 in general: a length whose last octet is 0x80 is taken for an indefinite one *)
Theorem C22_length_80_refuted : exists d o d', load KOctets c_octets no_params d true = Ok o /\
  e_indef (o_enc o) = false /\ snd (dump KOctets c_octets o false) = Ok d' /\ d' <> d.
Proof.
  exists ([4; 130; 0; 128] ++ repeat 7 128). eexists. exists ([4; 129; 128] ++ repeat 7 128).
  split; [vm_compute; reflexivity|]. split; [reflexivity|]. split; [vm_compute; reflexivity|]. discriminate.
Qed.
Print Assumptions C22_length_80_refuted.

(* C23 *)
Theorem C23_forced_dump_partial (k : kind) (cls : pcls) (p : params) (t : tagging) (d : bytes) (s : bool) (o o1 : obj) (v : native) :
  kind_ok k -> k <> KNull -> bytes_ok d ->
  init_tagging cls p = Ok t -> tagging_ok t -> tags_compatible cls p -> load k cls p d s = Ok o ->
  get_native k cls o = (o1, Ok v) -> (complete_kind k = true \/ holds k None v) ->
  exists c d', snd (dump k cls o true) = Ok d' /\ der_value k None v c /\
    (len d' < 2 ^ 1008 -> der_object t c d' /\
      exists o2 v2, load k cls p d' true = Ok o2 /\ snd (get_native k cls o2) = Ok v2 /\ same_value k v v2 /\
        snd (dump k cls o2 true) = Ok d').
Proof. exact (forced_loaded k cls p t d s o o1 v). Qed.
Print Assumptions C23_forced_dump_partial.

Theorem C23_depends_on_value_partial (k : kind) (cls : pcls) (p : params) (t : tagging)
  (d1 : bytes) (s1 : bool) (o1 x1 : obj) (v1 : native) (d2 : bytes) (s2 : bool) (o2 x2 : obj) (v2 : native) (f1 f2 : bytes) :
  kind_ok k -> k <> KNull -> bytes_ok d1 -> bytes_ok d2 ->
  init_tagging cls p = Ok t -> tagging_ok t -> tags_compatible cls p ->
  load k cls p d1 s1 = Ok o1 -> get_native k cls o1 = (x1, Ok v1) -> (complete_kind k = true \/ holds k None v1) ->
  load k cls p d2 s2 = Ok o2 -> get_native k cls o2 = (x2, Ok v2) -> (complete_kind k = true \/ holds k None v2) ->
  same_value k v1 v2 -> snd (dump k cls o1 true) = Ok f1 -> snd (dump k cls o2 true) = Ok f2 ->
  len f1 < 2 ^ 1008 -> len f2 < 2 ^ 1008 -> f1 = f2.
Proof. exact (forced_same k cls p t d1 s1 o1 x1 v1 d2 s2 o2 x2 v2 f1 f2). Qed.
Print Assumptions C23_depends_on_value_partial.

Example C23_ex :
  (exists o, load KOctets c_octets no_params [36; 128; 4; 1; 7; 36; 128; 4; 2; 8; 9; 0; 0; 0; 0] true = Ok o /\
     snd (get_native KOctets c_octets o) = Ok (NBytes [7; 8; 9]) /\ snd (dump KOctets c_octets o true) = Ok [4; 3; 7; 8; 9]) /\
  (exists o, load KUtcTime c_utc no_params (23 :: 15 :: tx "2401010030+0100") true = Ok o /\
     snd (dump KUtcTime c_utc o true) = Ok (23 :: 13 :: tx "231231233000Z")) /\
  complete_kind KOctets = true.
Proof. repeat split; ex. Qed.

(* C23 for the classes left out: the forced dump of a DER encoding is not that encoding *)
Theorem C23_octet_bit_string_refuted : exists bits c d o d', der_bits bits c /\ der_object (Tagging 0 3 false []) c d /\
  load KOctetBits c_bits no_params d true = Ok o /\ snd (dump KOctetBits c_bits o true) = Ok d' /\ d' <> d.
Proof.
  exists [true], [7; 128], [3; 2; 7; 128]. eexists. exists [3; 2; 0; 128].
  split. { exists 7, [128]. repeat split; try lia. repeat constructor; unfold byte_ok; lia. }
  split. { exists [3; 2; 7; 128]. split; [|reflexivity]. exists [3], [2]. split; [apply (ident_low 0 0 3); lia|]. split; [constructor; cbn; lia|reflexivity]. }
  repeat (split; [vm_compute; reflexivity|]). try discriminate; vm_compute; (reflexivity || discriminate).
Qed.
Print Assumptions C23_octet_bit_string_refuted.

Theorem C23_integer_bit_string_refuted : exists bits c d o d', der_bits bits c /\ der_object (Tagging 0 3 false []) c d /\
  load KIntBits c_bits no_params d true = Ok o /\ snd (dump KIntBits c_bits o true) = Ok d' /\ d' <> d.
Proof.
  exists [true; false; false; false; false; false; false; false], [0; 128], [3; 2; 0; 128]. eexists. exists [3; 3; 0; 0; 128].
  split. { exists 0, [128]. repeat split; try lia. repeat constructor; unfold byte_ok; lia. }
  split. { exists [3; 2; 0; 128]. split; [|reflexivity]. exists [3], [2]. split; [apply (ident_low 0 0 3); lia|]. split; [constructor; cbn; lia|reflexivity]. }
  repeat (split; [vm_compute; reflexivity|]). try discriminate; vm_compute; (reflexivity || discriminate).
Qed.
Print Assumptions C23_integer_bit_string_refuted.

(* a bit without a name is lost *)
Theorem C23_unnamed_bit_refuted : exists m bits c d o d', kind_ok (KBits (Some m)) /\ der_bits bits c /\
  der_object (Tagging 0 3 false []) c d /\
  load (KBits (Some m)) c_bits no_params d true = Ok o /\ snd (dump (KBits (Some m)) c_bits o true) = Ok d' /\ d' <> d.
Proof.
  exists [(0, tx "a")], [true; true], [6; 192], [3; 2; 6; 192]. eexists. exists [3; 2; 7; 128].
  split. { repeat constructor; cbn; intuition lia. }
  split. { exists 6, [192]. repeat split; try lia. repeat constructor; unfold byte_ok; lia. }
  split. { exists [3; 2; 6; 192]. split; [|reflexivity]. exists [3], [2]. split; [apply (ident_low 0 0 3); lia|]. split; [constructor; cbn; lia|reflexivity]. }
  repeat (split; [vm_compute; reflexivity|]). try discriminate; vm_compute; (reflexivity || discriminate).
Qed.
Print Assumptions C23_unnamed_bit_refuted.

(* a Null with contents is accepted; its forced dump is not an encoding at all *)
Theorem C23_null_refuted : exists d o d', load KNull c_null no_params d true = Ok o /\
  snd (dump KNull c_null o true) = Ok d' /\ parse d' false = Err ValueError.
Proof. exists [5; 1; 0]. eexists. exists [5; 1]. exs. Qed.
Print Assumptions C23_null_refuted.

(* accepted and read without an error, but the forced dump raises *)
Theorem C23_readable_but_not_dumpable_refuted :
  (exists d o v, load KUtcTime c_utc no_params d true = Ok o /\ snd (get_native KUtcTime c_utc o) = Ok v /\
     snd (dump KUtcTime c_utc o true) = Err ValueError) /\
  (exists d o v, load (KGenTime true) c_gen no_params d true = Ok o /\ snd (get_native (KGenTime true) c_gen o) = Ok v /\
     snd (dump (KGenTime true) c_gen o true) = Err ValueError) /\
  (exists d o v, load (KOid []) c_oid no_params d true = Ok o /\ snd (get_native (KOid []) c_oid o) = Ok v /\
     snd (dump (KOid []) c_oid o true) = Err ValueError).
Proof.
  split; [|split].
  - exists (23 :: 17 :: tx "500101000000+0100"). ex.
  - exists (24 :: 14 :: tx "20200101000000"). ex.
  - exists [6; 1; 128]. ex.
Qed.
Print Assumptions C23_readable_but_not_dumpable_refuted.

(* C29, for primitive values *)
Theorem C29_primitive_reads_partial (k : kind) (cls : pcls) (p : params) (d : bytes) (s : bool) (o : obj) (ops : list op) :
  kind_ok k -> bytes_ok d -> load k cls p d s = Ok o -> ends_80 (e_header (o_enc o)) = false -> Forall is_read ops ->
  Forall (fun xy => match xy with
                    | (ORead, RNative r) => r = snd (get_native k cls o)
                    | (ODump _, RBytes r) => r = snd (dump k cls o false)
                    | _ => False end) (trace k cls o ops).
Proof. exact (loaded_reads k cls p d s o ops). Qed.
Print Assumptions C29_primitive_reads_partial.

Example C29_primitive_ex : exists o, load KOctets c_octets no_params [4; 129; 2; 7; 8] true = Ok o /\
  ends_80 (e_header (o_enc o)) = false /\ Forall is_read [ORead; ODump false; ORead] /\
  map snd (trace KOctets c_octets o [ORead; ODump false; ORead]) =
    [RNative (Ok (NBytes [7; 8])); RBytes (Ok [4; 129; 2; 7; 8]); RNative (Ok (NBytes [7; 8]))].
Proof. eexists. repeat split. repeat constructor. Qed.

(* C31 *)
Theorem C31_equivalence : (forall c a, prim_eq c a c a = true) /\
  (forall c a d b, prim_eq c a d b = prim_eq d b c a) /\
  (forall c1 a1 c2 a2 c3 a3, prim_eq c1 a1 c2 a2 = true -> prim_eq c2 a2 c3 a3 = true -> prim_eq c1 a1 c3 a3 = true).
Proof. exact prim_eq_equiv. Qed.
Print Assumptions C31_equivalence.

Theorem C31_contents (c : pcls) (a : obj) (d : pcls) (b : obj) :
  prim_eq c a d b = true <-> k_tag c = k_tag d /\ contents a = contents b.
Proof. exact (prim_eq_iff c a d b). Qed.
Print Assumptions C31_contents.

(* for objects holding values set by the program *)
Theorem C31_values_partial (k : kind) (cls : pcls) (t t' : tagging) (w : option Z) (v v' : native) (o o' : obj) :
  kind_ok k -> carries k cls t w v o -> carries k cls t' w v' o' ->
  (prim_eq cls o cls o' = true <-> exists c, der_value k w v c /\ der_value k w v' c).
Proof. exact (prim_eq_carries k cls t t' w v v' o o'). Qed.
Print Assumptions C31_values_partial.

Example C31_ex : exists a b, make (KInt []) c_int no_params (NInt 300) = Ok a /\ make (KInt []) c_int twice (NInt 300) = Ok b /\
  prim_eq c_int a c_int b = true.
Proof. ex. Qed.

Example C31_values_ex : exists o, make (KInt []) c_int twice (NInt 300) = Ok o /\
  carries (KInt []) c_int (Tagging 0 2 false [(2, 1); (1, 40)]) None (NInt 300) o.
Proof.
  destruct (make_settled (KInt []) c_int twice (Tagging 0 2 false [(2, 1); (1, 40)]) (NInt 300)) as (o & M & S & _).
  - split; constructor.
  - reflexivity.
  - repeat split; cbn; try lia; repeat constructor; cbn; lia.
  - intros H; exact H.
  - exists o. split; [exact M|exact S].
Qed.

(* equal objects of one class with different values, and with different dumps *)
Theorem C31_equal_but_different_refuted : exists da db a b, load KOctets c_octets no_params da true = Ok a /\
  load KOctets c_octets no_params db true = Ok b /\ prim_eq c_octets a c_octets b = true /\
  snd (get_native KOctets c_octets a) <> snd (get_native KOctets c_octets b) /\
  snd (dump KOctets c_octets a true) <> snd (dump KOctets c_octets b true).
Proof.
  exists [36; 128; 4; 1; 97; 0; 0], [4; 3; 4; 1; 97]. eexists. eexists. split; [reflexivity|]. split; [reflexivity|].
  split; [reflexivity|]. split; vm_compute; discriminate.
Qed.
Print Assumptions C31_equal_but_different_refuted.

(* C44 *)
Theorem C44_failed_set_partial (k : kind) (o : obj) (v : native) (o' : obj) (e : exn) :
  kind_ok k \/ k = KRaw -> atomic_set k (o_width o) v -> set_value k o v = (o', Err e) -> o' = o.
Proof. exact (failed_set k o v o' e). Qed.
Print Assumptions C44_failed_set_partial.

Theorem C44_dump_after_failed_set_partial (k : kind) (cls : pcls) (o : obj) (v : native) (o' : obj) (e : exn) :
  (forall m, k <> KOid m) -> set_value k o v = (o', Err e) -> ends_80 (e_header (o_enc o)) = false ->
  snd (dump k cls o' false) = snd (dump k cls o false).
Proof. exact (failed_set_dump k cls o v o' e). Qed.
Print Assumptions C44_dump_after_failed_set_partial.

Example C44_ex : exists o, make (KInt version) c_int no_params (NText (tx "v3")) = Ok o /\
  atomic_set (KInt version) (o_width o) (NText (tx "v4")) /\ kind_ok (KInt version) /\
  set_value (KInt version) o (NText (tx "v4")) = (o, Err ValueError) /\
  snd (get_native (KInt version) c_int o) = Ok (NText (tx "v3")).
Proof.
  eexists. split; [vm_compute; reflexivity|]. split; [exact I|]. split; [|vm_compute; split; reflexivity].
  vm_compute. split; repeat constructor; cbn; intuition discriminate.
Qed.

Theorem C44_native_changes_refuted :
  (exists o o' e v, make (KStr Ascii) (Cls 0 22 [] []) no_params (NText (tx "ok")) = Ok o /\
     set_value (KStr Ascii) o v = (o', Err e) /\
     snd (get_native (KStr Ascii) c_utf8 o') <> snd (get_native (KStr Ascii) c_utf8 o)) /\
  (exists m o o' e v, make (KBits (Some m)) c_bits no_params (NSet [LName (tx "a")]) = Ok o /\
     set_value (KBits (Some m)) o v = (o', Err e) /\
     snd (get_native (KBits (Some m)) c_bits o') <> snd (get_native (KBits (Some m)) c_bits o)) /\
  (exists o0 o o' e v, make KIntOctets c_octets no_params (NInt 5) = Ok o0 /\ set_width c_octets o0 1 = (o, Ok tt) /\
     set_value KIntOctets o v = (o', Err e) /\
     snd (get_native KIntOctets c_octets o') <> snd (get_native KIntOctets c_octets o)).
Proof.
  split; [|split].
  - eexists. eexists. eexists. exists (NText [955]). split; [vm_compute; reflexivity|]. split; [vm_compute; reflexivity|]. vm_compute. discriminate.
  - exists [(0, tx "a")]. eexists. eexists. eexists. exists (NBits [false; true]). split; [vm_compute; reflexivity|]. split; [vm_compute; reflexivity|].
    vm_compute. discriminate.
  - eexists. eexists. eexists. eexists. exists (NInt 256). split; [vm_compute; reflexivity|]. split; [vm_compute; reflexivity|].
    split; [vm_compute; reflexivity|]. vm_compute. discriminate.
Qed.
Print Assumptions C44_native_changes_refuted.

Theorem C44_oid_dump_changes_refuted : exists o o' v d d', load (KOid []) c_oid no_params [6; 3; 42; 134; 72] true = Ok o /\
  set_value (KOid []) o v = (o', Err ValueError) /\
  snd (dump (KOid []) c_oid o false) = Ok d /\ snd (dump (KOid []) c_oid o' false) = Ok d' /\ d' <> d /\
  parse d' true = Err ValueError.
Proof.
  eexists. eexists. exists (NText (tx "2.5.x")), [6; 3; 42; 134; 72], [6; 3; 85].
  split; [reflexivity|]. split; [vm_compute; reflexivity|]. split; [vm_compute; reflexivity|]. split; [vm_compute; reflexivity|]. split; [discriminate|vm_compute; reflexivity].
Qed.
Print Assumptions C44_oid_dump_changes_refuted.

(* C45 *)
Theorem C45_set_replaces_partial (k : kind) (cls : pcls) (o : obj) (v : native) (ops : list op) :
  kind_ok k -> k <> KNull -> reachable k cls o -> holds k (o_width o) v -> Forall (legal_op k (o_width o)) ops ->
  forall u, agrees k (o_width o) (o_tagging o) u (trace k cls o (OSet v :: ops)).
Proof. exact (set_history k cls o v ops). Qed.
Print Assumptions C45_set_replaces_partial.

Example C45_ex : exists o, load KOctets c_octets no_params [36; 128; 4; 1; 7; 0; 0] true = Ok o /\ reachable KOctets c_octets o /\
  map snd (trace KOctets c_octets o [ORead; ODump true; OSet (NBytes [1]); ODump false; ORead; OSet (NBytes [2; 2]); ODump false; ORead]) =
    [RNative (Ok (NBytes [7])); RBytes (Ok [4; 1; 7]); RSet (Ok tt); RBytes (Ok [4; 1; 1]); RNative (Ok (NBytes [1]));
     RSet (Ok tt); RBytes (Ok [4; 2; 2; 2]); RNative (Ok (NBytes [2; 2]))].
Proof.
  eexists. split; [reflexivity|]. split; [|vm_compute; reflexivity].
  eapply (reach_load KOctets c_octets no_params [36; 128; 4; 1; 7; 0; 0] true);
    [repeat constructor; unfold byte_ok; lia|vm_compute; reflexivity|repeat split; cbn; try lia; constructor].
Qed.

(* the dotted form of an object identifier keeps the value read before the set *)
Theorem C45_dotted_refuted : exists o o1 s o2 c, load (KOid []) c_oid no_params [6; 2; 42; 3] true = Ok o /\
  get_dotted o [42; 3] = (o1, s) /\ set_value (KOid []) o1 (NText (tx "1.3.4")) = (o2, Ok tt) /\
  contents o2 = Some c /\ c <> [42; 3] /\ snd (get_dotted o2 c) = s /\ s = tx "1.2.3".
Proof.
  eexists. eexists. exists (tx "1.2.3"). eexists. exists [43; 4]. split; [reflexivity|]. split; [vm_compute; reflexivity|].
  split; [vm_compute; reflexivity|]. split; [reflexivity|]. split; [discriminate|]. split; vm_compute; reflexivity.
Qed.
Print Assumptions C45_dotted_refuted.

(* the header of a Null is kept, so its dump after a set is not an encoding *)
Theorem C45_null_refuted : exists o o' d, load KNull c_null no_params [5; 1; 0] true = Ok o /\
  set_value KNull o NNone = (o', Ok tt) /\ snd (dump KNull c_null o' false) = Ok d /\ parse d false = Err ValueError.
Proof. eexists. eexists. exists [5; 1]. exs. Qed.
Print Assumptions C45_null_refuted.

(* C46 *)
Theorem C46_wrapper_must_start_with_value_partial (k : kind) (cls : pcls) (p : params) (t : tagging) (d : bytes) (s : bool) :
  bytes_ok d -> init_tagging cls p = Ok t -> has_explicit cls p = true ->
  (forall i rest j rest', ber_info max_budget i -> d = encoding_of i ++ rest -> ber_info max_budget j ->
     i_contents i <> encoding_of j ++ rest') ->
  load k cls p d s = Err ValueError.
Proof. exact (wrapper_refused k cls p t d s). Qed.
Print Assumptions C46_wrapper_must_start_with_value_partial.

Theorem C46_extra_value_accepted_refuted : exists d o, load (KInt []) c_int (Params [(2, 0)] None false) d true = Ok o /\
  ~ exact_ber max_budget 1 d /\ snd (dump (KInt []) c_int o false) <> Ok d.
Proof.
  pose (o := Obj (Tagging 0 2 false [(2, 0)]) (Enc 0 (Some [160; 6; 2; 1]) (Some [5]) [] false) no_cache None).
  exists [160; 6; 2; 1; 5; 2; 1; 7], o.
  assert (L : load (KInt []) c_int (Params [(2, 0)] None false) [160; 6; 2; 1; 5; 2; 1; 7] true = Ok o) by (vm_compute; reflexivity).
  assert (E : snd (dump (KInt []) c_int o false) <> Ok [160; 6; 2; 1; 5; 2; 1; 7]) by (vm_compute; discriminate).
  split; [exact L|]. split; [|exact E]. intros X. apply E.
  assert (B : bytes_ok [160; 6; 2; 1; 5; 2; 1; 7]) by (repeat constructor; unfold byte_ok; lia).
  destruct (load_dump (KInt []) c_int (Params [(2, 0)] None false) [160; 6; 2; 1; 5; 2; 1; 7] true o B L)
    as (i & t & r & _ & D & R & I & H). rewrite (R eq_refl), app_nil_r in D.
  assert (T : length (t_explicit t) = 1%nat) by (injection I as <-; reflexivity). rewrite T in H.
  destruct (H eq_refl) as (x & Dx & _ & Hx). rewrite <- D in Hx. apply Hx in X. subst x. rewrite Dx. reflexivity.
Qed.
Print Assumptions C46_extra_value_accepted_refuted.

Example C46_ex : load (KInt []) c_int (Params [(2, 0)] None false) [160; 1; 2] true = Err ValueError /\
  load (KInt []) c_int (Params [(2, 0)] None false) [160; 0] true = Err ValueError /\
  is_ok (load (KInt []) c_int (Params [(2, 0)] None false) [160; 3; 2; 1; 5] true) = true /\
  has_explicit c_int (Params [(2, 0)] None false) = true.
Proof. repeat split. Qed.

(* C52 *)
Theorem C52_read_raises_ValueError_partial (k : kind) (cls : pcls) (p : params) (d : bytes) (s : bool) (o : obj) (e : exn) :
  k_explicit cls = [] -> bytes_ok d -> load k cls p d s = Ok o ->
  (forall c, contents o = Some c -> readable k (e_indef (o_enc o)) c) ->
  snd (get_native k cls o) = Err e -> value_error e.
Proof. exact (read_error_loaded k cls p d s o e). Qed.
Print Assumptions C52_read_raises_ValueError_partial.

Example C52_ex : exists o, load (KStr Utf8) c_utf8 no_params [12; 1; 255] true = Ok o /\
  (forall c, contents o = Some c -> readable (KStr Utf8) (e_indef (o_enc o)) c) /\
  snd (get_native (KStr Utf8) c_utf8 o) = Err UnicodeError.
Proof. eexists. split; [reflexivity|]. split; [intros; exact I|vm_compute; reflexivity]. Qed.

Theorem C52_unexpected_exceptions_refuted :
  (exists d o, load (KBits None) c_bits no_params d true = Ok o /\ snd (get_native (KBits None) c_bits o) = Err IndexError) /\
  (exists d o, load KOctetBits c_bits no_params d true = Ok o /\ e_indef (o_enc o) = true /\
     snd (get_native KOctetBits c_bits o) = Err IndexError) /\
  (exists d o, load (KEnum (Some version)) c_enum no_params d true = Ok o /\
     snd (get_native (KEnum (Some version)) c_enum o) = Err KeyError) /\
  (exists d o, load (KEnum None) c_enum no_params d true = Ok o /\ snd (get_native (KEnum None) c_enum o) = Err TypeError) /\
  (exists d o, load KRaw (Cls 0 9 [] []) no_params d true = Ok o /\ snd (get_native KRaw (Cls 0 9 [] []) o) = Err AttributeError).
Proof.
  split; [exists [3; 0]|split; [exists [35; 128; 0; 0]|split; [exists [10; 1; 9]|split; [exists [10; 1; 0]|exists [9; 0]]]]];
    ex.
Qed.
Print Assumptions C52_unexpected_exceptions_refuted.

(* C54 *)
Theorem C54_load_total (k : kind) (cls : pcls) (p : params) (d : bytes) (s : bool) (e : exn) :
  bytes_ok d -> load k cls p d s = Err e -> e = ValueError.
Proof. exact (load_err k cls p d s e). Qed.
Print Assumptions C54_load_total.

Example C54_ex : load (KInt []) c_int twice [127; 40] true = Err ValueError /\
  load (KInt []) c_int (Params [(7, 1)] None false) [2; 1; 1] true = Err ValueError.
Proof. split; reflexivity. Qed.

(* C55 *)
Theorem C55_constructed_history (k : kind) (cls : pcls) (p : params) (t : tagging) (v : native) (ops : list op) :
  kind_ok k -> init_tagging cls p = Ok t -> tagging_ok t -> holds k None v -> Forall (legal_op k None) ops ->
  exists o, make k cls p v = Ok o /\ agrees k None t v (trace k cls o ops).
Proof. exact (make_history k cls p t v ops). Qed.
Print Assumptions C55_constructed_history.

Theorem C55_loaded_history (k : kind) (cls : pcls) (p : params) (t : tagging) (v : native) (c d : bytes) (s : bool) (ops : list op) :
  kind_ok k -> init_tagging cls p = Ok t -> tagging_ok t -> tags_compatible cls p ->
  holds k None v -> der_value k None v c -> bytes_ok c -> der_object t c d -> len d < 2 ^ 1008 -> Forall (legal_op k None) ops ->
  exists o, load k cls p d s = Ok o /\ agrees k None t v (trace k cls o ops).
Proof. exact (load_history k cls p t v c d s ops). Qed.
Print Assumptions C55_loaded_history.

Example C55_ex : exists o, make (KEnum (Some version)) c_enum twice (NText (tx "v2")) = Ok o /\
  map snd (trace (KEnum (Some version)) c_enum o [ODump false; OSet (NText (tx "v3")); ODump true; ORead]) =
    [RBytes (Ok [127; 40; 5; 161; 3; 10; 1; 1]); RSet (Ok tt); RBytes (Ok [127; 40; 5; 161; 3; 10; 1; 2]); RNative (Ok (NText (tx "v3")))].
Proof. ex. Qed.

(* C56 *)
Theorem C56_copy_and_retag_partial (k : kind) (cls : pcls) (p : params) (t : tagging) (v : native) (ops : list op)
  (p2 : params) (t2 : tagging) (ops2 : list op) :
  kind_ok k -> init_tagging cls p = Ok t -> tagging_ok t -> holds k None v ->
  Forall (legal_op k None) ops -> init_tagging cls p2 = Ok t2 -> tagging_ok t2 -> Forall (legal_op k None) ops2 ->
  exists o, make k cls p v = Ok o /\
    (exists r, copy k cls (run k cls o ops) = Ok r /\ agrees k None t (last_value v ops) (trace k cls r ops2)) /\
    (exists r, retag k cls p2 (run k cls o ops) = Ok r /\ agrees k None t2 (last_value v ops) (trace k cls r ops2)).
Proof. exact (retag_history k cls p t v ops p2 t2 ops2). Qed.
Print Assumptions C56_copy_and_retag_partial.

Example C56_ex : exists o r, make (KInt []) c_int no_params (NInt 7) = Ok o /\
  retag (KInt []) c_int twice (run (KInt []) c_int o [ODump false; OSet (NInt 9); ORead]) = Ok r /\
  snd (dump (KInt []) c_int r false) = Ok [127; 40; 5; 161; 3; 2; 1; 9].
Proof. ex. Qed.

(* C56 with a width: copy() forgets what set_encoded_width asked for *)
Theorem C56_copy_loses_width_refuted : exists o o1 r r', make KIntOctets c_octets no_params (NInt 5) = Ok o /\
  set_width c_octets o 4 = (o1, Ok tt) /\ copy KIntOctets c_octets o1 = Ok r /\
  set_value KIntOctets r (NInt 6) = (r', Ok tt) /\ contents r' = Some [6] /\
  contents (fst (set_value KIntOctets o1 (NInt 6))) = Some [0; 0; 0; 6].
Proof. ex. Qed.
Print Assumptions C56_copy_loses_width_refuted.

(* C57 *)
Theorem C57_width_history (cls : pcls) (p : params) (t : tagging) (z n : Z) (ops : list op) :
  init_tagging cls p = Ok t -> tagging_ok t -> 0 <= z < 256 ^ n -> 0 <= n -> Forall (legal_op KIntOctets (Some n)) ops ->
  exists o o', make KIntOctets cls p (NInt z) = Ok o /\ set_width cls o n = (o', Ok tt) /\
    agrees KIntOctets (Some n) t (NInt z) (trace KIntOctets cls o' ops).
Proof. exact (width_history cls p t z n ops). Qed.
Print Assumptions C57_width_history.

Example C57_ex : exists o o', make KIntOctets c_octets no_params (NInt 256) = Ok o /\ set_width c_octets o 4 = (o', Ok tt) /\
  map snd (trace KIntOctets c_octets o' [ODump false; OSet (NInt 1); ODump false; ORead]) =
    [RBytes (Ok [4; 4; 0; 0; 1; 0]); RSet (Ok tt); RBytes (Ok [4; 4; 0; 0; 0; 1]); RNative (Ok (NInt 1))].
Proof. ex. Qed.
