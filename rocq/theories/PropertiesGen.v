(* C92: values loaded without a class. *)
Require Import Verif.Base Verif.BaseFacts Verif.Text Verif.IntSpec Verif.ParserModel Verif.ParserSpec Verif.ParserProofs Verif.ParserFacts Verif.TagSpec Verif.TagProofs
  Verif.CodecModel Verif.PrimModel Verif.PrimSpec Verif.ContModel Verif.ContSpec Verif.BerSpec Verif.GenModel Verif.GenSpec Verif.GenProofs Verif.GenAgain.
Require Coq.Strings.String.
Import Coq.Strings.String.StringSyntax.
Ltac calc := vm_compute; reflexivity.

(* the DER encoding of a tree of sequences and values of universal types, loaded without a
   class, after any reading: along every path the object found has the native, the
   encoding and the number of items of the part of the value there *)
Theorem C92_der_reads (pad : bool) (u : uval) (d rest : bytes) (s : bool) (h : list (list Z * ask)) (path : list Z) (q : ask) :
  uder pad u d -> (s = true -> rest = []) ->
  exists o, gload pad (d ++ rest) s = Ok o /\
    let r := snd (ask_at pad path q (ask_all pad h o)) in
    match found u path with Some u' => expected pad true u' q r | None => exists e, r = Err e end.
Proof. exact (read_history pad true u d rest s h path q). Qed.
Print Assumptions C92_der_reads.

(* so the object itself is dumped, forced or not, as the octets it came from *)
Theorem C92_der_octets (pad : bool) (u : uval) (d rest : bytes) (s : bool) (h : list (list Z * ask)) (f : bool) :
  uder pad u d -> (s = true -> rest = []) ->
  exists o, gload pad (d ++ rest) s = Ok o /\ snd (ask_at pad [] (QDump f) (ask_all pad h o)) = Ok (ABytes d).
Proof.
  intros U Hs. destruct (read_history pad true u d rest s h [] (QDump f) U Hs) as (o & E & X). exists o. split; auto.
  destruct X as (d' & -> & D). do 2 f_equal. exact (uder_fun pad u d' d (D eq_refl) U).
Qed.
Print Assumptions C92_der_octets.

(* { 5, TRUE, { "hi" } }: 30 0C 02 01 05 01 01 FF 30 04 0C 02 68 69 *)
Definition ex_value : uval := USeq [USimple 2 (KInt []) (NInt 5); USimple 1 KBool (NBool true); USeq [USimple 12 (KStr Utf8) (NText (tx "hi"))]].
Definition ex_octets : bytes := [48; 12; 2; 1; 5; 1; 1; 255; 48; 4; 12; 2; 104; 105].
Lemma short_tlv c m t x d : 0 <= c <= 3 -> 0 <= m <= 1 -> 0 <= t < 31 -> len x < 128 ->
  d = [64 * c + 32 * m + t; len x] ++ x -> der_tlv c m t x d.
Proof.
  intros C M T L ->. exists [64 * c + 32 * m + t], [len x]. split; [now constructor|]. split; [|reflexivity].
  constructor. pose proof (len_nonneg x). lia.
Qed.
Lemma ex_der : uder false ex_value ex_octets.
Proof.
  cbn [uder ex_value]. exists [[2; 1; 5]; [1; 1; 255]; [48; 4; 12; 2; 104; 105]]. split; [|apply short_tlv; cbn; lia || reflexivity].
  cbn [all2]. split; [|split; [|split; [|exact I]]].
  - split; [unfold simple_type; cbn [In]; tauto|]. split; [cbn; tauto|]. exists [5]. split; [|apply short_tlv; cbn; lia || reflexivity].
    cbn. split; [apply bytes_ok_cons; split; [unfold byte_ok; lia|constructor]|]. split; [discriminate|]. split; [reflexivity|exact I].
  - split; [unfold simple_type; cbn [In]; tauto|]. split; [exact I|]. exists [255]. split; [reflexivity|apply short_tlv; cbn; lia || reflexivity].
  - exists [[12; 2; 104; 105]]. split; [|apply short_tlv; cbn; lia || reflexivity]. split; [|exact I].
    split; [unfold simple_type; cbn [In]; tauto|]. split; [|exists [104; 105]; split; [calc|apply short_tlv; cbn; lia || reflexivity]].
    change (tx "hi") with [104; 105]. split; repeat apply Forall_cons; try apply Forall_nil; cbn; lia || exact I.
Qed.
Example C92_reads_ex :
  (do o <- gload false ex_octets true; snd (ask_at false [] QNative o)) =
    Ok (ANative (ADict [(tx "0", APrim (NInt 5)); (tx "1", APrim (NBool true)); (tx "2", ADict [(tx "0", APrim (NText (tx "hi")))])]))
  /\ (do o <- gload false ex_octets true; snd (ask_at false [-1; 0] QNative (ask_all false [([2], QLen); ([], QNative); ([7], QLen)] o))) = Ok (ANative (APrim (NText (tx "hi"))))
  /\ (do o <- gload false ex_octets true; snd (ask_at false [2] (QDump true) o)) = Ok (ABytes [48; 4; 12; 2; 104; 105])
  /\ found ex_value [-1; 0] = Some (USimple 12 (KStr Utf8) (NText (tx "hi"))) /\ found ex_value [3] = None.
Proof. repeat split; calc. Qed.

(* BER: natives and lengths.  Missing: what is dumped; strings in segments of definite total
   length, relative object identifiers, reals, enumerated values and sets are not read as
   the values they encode, see below *)
Theorem C92_ber_reads_partial (pad : bool) (u : uval) (d rest : bytes) (s : bool) (h : list (list Z * ask)) (path : list Z) (q : ask) :
  one_of (uber pad u) d -> (s = true -> rest = []) ->
  exists o, gload pad (d ++ rest) s = Ok o /\
    let r := snd (ask_at pad path q (ask_all pad h o)) in
    match found u path with Some u' => expected pad false u' q r | None => exists e, r = Err e end.
Proof. exact (read_history pad false u d rest s h path q). Qed.
Print Assumptions C92_ber_reads_partial.
Example C92_ber_ex : (* a sequence of indefinite length with 5 in two octets and "hi" in segments *)
  (do o <- gload false [48; 128; 2; 2; 0; 5; 36; 128; 4; 1; 104; 4; 1; 105; 0; 0; 0; 0] true; snd (ask_at false [] QNative (ask_all false [([1], QDump true)] o)))
    = Ok (ANative (ADict [(tx "0", APrim (NInt 5)); (tx "1", APrim (NBytes [104; 105]))])).
Proof. calc. Qed.

(* an object of the class Sequence, whatever was loaded and read: dump, forced or not, returns
   the octets that were loaded, unless the header ends in the octet 128, when it is written anew *)
Theorem C92_sequence_octets (pad : bool) (d : bytes) (s : bool) (o : gobj) (i : info) (r : bytes) (h : list (list Z * ask)) (f : bool) :
  gload pad d s = Ok o -> ber_info max_budget i -> d = encoding_of i ++ r -> i_tag i = 16 ->
  exists out, snd (ask_at pad [] (QDump f) (ask_all pad h o)) = Ok (ABytes out) /\
    (last (i_header i) 0 <> 128 -> out = encoding_of i) /\
    (last (i_header i) 0 = 128 -> len out < 2 ^ 1008 -> der_tlv (i_class i) (i_method i) 16 (i_contents i) out).
Proof.
  intros E B D T. pose proof (sequence_octets pad d s o i r h f E B D T) as H. rewrite H. eexists. split; [reflexivity|].
  pose proof (ber_hdr _ _ _ _ _ _ _ B) as (_ & N & Hc & Hm & _).
  unfold ends_80. destruct (i_header i) as [|z l] eqn:Eh; [unfold len in N; cbn in N; lia|]. destruct (last (z :: l) 0 =? 128) eqn:E8.
  - apply Z.eqb_eq in E8. split; [contradiction|]. intros _ L.
    apply dump_header_tlv; auto; [lia|]. rewrite len_app in L. pose proof (len_nonneg (dump_header (i_class i) (i_method i) 16 (i_contents i))). lia.
  - apply Z.eqb_neq in E8. split; [auto|contradiction].
Qed.
Print Assumptions C92_sequence_octets.
Example C92_octets_ex : (* length in two octets kept; indefinite outer length replaced, inner one kept *)
  (do o <- gload false [48; 129; 3; 2; 1; 5] true; snd (ask_at false [] (QDump true) (ask_all false [([], QNative)] o))) = Ok (ABytes [48; 129; 3; 2; 1; 5])
  /\ (do o <- gload false [48; 128; 48; 128; 0; 0; 0; 0] true; snd (ask_at false [] (QDump true) o)) = Ok (ABytes [48; 4; 48; 128; 0; 0]).
Proof. split; calc. Qed.

(* what is loaded at all: the tag number decides, whatever the class; everything else is a ValueError *)
Theorem C92_accepted (pad : bool) (d : bytes) (s : bool) : bytes_ok d ->
  ((exists o, gload pad d s = Ok o) <->
   exists i r, ber_info max_budget i /\ d = encoding_of i ++ r /\ (s = true -> r = []) /\ (1 <= i_tag i <= 13 \/ 16 <= i_tag i <= 30)).
Proof. exact (gload_iff pad d s). Qed.
Print Assumptions C92_accepted.
Theorem C92_refused (pad : bool) (d : bytes) (s : bool) (e : exn) : bytes_ok d -> gload pad d s = Err e -> e = ValueError.
Proof. exact (gload_err pad d s e). Qed.
Print Assumptions C92_refused.
Example C92_accepted_ex : gload false [128; 1; 5] true = Err ValueError /\ gload false [142; 0] true = Err ValueError /\ gload false [2; 1] true = Err ValueError
  /\ match gload false [130; 1; 5; 9] false with Ok _ => True | Err _ => False end.
Proof. repeat split. Qed.

(* a value under a context specific tag is read as the universal type of that number: an
   implicitly tagged octet string [2] as an integer *)
Theorem C92_class_ignored_refuted : exists c t x d, c <> 0 /\ der_tlv c 0 t x d /\
  (do o <- gload false d true; snd (ask_at false [] QNative o)) = Ok (ANative (APrim (NInt 26729))).
Proof. exists 2, 2, [104; 105], [130; 2; 104; 105]. split; [discriminate|]. split; [apply short_tlv; cbn; lia || reflexivity|calc]. Qed.
Print Assumptions C92_class_ignored_refuted.

(* the DER encoding of a set with one item is loaded, but can neither be read nor be dumped with force *)
Theorem C92_set_refuted : exists x d, der_tlv 0 1 17 x d /\
  (do o <- gload false d true; snd (ask_at false [] QNative o)) = Err ValueError /\
  (do o <- gload false d true; snd (ask_at false [] (QDump true) o)) = Err ValueError /\
  (do o <- gload false d true; snd (ask_at false [] (QDump false) o)) = Ok (ABytes d).
Proof. exists [2; 1; 5], [49; 3; 2; 1; 5]. split; [apply short_tlv; cbn; lia || reflexivity|]. repeat split; calc. Qed.
Print Assumptions C92_set_refuted.

(* so a sequence holding a set has no native *)
Theorem C92_set_inside_refuted : exists d, bytes_ok d /\ (do o <- gload false d true; snd (ask_at false [] QNative o)) = Err ValueError /\
  (do o <- gload false d true; snd (ask_at false [0] QNative o)) = Ok (ANative (APrim (NInt 5))).
Proof. exists [48; 8; 2; 1; 5; 49; 3; 2; 1; 5]. split; [repeat constructor; unfold byte_ok; lia|]. split; calc. Qed.
Print Assumptions C92_set_inside_refuted.

(* a string in segments with a definite total length: the headers of the segments become
   part of the value *)
Theorem C92_segments_refuted : exists x y d, der_tlv 0 1 4 x d /\ der_tlv 0 0 4 y x /\
  (do o <- gload false d true; snd (ask_at false [] QNative o)) = Ok (ANative (APrim (NBytes x))) /\ x <> y.
Proof.
  exists [4; 2; 104; 105], [104; 105], [36; 4; 4; 2; 104; 105]. split; [apply short_tlv; cbn; lia || reflexivity|].
  split; [apply short_tlv; cbn; lia || reflexivity|]. split; [calc|discriminate].
Qed.
Print Assumptions C92_segments_refuted.

(* forcing the dump of an embedded PDV throws its contents away *)
Theorem C92_embedded_pdv_refuted : exists x d, x <> [] /\ der_tlv 0 1 11 x d /\
  (do o <- gload false d true; snd (ask_at false [] (QDump true) o)) = Ok (ABytes [43; 0]).
Proof. exists [2; 1; 5], [43; 3; 2; 1; 5]. split; [discriminate|]. split; [apply short_tlv; cbn; lia || reflexivity|calc]. Qed.
Print Assumptions C92_embedded_pdv_refuted.

(* a sequence of 5 and a real: reading it raises AttributeError, reading it again returns a
   dict without the real *)
Theorem C92_partial_native_refuted : exists d, bytes_ok d /\
  (do o <- gload false d true; snd (ask_at false [] QLen o)) = Ok (ALen 2) /\
  (do o <- gload false d true; snd (ask_at false [] QNative o)) = Err AttributeError /\
  (do o <- gload false d true; snd (ask_at false [] QNative (ask_all false [([], QNative)] o))) = Ok (ANative (ADict [(tx "0", APrim (NInt 5))])).
Proof. exists [48; 5; 2; 1; 5; 9; 0]. split; [repeat constructor; unfold byte_ok; lia|]. repeat split; calc. Qed.
Print Assumptions C92_partial_native_refuted.

(* while after a ValueError or TypeError, the native raises an error again; so do objects made and read before *)
Theorem C92_error_again (pad : bool) (o : gobj) (e : exn) : snd (ask_at pad [] QNative o) = Err e -> e = ValueError \/ e = TypeError \/ e = UnicodeError ->
  exists e', snd (ask_at pad [] QNative (ask_all pad [([], QNative)] o)) = Err e'.
Proof. intros H E. apply (error_again pad o e H). now destruct E as [->|[->| ->]]. Qed.
Print Assumptions C92_error_again.
Example C92_error_again_ex : (* 5 and an enumerated value; 5 and a string that is no UTF-8 *)
  (do o <- gload false [48; 6; 2; 1; 5; 10; 1; 1] true; snd (ask_at false [] QNative (ask_all false [([], QNative)] o))) = Err TypeError /\
  (do o <- gload false [48; 6; 2; 1; 5; 12; 1; 255] true; snd (ask_at false [] QNative (ask_all false [([], QNative)] o))) = Err UnicodeError /\
  (do o <- gload false [48; 6; 2; 1; 5; 12; 1; 255] true; snd (ask_at false [] QNative o)) = Err UnicodeError.
Proof. repeat split; calc. Qed.

(* a dump, forced or not, starts with the class and tag number that were loaded, though the class played no part in reading *)
Theorem C92_identifier_kept (pad : bool) (d : bytes) (s : bool) (o : gobj) (f : bool) (out : bytes) :
  bytes_ok d -> gload pad d s = Ok o -> snd (ask_at pad [] (QDump f) o) = Ok (ABytes out) ->
  hd 0 out / 64 = hd 0 d / 64 /\ hd 0 out mod 32 = hd 0 d mod 32.
Proof. exact (identifier_kept pad d s o f out). Qed.
Print Assumptions C92_identifier_kept.
Example C92_identifier_kept_ex : (do o <- gload false [130; 129; 2; 0; 5] true; snd (ask_at false [] (QDump true) o)) = Ok (ABytes [130; 1; 5]).
Proof. calc. Qed.

(* an enumerated value has no native *)
Theorem C92_enumerated_refuted : exists x d, der_int 5 x /\ der_tlv 0 0 10 x d /\
  (do o <- gload false d true; snd (ask_at false [] QNative o)) = Err TypeError.
Proof.
  exists [5], [10; 1; 5]. split; [cbn; split; [repeat constructor; unfold byte_ok; lia|]; split; [discriminate|]; split; [reflexivity|exact I]|].
  split; [apply short_tlv; cbn; lia || reflexivity|calc].
Qed.
Print Assumptions C92_enumerated_refuted.

(* the relative object identifier 8571.3.2 of X.690 8.20.5 is read as 2.8491.3.2: the first
   subidentifier is split as if it stood for two arcs *)
Theorem C92_relative_oid_refuted : exists d, d = [13; 4; 194; 123; 3; 2] /\
  (do o <- gload false d true; snd (ask_at false [] QNative o)) = Ok (ANative (APrim (NText (tx "2.8491.3.2")))).
Proof. eexists. split; [reflexivity|calc]. Qed.
Print Assumptions C92_relative_oid_refuted.

(* a sequence of indefinite length is not written in DER, though the documentation of dump
   says so: what is inside stays as it was *)
Theorem C92_not_der_refuted : exists d out, bytes_ok d /\ (do o <- gload false d true; snd (ask_at false [] (QDump true) o)) = Ok (ABytes out) /\
  out = [48; 4; 48; 128; 0; 0].
Proof. exists [48; 128; 48; 128; 0; 0; 0; 0]. eexists. split; [repeat constructor; unfold byte_ok; lia|]. split; [calc|reflexivity]. Qed.
Print Assumptions C92_not_der_refuted.
