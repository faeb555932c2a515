(* C17: strings sent in segments; C14, C16: what the octets of a bit string read as. *)
Require Import Verif.Base Verif.ParserSpec Verif.Text Verif.BitModel Verif.BitSpec Verif.CodecModel Verif.TagSpec Verif.PrimModel Verif.PrimSpec
  Verif.PrimLoad Verif.ChunkSpec Verif.ChunkProofs Verif.SegLoad.

Ltac exs := repeat (split; [vm_compute; reflexivity|]); vm_compute; reflexivity.
Ltac ex := repeat match goal with |- exists _, _ => eexists end; exs.

(* C17: the value read from segments is the one read from the joined contents, and its
   forced dump is the DER encoding of that value *)
Theorem C17_segments_read_as_joined (k : kind) (cls : pcls) (p : params) (t : tagging) (n : nat) (cont : bytes) (xs : list bytes)
  (c i : bytes) (s : bool) (v : native) (o1 : obj) (h : option bytes) (tr : bytes) (t' : tagging) :
  init_tagging cls p = Ok t -> t_explicit t = [] -> tags_compatible cls p -> tagging_ok t -> kind_ok k ->
  k_explicit cls = [] -> constructable k = true -> ident (t_class t) 1 (t_tag t) i -> bytes_ok c ->
  segments (k_class cls) (own_tag cls) (tolerant k) n cont xs -> (n < 10)%nat -> (tolerant k = false -> xs <> []) ->
  joined k xs c -> get_native k cls (one_piece t' h tr None c) = (o1, Ok v) -> holds k None v ->
  exists o c' d, load k cls p ((i ++ [128]) ++ cont ++ [0; 0]) s = Ok o /\ snd (get_native k cls o) = Ok v /\
    snd (dump k cls o true) = Ok d /\ der_value k None v c' /\ (len d < 2 ^ 1008 -> der_object t c' d).
Proof. exact (load_segments_native k cls p t n cont xs c i s v o1 h tr t'). Qed.
Print Assumptions C17_segments_read_as_joined.

(* the same with any result, errors included *)
Theorem C17_segments_native (k : kind) (cls : pcls) (n : nat) (cont : bytes) (xs : list bytes) (c : bytes)
  (t : tagging) (h : option bytes) (tr : bytes) (w : option Z) (t' : tagging) (h' : option bytes) (tr' : bytes) :
  k_explicit cls = [] -> constructable k = true -> bytes_ok c ->
  segments (k_class cls) (own_tag cls) (tolerant k) n cont xs -> (n < 10)%nat -> (tolerant k = false -> xs <> []) ->
  joined k xs c ->
  snd (get_native k cls (in_segments t h tr w cont)) = snd (get_native k cls (one_piece t' h' tr' w c)).
Proof. exact (segmented_native k cls n cont xs c t h tr w t' h' tr'). Qed.
Print Assumptions C17_segments_native.

(* a segment other than the last with unused bits *)
Theorem C17_unused_bits_rejected (k : kind) (cls : pcls) (n : nat) (cont : bytes) (a : list bytes) (x y : bytes) (b : list bytes)
  (t : tagging) (h : option bytes) (tr : bytes) (w : option Z) : k_explicit cls = [] -> constructable k = true ->
  (k = KIntBits \/ k = KOctetBits \/ exists m, k = KBits m) ->
  segments (k_class cls) (own_tag cls) (tolerant k) n cont (a ++ x :: y :: b) -> (n < 10)%nat ->
  Forall good_chunk (a ++ x :: y :: b) -> hd 0 x <> 0 ->
  snd (get_native k cls (in_segments t h tr w cont)) = Err ValueError.
Proof. exact (segmented_unused k cls n cont a x y b t h tr w). Qed.
Print Assumptions C17_unused_bits_rejected.

(* whatever is read from an indefinite-length octet string is made of segments *)
Theorem C17_only_segments (k : kind) (cls : pcls) (cont b : bytes) : k_explicit cls = [] ->
  (forall t, own_tag cls t -> k_class cls = 0 -> t <> 0) -> bytes_ok cont -> merged_bytes k cls true cont = Ok b ->
  exists n xs, segments (k_class cls) (own_tag cls) true n cont xs /\ b = concat xs.
Proof. exact (merged_bytes_sound k cls cont b). Qed.
Print Assumptions C17_only_segments.

Definition seg_cls : pcls := Cls 0 4 [] [].
Definition seg_bits : pcls := Cls 0 3 [] [].
Example C17_ex : segments 0 (own_tag seg_cls) true 1 [4; 1; 7; 36; 128; 4; 2; 8; 9; 4; 0; 0; 0] ([7] :: [[8; 9]; []]) /\
  joined KOctets ([7] :: [[8; 9]; []]) [7; 8; 9] /\
  (exists o, load KOctets seg_cls no_params [36; 128; 4; 1; 7; 36; 128; 4; 2; 8; 9; 4; 0; 0; 0; 0; 0] true = Ok o /\
     snd (get_native KOctets seg_cls o) = Ok (NBytes [7; 8; 9]) /\ snd (dump KOctets seg_cls o true) = Ok [4; 3; 7; 8; 9]) /\
  (exists o, load (KBits None) seg_bits no_params [35; 128; 3; 2; 0; 240; 3; 2; 6; 128; 0; 0] true = Ok o /\
     snd (get_native (KBits None) seg_bits o) = Ok (NBits [true; true; true; true; false; false; false; false; true; false]) /\
     snd (dump (KBits None) seg_bits o true) = Ok [3; 3; 6; 240; 128]) /\
  (exists o, load (KBits None) seg_bits no_params [35; 128; 3; 2; 6; 128; 3; 2; 0; 240; 0; 0] true = Ok o /\
     snd (get_native (KBits None) seg_bits o) = Err ValueError).
Proof.
  split; [|split; [reflexivity|repeat split; ex]].
  assert (O : own_tag seg_cls 4) by (left; reflexivity).
  apply (seg_prim 0 (own_tag seg_cls) true 1 4 [4] [1] [7] [36; 128; 4; 2; 8; 9; 4; 0; 0; 0] [[8; 9]; []] O);
    [apply (ident_low 0 0 4); lia|constructor; cbn; lia|discriminate|].
  apply (seg_nested 0 (own_tag seg_cls) true 0 4 [36] [4; 2; 8; 9; 4; 0] [] [[8; 9]; []] [] O);
    [apply (ident_low 0 1 4); lia|left; reflexivity| |constructor].
  apply (seg_prim 0 (own_tag seg_cls) true 0 4 [4] [2] [8; 9] [4; 0] [[]] O);
    [apply (ident_low 0 0 4); lia|constructor; cbn; lia|discriminate|].
  apply (seg_prim 0 (own_tag seg_cls) true 0 4 [4] [0] [] [] [] O);
    [apply (ident_low 0 0 4); lia|constructor; cbn; lia|discriminate|constructor].
Qed.

(* C14, C16: OctetBitString splits the octets into the bits and the unused bits, and
   returns the octets with the unused bits cleared *)
Theorem C16_octet_bit_string_view (u : Z) (body : bytes) : bytes_ok body -> 0 <= u <= 7 -> (u <> 0 -> body <> []) ->
  exists b a ub, octetbits_chunk (u :: body) = Ok (b, ub) /\ bytes_ok b /\ octets_bits body = a ++ ub /\ len ub = u /\
    octets_bits b = a ++ repeat false (Z.to_nat u).
Proof. exact (octetbits_chunk_ok u body). Qed.
Print Assumptions C16_octet_bit_string_view.

Example C16_view_ex : octetbits_chunk [3; 255; 173] = Ok ([255; 168], [true; false; true]).
Proof. reflexivity. Qed.
