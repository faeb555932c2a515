(* C18: character codecs of the string types. *)
Require Import Verif.Base Verif.BaseFacts Verif.Text Verif.TeletexTable Verif.CodecModel Verif.CodecSpec Verif.CodecProofs.

Theorem C18_string_roundtrip (e : encoding) (s : text) : text_ok s ->
  (Forall (representable e) s -> exists b, encode e s = Ok b /\ bytes_ok b /\ decode e b = Ok s) /\
  (~ Forall (representable e) s -> encode e s = Err UnicodeError).
Proof. exact (codec_roundtrip e s). Qed.
Print Assumptions C18_string_roundtrip.

Theorem C18_encoding_injective (e : encoding) (s t : text) (b : bytes) :
  text_ok s -> text_ok t -> encode e s = Ok b -> encode e t = Ok b -> s = t.
Proof. exact (encode_inj e s t b). Qed.
Print Assumptions C18_encoding_injective.

(* any accepted contents are the encoding of what they decode to *)
Theorem C18_decoding_canonical (e : encoding) (l : bytes) : bytes_ok l ->
  decode e l = Err UnicodeError \/ exists s, decode e l = Ok s /\ text_ok s /\ encode e s = Ok l.
Proof. exact (codec_decode_canonical e l). Qed.
Print Assumptions C18_decoding_canonical.

Example C18_ex_utf : encode Utf8 [97; 233; 8364; 128512] = Ok [97; 195; 169; 226; 130; 172; 240; 159; 152; 128] /\
  decode Utf8 [97; 195; 169; 226; 130; 172; 240; 159; 152; 128] = Ok [97; 233; 8364; 128512] /\
  encode Utf16be [8364; 128512] = Ok [32; 172; 216; 61; 222; 0] /\
  decode Utf16be [32; 172; 216; 61; 222; 0] = Ok [8364; 128512] /\
  encode Utf32be [128512] = Ok [0; 1; 246; 0] /\ encode Utf8 [55296] = Err UnicodeError /\
  decode Utf8 [192; 128] = Err UnicodeError /\ decode Utf16be [216; 61] = Err UnicodeError.
Proof. vm_compute. repeat split. Qed.
Example C18_ex_bytes : encode Latin1 [233] = Ok [233] /\ encode Latin1 [8364] = Err UnicodeError /\
  encode Ascii [127] = Ok [127] /\ encode Ascii [128] = Err UnicodeError /\
  encode Teletex [65; 8486] = Ok [65; 224] /\ decode Teletex [65; 224] = Ok [65; 8486] /\
  encode Teletex [94] = Err UnicodeError /\ decode Teletex [94] = Err UnicodeError.
Proof. vm_compute. repeat split. Qed.
Example C18_ex_repr : Forall (representable Teletex) [65; 8486] /\ text_ok [65; 8486].
Proof.
  assert (H : forall c, existsb (Z.eqb c) teletex_table = true -> In c teletex_table).
  { intros c H. apply existsb_exists in H as (x & Hx & E). apply Z.eqb_eq in E. now subst. }
  split; (constructor; [|constructor; [|constructor]]); try lia; (split; [discriminate|apply H; vm_compute; reflexivity]).
Qed.
