(* Which characters a string type can represent. *)
Require Import Verif.Base Verif.Text Verif.TeletexTable Verif.CodecModel.

Definition representable (e : encoding) (c : Z) : Prop :=
  match e with
  | Latin1 => c < 256
  | Ascii => c < 128
  | Utf8 | Utf16be | Utf32be => ~ (55296 <= c <= 57343)
  | Teletex => c <> 65534 /\ In c teletex_table
  end.

(* Python str elements: code points, surrogates included *)
Definition text_ok (s : text) : Prop := Forall (fun c => 0 <= c <= 1114111) s.
