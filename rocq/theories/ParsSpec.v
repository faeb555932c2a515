(* Octet strings and bit strings that hold an encoding: which octets are encodings of the
   string, and what a program that only looks may do with it. *)
Require Import Verif.Base Verif.ParserSpec Verif.TagSpec Verif.PrimModel Verif.PrimSpec Verif.ContModel Verif.ContPath
  Verif.ContHistSpec Verif.ChunkSpec Verif.ParsModel.

(* contents octets of the string b: a bit string starts with the number of unused bits *)
Definition whole (bits : bool) (b : bytes) : bytes := (if bits then [0] else []) ++ b.

(* d is an encoding of the string b under the tags t, in one piece or in segments (X.690 8.6, 8.7) *)
Inductive string_of (bits : bool) (c : pcls) (t : tagging) : bytes -> bytes -> Prop :=
| SO_whole b d : der_object t (whole bits b) d -> string_of bits c t b d
| SO_segments n i cont xs : t_explicit t = [] -> ident (t_class t) 1 (t_tag t) i -> (n < 10)%nat ->
    segments (k_class c) (fun g => g = k_tag c \/ In g (k_bad c)) (negb bits) n cont (map (whole bits) xs) -> (bits = true -> xs <> []) ->
    string_of bits c t (concat xs) ((i ++ [128]) ++ cont ++ [0; 0]).

(* operations that only look; dump() counts as one if the string is not in segments *)
Definition looks (segmented : bool) (d : pdeed) : bool :=
  match d with
  | PSet _ => false
  | PParse _ _ | PParsed | PBytes | PNative => true
  | PDump f => negb f && negb segmented
  | PInner l => forallb (fun x => reading (snd x)) l
  end.
(* operations that do not parse *)
Definition unparsing (d : pdeed) : bool := match d with PParse _ _ | PParsed => false | _ => true end.

(* where an object comes from *)
Inductive begins (cls : nat -> spec) (bits : bool) (c : pcls) (p : params) : pobj -> Prop :=
| BG_load d strict x : bytes_ok d -> p_load bits c p d strict = Ok x -> begins cls bits c p x
| BG_make v x : p_make bits c p v = Ok x -> begins cls bits c p x
| BG_parsed n v x : p_make_parsed cls bits c p n v = Ok x -> begins cls bits c p x.

Definition given_params (p : option params) : params := match p with Some q => q | None => no_params end.
