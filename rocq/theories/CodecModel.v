(* The character codecs used by the string classes of /repo/asn1crypto/core.py
   (class attribute _encoding: 1789, 3313, 4857, 4866, 4875, 4892, 5181, 5190,
   5200, 5209, 5219, 5228) and AbstractString.set / __unicode__ (1794-1830).
   latin1, ascii and the UTF codecs are Python's own; they are written out here
   after the Unicode standard with errors='strict'.  teletex is charmap
   encoding/decoding with the table of _teletex_codec.py:71-331. *)
Require Import Verif.Base Verif.Text Verif.TeletexTable.

Inductive encoding := Latin1 | Ascii | Utf8 | Utf16be | Utf32be | Teletex.

Definition surrogate (c : Z) : bool := (55296 <=? c) && (c <=? 57343).
Definition scalar (c : Z) : bool := (0 <=? c) && (c <=? 1114111) && negb (surrogate c).

(* ---- encoders of one code point ---- *)
Definition latin1_char (c : Z) : res bytes := if c <? 256 then Ok [c] else Err UnicodeError.
Definition ascii_char (c : Z) : res bytes := if c <? 128 then Ok [c] else Err UnicodeError.

Definition utf8_char (c : Z) : res bytes :=
  if c <? 128 then Ok [c]
  else if c <? 2048 then Ok [192 + c / 64; 128 + c mod 64]
  else if surrogate c then Err UnicodeError
  else if c <? 65536 then Ok [224 + c / 4096; 128 + c / 64 mod 64; 128 + c mod 64]
  else Ok [240 + c / 262144; 128 + c / 4096 mod 64; 128 + c / 64 mod 64; 128 + c mod 64].

Definition utf16_char (c : Z) : res bytes :=
  if surrogate c then Err UnicodeError
  else if c <? 65536 then Ok [c / 256; c mod 256]
  else
    let hi := 55296 + (c - 65536) / 1024 in
    let lo := 56320 + (c - 65536) mod 1024 in
    Ok [hi / 256; hi mod 256; lo / 256; lo mod 256].

Definition utf32_char (c : Z) : res bytes :=
  if surrogate c then Err UnicodeError
  else Ok [c / 16777216; c / 65536 mod 256; c / 256 mod 256; c mod 256].

(* codecs.charmap_build: the last byte whose table entry is c (entries U+FFFE are
   skipped); charmap_encode looks it up *)
Fixpoint table_last (t : list Z) (i : Z) (c : Z) (found : option Z) : option Z :=
  match t with
  | [] => found
  | x :: r => table_last r (i + 1) c (if (x =? c) && negb (x =? 65534) then Some i else found)
  end.
Definition teletex_char (c : Z) : res bytes :=
  match table_last teletex_table 0 c None with
  | Some b => Ok [b]
  | None => Err UnicodeError
  end.

Definition encode_char (e : encoding) : Z -> res bytes :=
  match e with
  | Latin1 => latin1_char
  | Ascii => ascii_char
  | Utf8 => utf8_char
  | Utf16be => utf16_char
  | Utf32be => utf32_char
  | Teletex => teletex_char
  end.

(* value.encode(encoding) *)
Fixpoint encode (e : encoding) (s : text) : res bytes :=
  match s with
  | [] => Ok []
  | c :: r => do b <- encode_char e c; do rest <- encode e r; Ok (b ++ rest)
  end.

(* ---- decoders ---- *)
Definition cont (b : Z) : bool := (128 <=? b) && (b <=? 191).

Definition consr (c : Z) (x : res text) : res text := do r <- x; Ok (c :: r).

Fixpoint latin1_dec (l : bytes) : res text :=
  match l with [] => Ok [] | b :: r => consr b (latin1_dec r) end.

Fixpoint ascii_dec (l : bytes) : res text :=
  match l with
  | [] => Ok []
  | b :: r => if b <? 128 then consr b (ascii_dec r) else Err UnicodeError
  end.

(* Unicode table 3-7, well-formed UTF-8 *)
Fixpoint utf8_dec (l : bytes) : res text :=
  match l with
  | [] => Ok []
  | b0 :: r0 =>
      if b0 <? 128 then consr b0 (utf8_dec r0)
      else match r0 with
      | [] => Err UnicodeError
      | b1 :: r1 =>
          if (194 <=? b0) && (b0 <=? 223) then
            if cont b1 then consr ((b0 - 192) * 64 + (b1 - 128)) (utf8_dec r1) else Err UnicodeError
          else match r1 with
          | [] => Err UnicodeError
          | b2 :: r2 =>
              if (224 <=? b0) && (b0 <=? 239) then
                if cont b1 && cont b2 && negb ((b0 =? 224) && (b1 <? 160)) && negb ((b0 =? 237) && (159 <? b1))
                then consr ((b0 - 224) * 4096 + (b1 - 128) * 64 + (b2 - 128)) (utf8_dec r2)
                else Err UnicodeError
              else match r2 with
              | [] => Err UnicodeError
              | b3 :: r3 =>
                  if (240 <=? b0) && (b0 <=? 244) && cont b1 && cont b2 && cont b3
                     && negb ((b0 =? 240) && (b1 <? 144)) && negb ((b0 =? 244) && (143 <? b1))
                  then consr ((b0 - 240) * 262144 + (b1 - 128) * 4096 + (b2 - 128) * 64 + (b3 - 128)) (utf8_dec r3)
                  else Err UnicodeError
              end
          end
      end
  end.

Fixpoint utf16_dec (l : bytes) : res text :=
  match l with
  | [] => Ok []
  | a :: b :: r =>
      let u := a * 256 + b in
      if surrogate u then
        match r with
        | c :: d :: r' =>
            let v := c * 256 + d in
            if (u <=? 56319) && (56320 <=? v) && (v <=? 57343)
            then consr (65536 + (u - 55296) * 1024 + (v - 56320)) (utf16_dec r')
            else Err UnicodeError
        | _ => Err UnicodeError
        end
      else consr u (utf16_dec r)
  | _ => Err UnicodeError
  end.

Fixpoint utf32_dec (l : bytes) : res text :=
  match l with
  | [] => Ok []
  | a :: b :: c :: d :: r =>
      let u := a * 16777216 + b * 65536 + c * 256 + d in
      if scalar u then consr u (utf32_dec r) else Err UnicodeError
  | _ => Err UnicodeError
  end.

Fixpoint teletex_dec (l : bytes) : res text :=
  match l with
  | [] => Ok []
  | b :: r =>
      let c := nth (Z.to_nat b) teletex_table 65534 in
      if c =? 65534 then Err UnicodeError else consr c (teletex_dec r)
  end.

(* contents.decode(encoding) *)
Definition decode (e : encoding) (l : bytes) : res text :=
  match e with
  | Latin1 => latin1_dec l
  | Ascii => ascii_dec l
  | Utf8 => utf8_dec l
  | Utf16be => utf16_dec l
  | Utf32be => utf32_dec l
  | Teletex => teletex_dec l
  end.
