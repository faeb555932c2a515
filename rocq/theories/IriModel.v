(* Model of the percent-encoding in /repo/asn1crypto/_iri.py: _urlquote (193-242),
   _urlunquote (245-291) and the error handler iriutf8 (172-190).

   urllib.parse.quote and unquote_to_bytes are written out after Python 3.7 and
   later (where ~ needs no quoting).  A part of a URI is a byte string of ASCII
   characters and is represented as a text. *)
Require Import Verif.Base Verif.Text Verif.InetModel Verif.CodecModel.

(* '%%%02x' % n for 0 <= n < 256, and the capital form of urllib *)
Definition pct (n : Z) : text := [37; hex_digit (n / 16); hex_digit (n mod 16)].
Definition hex_digit_upper (d : Z) : Z := if d <? 10 then 48 + d else 55 + d.
Definition pct_upper (n : Z) : text := [37; hex_digit_upper (n / 16); hex_digit_upper (n mod 16)].
(* the two characters after a percent sign *)
Definition hex2 (h l : Z) : option Z :=
  match hex_val h, hex_val l with Some a, Some b => Some (a * 16 + b) | _, _ => None end.

(* bytes.decode('utf-8', 'iriutf8'): octets outside well-formed sequences are
   written as %xx, one by one (172-187).  Python reports a lead octet together
   with the continuation octets it accepted; each of these is refused on its own
   as well, so that it makes no difference where decoding resumes. *)
Fixpoint utf8_lenient (l : bytes) : text :=
  match l with
  | [] => []
  | b0 :: r0 =>
      if b0 <? 128 then b0 :: utf8_lenient r0
      else match r0 with
      | [] => pct b0 ++ utf8_lenient r0
      | b1 :: r1 =>
          if (194 <=? b0) && (b0 <=? 223) then
            if cont b1 then ((b0 - 192) * 64 + (b1 - 128)) :: utf8_lenient r1
            else pct b0 ++ utf8_lenient r0
          else match r1 with
          | [] => pct b0 ++ utf8_lenient r0
          | b2 :: r2 =>
              if (224 <=? b0) && (b0 <=? 239) then
                if cont b1 && cont b2 && negb ((b0 =? 224) && (b1 <? 160)) && negb ((b0 =? 237) && (159 <? b1))
                then ((b0 - 224) * 4096 + (b1 - 128) * 64 + (b2 - 128)) :: utf8_lenient r2
                else pct b0 ++ utf8_lenient r0
              else match r2 with
              | [] => pct b0 ++ utf8_lenient r0
              | b3 :: r3 =>
                  if (240 <=? b0) && (b0 <=? 244) && cont b1 && cont b2 && cont b3
                     && negb ((b0 =? 240) && (b1 <? 144)) && negb ((b0 =? 244) && (143 <? b1))
                  then ((b0 - 240) * 262144 + (b1 - 128) * 4096 + (b2 - 128) * 64 + (b3 - 128)) :: utf8_lenient r3
                  else pct b0 ++ utf8_lenient r0
              end
          end
      end
  end.

(* s.replace(c, by) for a character c *)
Definition replace_char (c : Z) (by_ : text) (s : text) : text := flat_map (fun x => if x =? c then by_ else [x]) s.

(* re.search('%[0-9a-fA-F]{2}', s) *)
Fixpoint has_escape (s : text) : bool :=
  match s with
  | [] => false
  | c :: r =>
      (c =? 37) && (match r with h :: l :: _ => match hex2 h l with Some _ => true | None => false end | _ => false end)
      || has_escape r
  end.

(* 217-222, _try_unescape *)
Definition protect (safe : text) (s : text) : text := fold_left (fun s c => replace_char c (pct c) s) safe s.
Definition try_unescape (safe : text) (run : bytes) : text := protect safe (utf8_lenient run).
(* 223, re.sub('(?:%[0-9a-fA-F]{2})+', _try_unescape, s); run: the octets of the
   escapes just read *)
Fixpoint unescape_runs (safe : text) (s : text) (run : bytes) : text :=
  match s with
  | [] => match run with [] => [] | _ => try_unescape safe run end
  | c :: r =>
      let plain := match run with [] => [] | _ => try_unescape safe run end ++ c :: unescape_runs safe r [] in
      if c =? 37 then
        match r with
        | h :: l :: r' => match hex2 h l with Some v => unescape_runs safe r' (run ++ [v]) | None => plain end
        | _ => plain
        end
      else plain
  end.
(* 227-230, re.sub('%[0-9a-fA-F]{2}', _extract_escape, s) *)
Fixpoint extract (s : text) : text * list text :=
  match s with
  | [] => ([], [])
  | c :: r =>
      let plain := let '(t, e) := extract r in (c :: t, e) in
      if c =? 37 then
        match r with
        | h :: l :: r' =>
            match hex2 h l with
            | Some _ => let '(t, e) := extract r' in (0 :: t, [c; h; l] :: e)
            | None => plain
            end
        | _ => plain
        end
      else plain
  end.

(* urllib.parse.quote of bytes *)
Definition unreserved (c : Z) : bool :=
  ((48 <=? c) && (c <=? 57)) || ((65 <=? c) && (c <=? 90)) || ((97 <=? c) && (c <=? 122))
  || (c =? 45) || (c =? 46) || (c =? 95) || (c =? 126).
Definition char_in (c : Z) (s : text) : bool := existsb (Z.eqb c) s.
Definition quote_octet (safe : text) (b : Z) : text := if unreserved b || char_in b safe then [b] else pct_upper b.
Definition quote_octets (safe : text) (l : bytes) : text := flat_map (quote_octet safe) l.

(* 236-240, re.sub(b'%00', _return_escape, output) *)
Fixpoint restore (out : text) (escapes : list text) : res text :=
  match out with
  | [] => Ok []
  | c :: r =>
      let plain := do t <- restore r escapes; Ok (c :: t) in
      if c =? 37 then
        match r with
        | h :: l :: r' =>
            if (h =? 48) && (l =? 48) then
              match escapes with
              | [] => Err IndexError
              | e :: es => do t <- restore r' es; Ok (e ++ t)
              end
            else plain
        | _ => plain
        end
      else plain
  end.

(* 193-242; None: None or an empty string was given *)
Definition urlquote (safe : text) (s : text) : res (option text) :=
  match s with
  | [] => Ok None
  | _ =>
      let '(s, escapes) := if has_escape s then extract (unescape_runs safe s []) else (s, []) in
      do octets <- encode Utf8 s;
      let out := quote_octets safe octets in
      match escapes with
      | [] => Ok (Some out)
      | _ => do o <- restore out escapes; Ok (Some o)
      end
  end.

(* urllib.parse.unquote_to_bytes *)
Fixpoint unquote_octets (s : text) : bytes :=
  match s with
  | [] => []
  | c :: r =>
      if c =? 37 then
        match r with
        | h :: l :: r' => match hex2 h l with Some v => v :: unquote_octets r' | None => c :: unquote_octets r end
        | _ => c :: unquote_octets r
        end
      else c :: unquote_octets r
  end.

(* 271-277: characters that are to stay are replaced by control characters *)
Definition replacements : text := [0x1a; 0x1c; 0x1d; 0x1e; 0x1f].
Definition hide (remap : text) (s : text) : text :=
  fold_left (fun s xy => replace_char (fst xy) [snd xy] s) (combine remap replacements) s.
(* 281-283 *)
Definition remap_chars (remap : text) (s : bytes) : bytes := fold_left (fun s c => replace_char c (pct c) s) remap s.
(* 287-289 *)
Definition unhide (remap : text) (s : text) : text :=
  fold_left (fun s xy => replace_char (snd xy) [fst xy] s) (combine remap replacements) s.

(* 245-291, for a byte string (None gives None); remap has at most five characters *)
Definition urlunquote (remap : text) (preserve : bool) (s : text) : text :=
  match s with
  | [] => []
  | _ =>
      let s := if preserve then hide remap s else s in
      let octets := remap_chars remap (unquote_octets s) in
      let output := utf8_lenient octets in
      if preserve then unhide remap output else output
  end.

(* the parts of an IRI: 80-81 and 145-146; 101 and 165; 103 and 166; 105 and 167 *)
Inductive part := User | Path | Query | Fragment.
Definition safe_of (p : part) : text :=
  match p with
  | User => tx "!$&'()*+,;="
  | Path => tx "/!$&'()*+,;=@:"
  | Query | Fragment => tx "/?!$&'()*+,;=@:"
  end.
Definition remap_of (p : part) : text :=
  match p with User => tx ":@" | Path => tx "/" | Query => tx "&=" | Fragment => [] end.
Definition preserve_of (p : part) : bool := match p with Path | Query => true | _ => false end.
Definition quote_part (p : part) (s : text) : res (option text) := urlquote (safe_of p) s.
Definition unquote_part (p : part) (s : text) : text := urlunquote (remap_of p) (preserve_of p) s.
