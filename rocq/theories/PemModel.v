(* Model of /repo/asn1crypto/pem.py.  Python 3; type checks on the arguments are the Coq
   types.  base64, bytes.splitlines, str.upper and the one regular expression are written
   out. *)
Require Import Verif.Base Verif.Text.

(* base64.b64encode (binascii.b2a_base64): the character of a 6-bit value *)
Definition b64_char (n : Z) : Z :=
  if n <? 26 then 65 + n
  else if n <? 52 then 71 + n
  else if n <? 62 then n - 4
  else if n =? 62 then 43 else 47.

Fixpoint b64encode (l : bytes) : bytes :=
  match l with
  | a :: b :: c :: r =>
      b64_char (a / 4) :: b64_char (a mod 4 * 16 + b / 16) :: b64_char (b mod 16 * 4 + c / 64) :: b64_char (c mod 64)
      :: b64encode r
  | [a; b] => [b64_char (a / 4); b64_char (a mod 4 * 16 + b / 16); b64_char (b mod 16 * 4); 61]
  | [a] => [b64_char (a / 4); b64_char (a mod 4 * 16); 61; 61]
  | [] => []
  end.

(* base64.b64decode without validation (binascii.a2b_base64, not strict): characters that
   are neither in the alphabet nor '=' are skipped; padding that completes a quad ends the
   data, whatever follows; binascii.Error is a ValueError *)
Definition b64_value (c : Z) : option Z :=
  if (65 <=? c) && (c <=? 90) then Some (c - 65)
  else if (97 <=? c) && (c <=? 122) then Some (c - 71)
  else if (48 <=? c) && (c <=? 57) then Some (c + 4)
  else if c =? 43 then Some 62
  else if c =? 47 then Some 63
  else None.

(* quad: position in the group of four; left: bits not yet written; pads: '=' seen in a row *)
Fixpoint b64decode_loop (quad left pads : Z) (s : bytes) : res bytes :=
  match s with
  | [] => if quad =? 0 then Ok [] else Err ValueError
  | c :: r =>
      if c =? 61 then
        if 2 <=? quad then
          if 4 <=? quad + (pads + 1) then Ok [] else b64decode_loop quad left (pads + 1) r
        else b64decode_loop quad left pads r
      else
        match b64_value c with
        | None => b64decode_loop quad left pads r
        | Some v =>
            if quad =? 0 then b64decode_loop 1 v 0 r
            else if quad =? 1 then do x <- b64decode_loop 2 (v mod 16) 0 r; Ok (left * 4 + v / 16 :: x)
            else if quad =? 2 then do x <- b64decode_loop 3 (v mod 4) 0 r; Ok (left * 16 + v / 4 :: x)
            else do x <- b64decode_loop 0 0 0 r; Ok (left * 64 + v :: x)
        end
  end.
Definition b64decode (s : bytes) : res bytes := b64decode_loop 0 0 0 s.

(* str.upper() on one code point, as far as the result is ASCII; every other character
   stands for itself and is not ASCII *)
Definition upper1 (c : Z) : text :=
  if (97 <=? c) && (c <=? 122) then [c - 32]
  else if c =? 223 then [83; 83]
  else if c =? 305 then [73]
  else if c =? 383 then [83]
  else if c =? 64256 then [70; 70]
  else if c =? 64257 then [70; 73]
  else if c =? 64258 then [70; 76]
  else if c =? 64259 then [70; 70; 73]
  else if c =? 64260 then [70; 70; 76]
  else if (c =? 64261) || (c =? 64262) then [83; 84]
  else [c].
Definition upper (s : text) : text := concat (map upper1 s).

(* str.encode('ascii'), bytes.decode('ascii') *)
Definition ascii_codec (s : text) : res bytes :=
  if forallb (fun c => (0 <=? c) && (c <? 128)) s then Ok s else Err UnicodeError.

(* bytes.splitlines(False) *)
Fixpoint splitlines (s : bytes) : list bytes :=
  match s with
  | [] => []
  | c :: r =>
      if c =? 10 then [] :: splitlines r
      else if c =? 13 then
        match r with
        | d :: r' => if d =? 10 then [] :: splitlines r' else [] :: splitlines r
        | [] => [[]]
        end
      else match splitlines r with
           | [] => [[c]]
           | w :: ws => (c :: w) :: ws
           end
  end.

Fixpoint starts_with (p s : bytes) : bool :=
  match p, s with
  | [], _ => true
  | x :: p', y :: s' => (x =? y) && starts_with p' s'
  | _ :: _, [] => false
  end.
(* s.find(p) != -1 *)
Fixpoint contains (p s : bytes) : bool :=
  starts_with p s || match s with [] => false | _ :: r => contains p r end.

(* pem.py:29-50 detect *)
Definition detect (s : bytes) : bool := contains (tx "-----BEGIN") s || contains (tx "---- BEGIN") s.

(* pem.py:91-97, the loop over the base64 text *)
Fixpoint wrap_loop (fuel : nat) (s : bytes) (i : Z) : bytes :=
  match fuel with
  | O => []
  | S n => if i <? len s then slice s i (i + 64) ++ 10 :: wrap_loop n s (i + 64) else []
  end.

(* pem.py:82-88, the headers *)
Fixpoint armor_headers (hs : list (text * text)) : res bytes :=
  match hs with
  | [] => Ok []
  | (k, v) :: r =>
      do k' <- ascii_codec k;
      do v' <- ascii_codec v;
      do r' <- armor_headers r;
      Ok (k' ++ tx ": " ++ v' ++ [10] ++ r')
  end.

(* pem.py:53-103 armor; headers is the dict as the list of its items *)
Definition armor (type_name : text) (der : bytes) (headers : list (text * text)) : res bytes :=
  do name <- ascii_codec (upper type_name);
  do hs <- armor_headers headers;
  let hs := match headers with [] => [] | _ => hs ++ [10] end in
  let b64 := b64encode der in
  Ok (tx "-----BEGIN " ++ name ++ tx "-----" ++ [10]
      ++ hs ++ wrap_loop (S (length b64)) b64 0
      ++ tx "-----END " ++ name ++ tx "-----" ++ [10]).

(* [A-Z0-9 ] *)
Definition label_char (c : Z) : bool := ((65 <=? c) && (c <=? 90)) || ((48 <=? c) && (c <=? 57)) || (c =? 32).
Fixpoint span_label (s : bytes) : bytes * bytes :=
  match s with
  | [] => ([], [])
  | c :: r => if label_char c then let '(a, b) := span_label r in (c :: a, b) else ([], s)
  end.

(* pem.py:152, re.match(b'^(?:---- |-----)BEGIN ([A-Z0-9 ]+)(?: ----|-----)', line): the
   group is the longest run of label characters if '-----' follows; otherwise the run
   without its last character, if that is a space followed by '----' *)
Definition match_begin (line : bytes) : option text :=
  let rest :=
    if starts_with (tx "-----BEGIN ") line then Some (skipn 11 line)
    else if starts_with (tx "---- BEGIN ") line then Some (skipn 11 line)
    else None in
  match rest with
  | None => None
  | Some s =>
      let '(run, after) := span_label s in
      if negb (match run with [] => true | _ => false end) && starts_with (tx "-----") after then Some run
      else if (2 <=? len run) && (last run 0 =? 32) && starts_with (tx "----") after then Some (removelast run)
      else None
  end.

(* line.split(':', 1) of a line that contains ':' *)
Fixpoint split_colon (s : bytes) : bytes * bytes :=
  match s with
  | [] => ([], [])
  | c :: r => if c =? 58 then ([], r) else let '(a, b) := split_colon r in (c :: a, b)
  end.
(* headers[name] = value *)
Fixpoint header_set (l : list (text * text)) (k v : text) : list (text * text) :=
  match l with
  | [] => [(k, v)]
  | (k', w) :: r => if eqb_text k' k then (k', v) :: r else (k', w) :: header_set r k v
  end.

Record block := Block { b_type : text; b_headers : list (text * text); b_der : bytes }.
Inductive pstate :=
| Trash
| Headers (ty : text) (hs : list (text * text))
| Body (ty : text) (hs : list (text * text)) (b64 : bytes).

(* pem.py:137-188 _unarmor: what the generator yields and the exception it ends with, if
   any; start and stop are found_start and found_end *)
Fixpoint unarmor_loop (st : pstate) (start stop : bool) (lines : list bytes) : list block * option exn :=
  match lines with
  | [] => ([], if negb start || negb stop then Some ValueError else None)
  | [] :: r => unarmor_loop st start stop r
  | line :: r =>
      let body ty hs b64 :=
        if starts_with (tx "-----") line || starts_with (tx "---- ") line then
          match b64decode b64 with
          | Ok der => let '(bs, e) := unarmor_loop Trash start true r in (Block ty hs der :: bs, e)
          | Err x => ([], Some x)
          end
        else unarmor_loop (Body ty hs (b64 ++ line)) start stop r in
      match st with
      | Trash => match match_begin line with
                 | None => unarmor_loop Trash start stop r
                 | Some ty => unarmor_loop (Headers ty []) true stop r
                 end
      | Headers ty hs =>
          if contains [58] line then
            match ascii_codec line with
            | Ok s => let '(n, v) := split_colon s in unarmor_loop (Headers ty (header_set hs n (strip v))) start stop r
            | Err x => ([], Some x)
            end
          else body ty hs []
      | Body ty hs b64 => body ty hs b64
      end
  end.

(* pem.py:191-226 unarmor(multiple=True), the generator run to its end *)
Definition unarmor_all (s : bytes) : res (list block) :=
  match unarmor_loop Trash false false (splitlines s) with
  | (bs, None) => Ok bs
  | (_, Some x) => Err x
  end.
(* unarmor(): the first block; next() on a generator that ends without a block would be
   StopIteration, which cannot happen (without a block found_end is False) *)
Definition unarmor (s : bytes) : res block :=
  match unarmor_loop Trash false false (splitlines s) with
  | (b :: _, _) => Ok b
  | ([], Some x) => Err x
  | ([], None) => Err OutOfFuel
  end.
