(* Model of the contents codecs of the bit string classes,
   /repo/asn1crypto/core.py:1996-2567 and 5382-5403. *)
Require Import Verif.Base Verif.IntModel Verif.Text.

(* int(''.join(map(str, bits)), 2) for bits that are 0 or 1.  Simplification: the
   tuple passed to set() is a list of booleans, other integers are not modelled. *)
Definition bits_int (bits : list bool) : Z :=
  fold_left (fun a b => a * 2 + (if b : bool then 1 else 0)) bits 0.

(* value.rstrip('0') *)
Fixpoint rstrip0 (bits : list bool) : list bool :=
  match bits with
  | [] => []
  | b :: r => match rstrip0 r with
              | [] => if b then [b] else []
              | r' => b :: r'
              end
  end.

(* core.py:2124-2221, the contents BitString.set() stores.  [size] is
   self._size when a _map exists. *)
Definition bitstring_encode (size : option Z) (bits : list bool) : res bytes :=
  do value <- (match size with
               | None => Ok bits
               | Some s => if s <? len bits then Err ValueError else Ok (rstrip0 bits)
               end);
  let n := len value in
  let size_mod := n mod 8 in
  let extra_bits := if size_mod =? 0 then 0 else 8 - size_mod in
  let value := value ++ repeat false (Z.to_nat extra_bits) in
  let size_in_bytes := (n + 7) / 8 in
  do extra_bits_byte <- (if extra_bits =? 0 then Ok [0] else int_to_bytes extra_bits false None);
  do value_bytes <- (match value with [] => Ok [] | _ => int_to_bytes (bits_int value) false None end);
  let value_bytes :=
    if len value_bytes =? size_in_bytes then value_bytes
    else zeros (Z.to_nat (size_in_bytes - len value_bytes)) ++ value_bytes in
  Ok (extra_bits_byte ++ value_bytes).

(* format(value, '0{bits}b'): at least [bits] binary digits, most significant first *)
Fixpoint bin_digits (n : nat) (v : Z) : list bool :=
  match n with
  | O => []
  | S n' => bin_digits n' (v / 2) ++ [Z.odd v]
  end.

(* core.py:5382-5403 _int_to_bit_tuple *)
Definition int_to_bits (value bits : Z) : res (list bool) :=
  if (value =? 0) && (bits =? 0) then Ok []
  else
    let result := bin_digits (Z.to_nat (Z.max bits (Z.max 1 (bit_length value)))) value in
    if len result =? bits then Ok result else Err ValueError.

(* core.py:2004-2041 _IntegerBitString._as_chunk for a definite-length value:
   (value, bits, unused_bits).  contents[0] of empty contents is an IndexError. *)
Definition bit_chunk (contents : bytes) : res (Z * Z * list bool) :=
  match contents with
  | [] => Err IndexError
  | unused :: body =>
      let value := int_from_bytes body false in
      let bits := (len contents - 1) * 8 in
      if unused =? 0 then Ok (value, bits, [])
      else if len contents =? 1 then Err ValueError
      else if 7 <? unused then Err ValueError
      else
        do ub <- int_to_bits (Z.land value (Z.shiftl 1 unused - 1)) unused;
        Ok (Z.shiftr value unused, bits - unused, ub)
  end.

(* core.py:2043-2072 _chunks_to_int over already collected chunks *)
Fixpoint chunks_int (chunks : list (Z * Z * list bool)) (value total : Z) (unused : list bool)
  : res (Z * Z * list bool) :=
  match chunks with
  | [] => Ok (value, total, unused)
  | (chunk, bits, ub) :: r =>
      if negb (Z.land total 7 =? 0) then Err ValueError
      else chunks_int r (Z.lor (Z.shiftl value bits) chunk) (total + bits) ub
  end.

(* core.py:2327-2356: the bit tuple of BitString.native and its unused bits *)
Definition bitstring_decode (contents : bytes) : res (list bool * list bool) :=
  do (v, n, ub) <- bit_chunk contents;
  do bits <- int_to_bits v n;
  Ok (bits, ub).

(* the labels BitString.native collects: a name, or the index itself when the
   map has no entry (core.py:2327-2356) *)
Inductive label := LName (s : text) | LIndex (i : Z).

Definition label_eqb (a b : label) : bool :=
  match a, b with
  | LName x, LName y => eqb_text x y
  | LIndex x, LIndex y => x =? y
  | _, _ => false
  end.

(* dict.get *)
Fixpoint map_get (m : list (Z * text)) (i : Z) : option text :=
  match m with
  | [] => None
  | (k, v) :: r => if k =? i then Some v else map_get r i
  end.

(* core.py:2113-2122: cls._size = max(self._map.keys()) + 1 *)
Definition map_size (m : list (Z * text)) : Z := fold_right Z.max (-1) (map fst m) + 1.

Definition label_in (x : label) (s : list label) : bool := existsb (label_eqb x) s.

Fixpoint zseq (start : Z) (n : nat) : list Z :=
  match n with O => [] | S n' => start :: zseq (start + 1) n' end.

(* core.py:2124-2221: bits for a set of names; a set is a list used only through
   membership *)
Definition bits_of_set (m : list (Z * text)) (s : list label) : list bool :=
  map (fun i => match map_get m i with
                | None => false
                | Some k => label_in (LName k) s
                end) (zseq 0 (Z.to_nat (map_size m))).

(* core.py:2327-2356 and 2124-2221 *)
Fixpoint labels_from (m : list (Z * text)) (i : Z) (bits : list bool) : list label :=
  match bits with
  | [] => []
  | b :: r =>
      let rest := labels_from m (i + 1) r in
      if b : bool then
        (match map_get m i with Some k => LName k | None => LIndex i end) :: rest
      else rest
  end.
Definition set_of_bits (m : list (Z * text)) (bits : list bool) : list label := labels_from m 0 bits.

(* named BitString: set(set) and native *)
Definition named_encode (m : list (Z * text)) (s : list label) : res bytes :=
  bitstring_encode (Some (map_size m)) (bits_of_set m s).
Definition named_decode (m : list (Z * text)) (contents : bytes) : res (list label) :=
  do (bits, _) <- bitstring_decode contents; Ok (set_of_bits m bits).

(* core.py:2372-2401 OctetBitString.set *)
Definition octetbits_encode (value : bytes) : bytes := 0 :: value.

(* core.py:2442-2474 OctetBitString._as_chunk: (bytes, unused bits) *)
Definition octetbits_chunk (contents : bytes) : res (bytes * list bool) :=
  match contents with
  | [] => Err IndexError
  | unused :: body =>
      if unused =? 0 then Ok (body, [])
      else if len contents =? 1 then Err ValueError
      else if 7 <? unused then Err ValueError
      else
        let mask := Z.shiftl 1 unused - 1 in
        let last_byte := last contents 0 in
        let zeroed := Z.land last_byte (Z.lnot mask) in
        do ub <- int_to_bits (Z.land last_byte mask) unused;
        Ok (removelast body ++ [zeroed], ub)
  end.

(* core.py:2512-2550 IntegerBitString.set *)
Definition intbits_encode (value : Z) : res bytes :=
  if value <? 0 then Err ValueError
  else do b <- int_to_bytes value true None; Ok (0 :: b).

(* core.py:2552-2567 IntegerBitString.native *)
Definition intbits_decode (contents : bytes) : res Z :=
  do (v, _, _) <- bit_chunk contents; Ok v.

(* core.py:2661-2713 IntegerOctetString.set with _encoded_width, and native *)
Definition intoctets_encode (width : option Z) (value : Z) : res bytes :=
  if value <? 0 then Err ValueError else int_to_bytes value false width.
Definition intoctets_decode (contents : bytes) : Z := int_from_bytes contents false.

(* core.py:2941-2956 ParsableOctetBitString._as_chunk *)
Definition parsablebits_chunk (contents : bytes) : res bytes :=
  match contents with
  | [] => Err IndexError
  | unused :: body => if unused =? 0 then Ok body else Err ValueError
  end.
