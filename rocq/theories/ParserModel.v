(* Model of /repo/asn1crypto/parser.py. *)
Require Import Verif.Base Verif.IntModel.

(* parser.py:23 _MAX_DEPTH = 10.  The model counts the remaining depth:
   budget = _MAX_DEPTH + 1 - depth, so "depth > _MAX_DEPTH" is "budget = 0". *)
Definition max_budget : nat := 11.

(* The 6-tuple (class_, method, tag, header, content, trailer) of parser.py:233-242 *)
Record info := mkInfo {
  i_class : Z; i_method : Z; i_tag : Z;
  i_header : bytes; i_contents : bytes; i_trailer : bytes
}.

(* parser.py:183-193, the loop reading a multi-octet tag; returns (tag, pointer). *)
Fixpoint tag_loop (fuel : nat) (data : bytes) (data_len pointer tag : Z) : res (Z * Z) :=
  match fuel with
  | O => Err OutOfFuel
  | S f =>
      if data_len <? pointer + 1 then Err ValueError
      else
        let num := at_ data pointer in
        let pointer := pointer + 1 in
        if (num =? 128) && (tag =? 0) then Err ValueError
        else
          let tag := tag * 128 + Z.land num 127 in
          if Z.shiftr num 7 =? 0 then Ok (tag, pointer)
          else tag_loop f data data_len pointer tag
  end.

(* parser.py:172-195: identifier octets; returns (first_octet, constructed, tag, pointer). *)
Definition parse_ident (data : bytes) (data_len pointer : Z) : res (Z * Z * Z * Z) :=
  if data_len <? pointer + 1 then Err ValueError
  else
    let first_octet := at_ data pointer in
    let pointer := pointer + 1 in
    let tag := Z.land first_octet 31 in
    let constructed := Z.land (Z.shiftr first_octet 5) 1 in
    if tag =? 31 then
      do (tag, pointer) <- tag_loop (S (length data)) data data_len pointer 0;
      if tag <? 31 then Err ValueError
      else Ok (first_octet, constructed, tag, pointer)
    else Ok (first_octet, constructed, tag, pointer).

(* parser.py:222-223, the loop looking for the end-of-contents octets;
   [p] is the recursive call returning the end of one element. *)
Fixpoint eoc_loop (fuel : nat) (p : Z -> res Z) (data : bytes) (data_len contents_end : Z)
  : res Z :=
  match fuel with
  | O => Err OutOfFuel
  | S f =>
      if (data_len <? contents_end + 2)
         || negb (eqb_bytes (slice data contents_end (contents_end + 2)) [0; 0])
      then do e <- p contents_end; eoc_loop f p data data_len e
      else Ok contents_end
  end.

(* Everything _parse computes before it slices: parser.py:167-231. *)
Record parsed := mkParsed {
  p_first : Z; p_constructed : Z; p_tag : Z;
  p_pointer : Z; p_end : Z; p_trailer : bytes
}.

Fixpoint parse_core (budget : nat) (data : bytes) (data_len pointer : Z) : res parsed :=
  match budget with
  | O => Err ValueError                                     (* 167-168 *)
  | S budget' =>
      do (first_octet, constructed, tag, pointer) <- parse_ident data data_len pointer;
      if data_len <? pointer + 1 then Err ValueError       (* 197-198 *)
      else
        let length_octet := at_ data pointer in
        let pointer := pointer + 1 in
        do (pointer, contents_end, trailer) <-
          (if Z.shiftr length_octet 7 =? 0 then             (* 203-204 *)
             Ok (pointer, pointer + Z.land length_octet 127, [])
           else
             let length_octets := Z.land length_octet 127 in
             if negb (length_octets =? 0) then              (* 208-212 *)
               if data_len <? pointer + length_octets then Err ValueError
               else
                 let pointer' := pointer + length_octets in
                 Ok (pointer',
                     pointer' + int_from_bytes (slice data (pointer' - length_octets) pointer') false,
                     [])
             else if constructed =? 0 then Err ValueError   (* 219-220 *)
             else                                           (* 221-225 *)
               do e <- eoc_loop (S (length data))
                         (fun q => do r <- parse_core budget' data data_len q; Ok (p_end r))
                         data data_len pointer;
               Ok (pointer, e + 2, [0; 0]));
        if data_len <? contents_end then Err ValueError     (* 227-228 *)
        else Ok (mkParsed first_octet constructed tag pointer contents_end trailer)
  end.

(* parser.py:140-243 _parse, with the default depth; returns (info, contents_end). *)
Definition parse_ (data : bytes) (data_len start : Z) : res (info * Z) :=
  do r <- parse_core max_budget data data_len start;
  Ok (mkInfo (Z.shiftr (p_first r) 6) (p_constructed r) (p_tag r)
             (slice data start (p_pointer r))
             (slice data (p_pointer r) (p_end r - len (p_trailer r)))
             (p_trailer r),
      p_end r).

(* parser.py:75-111 parse *)
Definition parse (contents : bytes) (strict : bool) : res info :=
  do (i, consumed) <- parse_ contents (len contents) 0;
  if strict && negb (consumed =? len contents) then Err ValueError else Ok i.

(* parser.py:114-137 peek *)
Definition peek (contents : bytes) : res Z :=
  do (_, consumed) <- parse_ contents (len contents) 0; Ok consumed.

(* parser.py:273-279, the loop writing a multi-octet tag *)
Fixpoint dump_tag_loop (fuel : nat) (tag cont_bit : Z) (header : bytes) : bytes :=
  match fuel with
  | O => header
  | S f =>
      if 0 <? tag then
        dump_tag_loop f (Z.shiftr tag 7)
          (if cont_bit =? 0 then 128 else cont_bit)
          (Z.lor cont_bit (Z.land tag 127) :: header)
      else header
  end.

(* parser.py:246-292 _dump_header.  int_to_bytes of a length never fails
   (see IntProofs.int_to_bytes_unsigned_ok); chr_cls is applied to values below
   256 (shown in ParserProofs). *)
Definition dump_header (class_ method tag : Z) (contents : bytes) : bytes :=
  let id_num := Z.lor (Z.shiftl class_ 6) (Z.shiftl method 5) in
  let header :=
    if 31 <=? tag then
      Z.lor id_num 31 :: dump_tag_loop (Z.to_nat (bit_length tag)) tag 0 []
    else [Z.lor id_num tag] in
  let length := len contents in
  if length <=? 127 then header ++ [length]
  else
    let length_bytes := match int_to_bytes length false None with Ok b => b | Err _ => [] end in
    header ++ [Z.lor 128 (len length_bytes)] ++ length_bytes.

(* parser.py:26-72 emit *)
Definition emit (class_ method tag : Z) (contents : bytes) : res bytes :=
  if (class_ <? 0) || (3 <? class_) then Err ValueError
  else if (method <? 0) || (1 <? method) then Err ValueError
  else if tag <? 0 then Err ValueError
  else Ok (dump_header class_ method tag contents ++ contents).
