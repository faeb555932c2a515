(* Model of the integer <-> byte string helpers.
   /repo/asn1crypto/util.py:39-116 (Python 2) and 214-259 (Python 3),
   /repo/asn1crypto/_int.py:5-22. *)
Require Import Verif.Base.

(* int.bit_length() *)
Definition bit_length (v : Z) : Z := if v =? 0 then 0 else Z.log2 (Z.abs v) + 1.

(* The low w base-256 digits of v, most significant first (v may be negative:
   Python's two's complement). *)
Fixpoint be_digits (w : nat) (v : Z) : bytes :=
  match w with
  | O => []
  | S w' => be_digits w' (v / 256) ++ [v mod 256]
  end.

(* Python 3 int.to_bytes(width, 'big', signed=signed): documented behaviour,
   OverflowError when the value does not fit. *)
Definition py_to_bytes (v : Z) (width : Z) (signed : bool) : res bytes :=
  if width <? 0 then Err ValueError
  else if signed then
    if (if width =? 0 then v =? 0
        else (- 2 ^ (8 * width - 1) <=? v) && (v <? 2 ^ (8 * width - 1)))
    then Ok (be_digits (Z.to_nat width) v) else Err OverflowError
  else
    if (0 <=? v) && (v <? 2 ^ (8 * width)) then Ok (be_digits (Z.to_nat width) v)
    else Err OverflowError.

(* util.py:232-242, the width computed when the caller gives none.
   Simplification: math.ceil(bits / 8) is a float division in Python, exact for
   bits < 2^53. *)
Definition auto_width (v : Z) (signed : bool) : Z :=
  let bits :=
    if signed then
      let b := if v <? 0 then bit_length (Z.abs (v + 1)) else bit_length v in
      if b mod 8 =? 0 then b + 1 else b
    else bit_length v in
  let w := (bits + 7) / 8 in
  if w =? 0 then 1 else w.

(* util.py:214-243 int_to_bytes (Python 3) *)
Definition int_to_bytes (v : Z) (signed : bool) (width : option Z) : res bytes :=
  let w := match width with None => auto_width v signed | Some w => w end in
  py_to_bytes v w signed.

(* util.py:245-259 int_from_bytes (Python 3): int.from_bytes(value, 'big') *)
Definition be_fold (l : bytes) : Z := fold_left (fun a b => a * 256 + b) l 0.

Definition int_from_bytes (l : bytes) (signed : bool) : Z :=
  let n := be_fold l in
  if signed then
    match l with
    | [] => 0
    | b :: _ => if 128 <=? b then n - 2 ^ (8 * len l) else n
    end
  else n.

(* len('%x' % v) for v >= 0 *)
Definition hex_len (v : Z) : Z := if v =? 0 then 1 else Z.log2 v / 4 + 1.

(* ('%x' % v), left padded to even length, .decode('hex') : util.py:67-71 *)
Definition hex_bytes (v : Z) : bytes := be_digits (Z.to_nat ((hex_len v + 1) / 2)) v.

(* util.py:39-87 int_to_bytes (Python 2). A negative value without signed
   gives '%x' text with a minus sign, whose .decode('hex') raises TypeError. *)
Definition int_to_bytes_py2 (v : Z) (signed : bool) (width : option Z) : res bytes :=
  if (v =? 0) && (match width with Some 0 => true | _ => false end) then Ok []
  else
    let is_neg := signed && (v <? 0) in
    let v' := if is_neg then
                let bits := (hex_len (Z.abs v) + 1) / 2 * 8 in
                (v + 2 ^ bits) mod 2 ^ bits
              else v in
    if v' <? 0 then Err TypeError else
    let output := hex_bytes v' in
    let output := if signed && negb is_neg && (128 <=? hd 0 output)
                  then 0 :: output else output in
    match width with
    | Some w =>
        if w <? len output then Err OverflowError
        else Ok (repeat (if is_neg then 255 else 0) (Z.to_nat (w - len output)) ++ output)
    | None =>
        if is_neg && (hd 0 output <? 128) then Ok (255 :: output) else Ok output
    end.

(* util.py:89-116 int_from_bytes (Python 2) *)
Definition int_from_bytes_py2 (l : bytes) (signed : bool) : Z :=
  match l with
  | [] => 0
  | b :: _ =>
      let num := be_fold l in
      if negb signed then num
      else if 128 <=? b then num - 2 ^ (len l * 8) else num
  end.

(* _int.py:5-22 fill_width; the while loop prepends zero bytes until the width
   is reached, i.e. prepends max(0, width - len) zeros. *)
Fixpoint fill_loop (fuel : nat) (l : bytes) (width : Z) : bytes :=
  match fuel with
  | O => l
  | S f => if len l <? width then fill_loop f (0 :: l) width else l
  end.
Definition fill_width (l : bytes) (width : Z) : bytes :=
  fill_loop (Z.to_nat (width - len l)) l width.
