(* Model of /repo/asn1crypto/keys.py:127-206 (_ECPoint, ECPoint, ECPointBitString) and of
   /repo/asn1crypto/algos.py:690-747 (DSASignature). *)
Require Import Verif.Base Verif.Text Verif.IntModel Verif.PrimModel Verif.ContModel Verif.ContPath.

(* int(math.ceil(math.log(x, 2) / 8.0)) is a floating point computation, so it is an
   argument of the model: any function of x.  The logarithm of zero and of negative
   numbers is a ValueError. *)
Section Points.
  Variable octets_of : Z -> Z.
  Definition log_octets (x : Z) : res Z := if x <=? 0 then Err ValueError else Ok (octets_of x).

  (* keys.py:136-160 from_coords; k is KOctets for ECPoint, KOctetBits for ECPointBitString *)
  Definition from_coords (k : kind) (c : pcls) (x y : Z) : res obj :=
    do x_bytes <- log_octets x;
    do y_bytes <- log_octets y;
    let num_bytes := Z.max x_bytes y_bytes in
    do a <- int_to_bytes x false (Some num_bytes);
    do b <- int_to_bytes y false (Some num_bytes);
    make k c no_params (NBytes (4 :: a ++ b)).
End Points.

(* keys.py:162-193 to_coords; len(remaining) // 2 *)
Definition to_coords (k : kind) (c : pcls) (o : obj) : obj * res (Z * Z) :=
  match get_native k c o with
  | (o', Ok (NBytes data)) =>
      (o', if eqb_bytes (slice data 0 1) [4] then
             let remaining := slice data 1 (len data) in
             let field_len := len remaining / 2 in
             Ok (int_from_bytes (slice remaining 0 field_len) false,
                 int_from_bytes (slice remaining field_len (len remaining)) false)
           else Err ValueError)
  | (o', Ok _) => (o', Err TypeError)
  | (o', Err e) => (o', Err e)
  end.

(* algos.py:700-703; Integer, Sequence *)
Definition DSA : spec :=
  SSeq (Cls 0 16 [] []) [(Fld (tx "r") no_params Required, SPrim (KInt []) (Cls 0 2 [] []));
                         (Fld (tx "s") no_params Required, SPrim (KInt []) (Cls 0 2 [] []))].

(* algos.py:705-720 *)
Definition from_p1363 (data : bytes) : res value :=
  let r := int_from_bytes (slice data 0 (len data / 2)) false in
  let s := int_from_bytes (slice data (len data / 2) (len data)) false in
  x_make (methods DSA) no_params None (ADict [(tx "r", APrim (NInt r)); (tx "s", APrim (NInt s))]).

(* self[i].native, an integer *)
Definition read_int (i : nat) (v : value) : value * res Z :=
  match through [i] ARead DSA v with
  | (v', Ok (RNat (APrim (NInt z)))) => (v', Ok z)
  | (v', Ok _) => (v', Err TypeError)
  | (v', Err e) => (v', Err e)
  end.
(* algos.py:722-747 *)
Definition to_p1363 (v : value) (width : option Z) : value * res bytes :=
  let '(v, r) := read_int 0 v in
  match (do n <- r; int_to_bytes n false None) with
  | Err e => (v, Err e)
  | Ok r_bytes =>
      let '(v, s) := read_int 1 v in
      (v, do s_bytes <- (do n <- s; int_to_bytes n false None);
          let required := Z.max (len r_bytes) (len s_bytes) in
          do w <- match width with
                  | None => Ok required
                  | Some w => if w <? required then Err ValueError else Ok w
                  end;
          Ok (fill_width r_bytes w ++ fill_width s_bytes w))
  end.
