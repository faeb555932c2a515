(* Model of the contents codec of ObjectIdentifier,
   /repo/asn1crypto/core.py:2990-3212. *)
Require Import Verif.Base Verif.IntModel Verif.Text.

(* core.py:3137-3141: "while part > 0: encoded = chr(0x80 | (0x7F & part)) + encoded" *)
Fixpoint oid_arc_loop (fuel : nat) (part : Z) (encoded : bytes) : bytes :=
  match fuel with
  | O => encoded
  | S f =>
      if 0 <? part then
        oid_arc_loop f (Z.shiftr part 7) (Z.lor 128 (Z.land 127 part) :: encoded)
      else encoded
  end.

(* core.py:3136-3141, one sub-identifier; the fuel bounds the number of shifts *)
Definition oid_arc (part : Z) : bytes :=
  oid_arc_loop (Z.to_nat (bit_length part)) (Z.shiftr part 7) [Z.land 127 part].

(* core.py:3112-3142, the loop over value.split('.').  The second component is
   the exception that ended it early, the first the value self.contents has then. *)
Fixpoint oid_parts (parts : list text) (index : Z) (first : Z) (contents : bytes)
  : bytes * option exn :=
  match parts with
  | [] => (contents, None)
  | p :: ps =>
      match py_int p with
      | Err e => (contents, Some e)
      | Ok part =>
          if index =? 0 then oid_parts ps (index + 1) part contents
          else if index =? 1 then
            if 2 <? first then (contents, Some ValueError)
            else if (first <? 2) && (40 <=? part) then (contents, Some ValueError)
            else oid_parts ps (index + 1) first (contents ++ oid_arc (first * 40 + part))
          else oid_parts ps (index + 1) first (contents ++ oid_arc part)
      end
  end.

Definition oid_set_parts (value : text) : bytes * option exn :=
  oid_parts (split_on 46 value) 0 0 [].

(* core.py:3085-3148 set(), the contents it stores for a dotted text *)
Definition oid_encode (value : text) : res bytes :=
  match oid_set_parts value with
  | (c, None) => Ok c
  | (_, Some e) => Err e
  end.

(* core.py:3167-3190, the loop of .dotted *)
Fixpoint dotted_loop (contents : bytes) (part : Z) (output : list text) : list text :=
  match contents with
  | [] => output
  | byte :: r =>
      let part := part * 128 + Z.land byte 127 in
      if Z.land byte 128 =? 0 then
        dotted_loop r 0
          (output ++
           (match output with
            | [] => if 80 <=? part then [dec 2; dec (part - 80)]
                    else if 40 <=? part then [dec 1; dec (part - 40)]
                    else [dec 0; dec part]
            | _ => [dec part]
            end))
      else dotted_loop r part output
  end.

(* core.py:3158-3192 dotted *)
Definition oid_dotted (contents : bytes) : text := join_with 46 (dotted_loop contents 0 []).
