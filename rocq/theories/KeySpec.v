(* Specification of elliptic curve private keys: what a history of assignments makes of a
   key, and the forms SEC 1 (C.4) and RFC 5915 ask for.  Written without reference to how
   objects keep their state. *)
Require Import Verif.Base Verif.IntSpec Verif.PrimModel Verif.PrimSpec Verif.KeyModel.

(* the octets a number takes *)
Definition octets (z : Z) : Z := Z.log2 z / 8 + 1.

(* the big-endian form of z in n octets *)
Definition fixed (n z : Z) (c : bytes) : Prop := bytes_ok c /\ len c = n /\ be_value c = z.

(* an octet string with short contents: RFC 5915 keys have at most 66 octets *)
Definition octet_string (c d : bytes) : Prop := der_object (Tagging 0 4 false []) c d.

(* a key as the user sees it *)
Record abs := Abs {
  a_version : option bytes; a_value : option Z; a_width : option Z;
  a_params : option bytes; a_public : option bytes }.
Definition nothing : abs := Abs None None None None None.

Section Abs.
  (* the size of a domain *)
  Variable size : dom -> option Z.

  Definition abs_step (a : abs) (x : op) : abs :=
    match x with
    | SetVersion b => Abs (Some b) (a_value a) (a_width a) (a_params a) (a_public a)
    | SetPrivate _ z =>
        Abs (a_version a) (Some z)
            (match a_width a with
             | Some n => Some n
             | None => if 1 <? octets z then Some (octets z) else None
             end) (a_params a) (a_public a)
    | SetParams _ None => Abs (a_version a) (a_value a) (a_width a) None (a_public a)
    | SetParams _ (Some (d, b)) =>
        Abs (a_version a) (a_value a)
            (match d with ImplicitCA => a_width a | _ => size d end) (Some b) (a_public a)
    | SetPublic p => Abs (a_version a) (a_value a) (a_width a) (a_params a) p
    | DelParams => Abs (a_version a) (a_value a) (a_width a) None (a_public a)
    | SetSize n => Abs (a_version a) (a_value a) (Some n) (a_params a) (a_public a)
    | Dump _ => a
    end.
  Definition abs_run (ops : list op) : abs := fold_left abs_step ops nothing.
End Abs.

Definition by_name (x : op) : Prop :=
  match x with SetPrivate ByIndex _ | SetParams ByIndex _ => False | _ => True end.
Definition no_resize (x : op) : Prop := match x with SetSize _ => False | _ => True end.

(* the contents of the private key: the width asked for, or the fewest octets *)
Definition private_form (a : abs) (z : Z) (c : bytes) : Prop :=
  match a_width a with Some n => fixed n z c | None => der_nat z c end.

Definition opt (x : option bytes) : bytes := match x with Some b => b | None => [] end.
(* the contents of the whole key *)
Definition key_form (a : abs) (d : bytes) : Prop :=
  exists v z c p, a_version a = Some v /\ a_value a = Some z /\ private_form a z c /\ octet_string c p /\
    d = v ++ p ++ opt (a_params a) ++ opt (a_public a).

(* what math.log is given: the number rounded to 53 significant bits, to nearest *)
Definition rounded (x y : Z) : Prop :=
  exists m s, 0 <= s /\ y = m * 2 ^ s /\ 2 ^ 52 <= m <= 2 ^ 53 /\ 2 * Z.abs (x - y) <= 2 ^ s.

(* whether a value goes into the width asked for *)
Definition fits (w v : option Z) : res unit :=
  match w, v with
  | Some n, Some z => if n <? 0 then Err ValueError else if z <? 256 ^ n then Ok tt else Err OverflowError
  | _, _ => Ok tt
  end.
(* what an assignment to a key answers *)
Definition outcome (size : dom -> res Z) (a : abs) (x : op) : res unit :=
  match x with
  | SetPrivate _ z => if z <? 0 then Err ValueError else fits (a_width a) (Some z)
  | SetParams _ (Some (d, _)) =>
      match d with ImplicitCA => Ok tt | _ => do n <- size d; fits (Some n) (a_value a) end
  | SetSize n => fits (Some n) (a_value a)
  | _ => Ok tt
  end.
