(* Model of the key structures of /repo/asn1crypto/keys.py around the key itself: which
   type the key is read as (PublicKeyInfo, PrivateKeyInfo: a field whose type is found by
   a callback, /repo/asn1crypto/core.py:3738-4015), and the sizes they report.

   Simplifications: the fields of a structure are given as the parts the parser finds in
   its contents; building a part is a function, so that a part that was built is not
   told apart from one that was not (C59); the optional field is never a Choice. *)
Require Import Verif.Base Verif.Text Verif.MapModel Verif.KeyModel.
Require Coq.Strings.String.
Import Coq.Strings.String.StringSyntax.

(* ---- the parts of a structure ---- *)
(* one value: class, tag, encoding *)
Record part := P { p_class : Z; p_tag : Z; p_octets : bytes }.
(* what repeated calls of _parse find: parts up to the end or up to an error *)
Inductive stream := End | Bad | Part (p : part) (rest : stream).

(* a field: its type, or the callback that reads the algorithm in field number [dep] and
   looks its name up; for an optional field its class and tag *)
Inductive fspec := Fixed (s : text) | ByAlgorithm (dep : nat) (table : list (text * text)).
Record field := F { f_spec : fspec; f_optional : option (Z * Z) }.

(* an element of children: VOID or a part with the type it is to be built as; parts
   beyond the fields have none *)
Inductive child := Void | Child (p : part) (s : option text).

Record info := I { i_stream : stream; i_octets : bytes; i_children : option (list child) }.
Definition loaded_info (s : stream) (b : bytes) : info := I s b None.

(* ValueError and its subclass, TypeError: what _parse_children catches *)
Definition caught (e : exn) : bool :=
  match e with ValueError | UnicodeError | TypeError => true | _ => false end.

Section Info.
  Variable V : Type.
  Variable fields : list field.
  Variable build : option text -> part -> res V.              (* _build *)
  Variable algorithm_of : V -> res text.                      (* ['algorithm'].native of an algorithm *)
  Variable absent : V.                                        (* VOID *)
  Variable encode : V -> res bytes.                           (* dump(force=True) *)

  (* core.py:3497-3505 _lazy_child *)
  Definition nth_child (cs : list child) (i : nat) : res V :=
    match nth_error cs i with
    | None => Err IndexError
    | Some Void => Ok absent
    | Some (Child p s) => build s p
    end.

  (* core.py:3738-3776 _determine_spec; keys.py:720-733, 1083-1100: the callbacks index a
     dict with the name *)
  Definition determine (f : field) (cs : list child) : res text :=
    match f_spec f with
    | Fixed s => Ok s
    | ByAlgorithm dep table =>
        do v <- nth_child cs dep;
        do n <- algorithm_of v;
        match dget eqb_text table n with Some s => Ok s | None => Err KeyError end
    end.

  (* core.py:3993-4008 *)
  Fixpoint missing (fs : list field) (cs : list child) : list child * res unit :=
    match fs with
    | [] => (cs, Ok tt)
    | f :: fs => match f_optional f with
                 | Some _ => missing fs (cs ++ [Void])
                 | None => (cs, Err ValueError)
                 end
    end.
  (* core.py:3983-3984: parts beyond the fields; the branch before it cannot be reached *)
  Fixpoint extra (st : stream) (cs : list child) : list child * res unit :=
    match st with
    | End => (cs, Ok tt)
    | Bad => (cs, Err ValueError)
    | Part p st => extra st (cs ++ [Child p None])
    end.
  (* core.py:3907-3991 *)
  Fixpoint fill (fs : list field) (st : stream) (cs : list child) : list child * res unit :=
    match fs with
    | [] => extra st cs
    | f :: fs' =>
        match st with
        | End => missing fs cs
        | Bad => (cs, Err ValueError)
        | Part p st' =>
            match determine f cs with
            | Err e => (cs, Err e)
            | Ok s =>
                match f_optional f with
                | Some (c, t) => if (c =? p_class p) && (t =? p_tag p) then fill fs' st' (cs ++ [Child p (Some s)])
                                 else fill fs' st (cs ++ [Void])
                | None => fill fs' st' (cs ++ [Child p (Some s)])
                end
            end
        end
    end.

  (* core.py:3881-4015 _parse_children; the children are dropped for errors that are caught *)
  Definition parse_children (i : info) : info * res unit :=
    match fill fields (i_stream i) [] with
    | (cs, Ok tt) => (I (i_stream i) (i_octets i) (Some cs), Ok tt)
    | (cs, Err e) => (I (i_stream i) (i_octets i) (if caught e then None else Some cs), Err e)
    end.
  Definition children (i : info) : info * res (list child) :=
    match i_children i with
    | Some cs => (i, Ok cs)
    | None => match parse_children i with
              | (i', Ok tt) => (i', match i_children i' with Some cs => Ok cs | None => Ok [] end)
              | (i', Err e) => (i', Err e)
              end
    end.
  (* core.py:3518-3561 __getitem__ *)
  Definition get (i : info) (n : nat) : info * res V :=
    match children i with
    | (i', Ok cs) => (i', nth_child cs n)
    | (i', Err e) => (i', Err e)
    end.
  (* core.py:3507-3516 __len__ *)
  Definition size (i : info) : info * res Z :=
    match children i with
    | (i', Ok cs) => (i', Ok (len cs))
    | (i', Err e) => (i', Err e)
    end.
  (* core.py:3671-3701 _set_contents(force=True), which goes through the fields: the octets
     of the contents *)
  Fixpoint encode_all (n : nat) (todo : nat) (cs : list child) : res bytes :=
    match todo with
    | O => Ok []
    | S t => do v <- nth_child cs n;
             do b <- encode v;
             do r <- encode_all (S n) t cs;
             Ok (b ++ r)
    end.
  (* core.py:4150-4161: are the fields there *)
  Fixpoint all_there (n : nat) (fs : list field) (cs : list child) : res unit :=
    match fs with
    | [] => Ok tt
    | f :: fs => match nth_error cs n with
                 | None => Err IndexError
                 | Some Void => match f_optional f with
                                | Some _ => all_there (S n) fs cs
                                | None => Err ValueError
                                end
                 | Some _ => all_there (S n) fs cs
                 end
    end.
  (* core.py:4126-4163 dump(), of a definite length *)
  Definition dump_info (i : info) (force : bool) : info * res bytes :=
    match (if force then match children i with
                         | (i, Ok cs) => match encode_all 0 (length fields) cs with
                                         | Ok b => (I (i_stream i) b (i_children i), Ok tt)
                                         | Err e => (i, Err e)
                                         end
                         | (i, Err e) => (i, Err e)
                         end
           else (i, Ok tt)) with
    | (i, Err e) => (i, Err e)
    | (i, Ok tt) => (i, do _ <- match i_children i with Some cs => all_there 0 fields cs | None => Ok tt end;
                        Ok (i_octets i))
    end.

  Inductive look := Get (n : nat) | Size | Dumped.
  Definition looked (i : info) (l : look) : info :=
    match l with Get n => fst (get i n) | Size => fst (size i) | Dumped => fst (dump_info i false) end.
  Definition looks (i : info) (l : list look) : info := fold_left looked l i.
End Info.

(* keys.py:1078-1100 PublicKeyInfo *)
Definition public_specs : list (text * text) :=
  [(tx "rsa", tx "RSAPublicKey"); (tx "rsaes_oaep", tx "RSAPublicKey"); (tx "rsassa_pss", tx "RSAPublicKey");
   (tx "dsa", tx "Integer"); (tx "ec", tx "ECPointBitString"); (tx "dh", tx "Integer");
   (tx "x25519", tx "OctetBitString"); (tx "x448", tx "OctetBitString");
   (tx "ed25519", tx "OctetBitString"); (tx "ed448", tx "OctetBitString")].
Definition public_fields : list field :=
  [F (Fixed (tx "PublicKeyAlgorithm")) None; F (ByAlgorithm 0 public_specs) None].
(* keys.py:713-733 PrivateKeyInfo *)
Definition private_specs : list (text * text) :=
  [(tx "rsa", tx "RSAPrivateKey"); (tx "rsassa_pss", tx "RSAPrivateKey"); (tx "dsa", tx "Integer");
   (tx "ec", tx "ECPrivateKey"); (tx "x25519", tx "OctetString"); (tx "x448", tx "OctetString");
   (tx "ed25519", tx "OctetString"); (tx "ed448", tx "OctetString")].
Definition private_fields : list field :=
  [F (Fixed (tx "Integer")) None; F (Fixed (tx "PrivateKeyAlgorithm")) None; F (ByAlgorithm 1 private_specs) None;
   F (Fixed (tx "Attributes")) (Some (2, 0))].

(* ---- sizes ---- *)
(* the parameters and the key as the accessors see them *)
Inductive kparams := NoParams | Dsa (p q : Z) | Curve (d : dom) | OtherParams.
Inductive kkey := Rsa (modulus : Z) | EcPrivate (z : Z) | Point (b : bytes) | OtherKey.
(* a PublicKeyInfo or PrivateKeyInfo with _algorithm and _bit_size *)
Record keyinfo := KI {
  q_name : text; q_params : kparams; q_key : kkey; q_algorithm : option text; q_bits : option Z }.
Definition new_info (n : text) (p : kparams) (k : kkey) : keyinfo := KI n p k None None.

(* keys.py:904-913, 1233-1242 algorithm *)
Definition algorithm (k : keyinfo) : keyinfo * text :=
  match q_algorithm k with
  | Some n => (k, n)
  | None => (KI (q_name k) (q_params k) (q_key k) (Some (q_name k)) (q_bits k), q_name k)
  end.

(* keys.py:631-641 q_byte_size; the contents of the Integer q *)
Definition q_byte_size (contents : bytes) : Z :=
  if eqb_bytes (slice contents 0 1) [0] then len (slice contents 1 (len contents)) else len contents.

(* what an object without the item answers: Void, Null and OctetString are no containers *)
Definition modulus_of (k : kkey) : res Z := match k with Rsa n => Ok n | _ => Err TypeError end.
Definition p_of (p : kparams) : res Z := match p with Dsa p _ => Ok p | _ => Err TypeError end.
Definition q_of (p : kparams) : res Z := match p with Dsa _ q => Ok q | _ => Err TypeError end.
Definition private_of (k : kkey) : res Z := match k with EcPrivate z => Ok z | _ => Err TypeError end.
Definition point_of (k : kkey) : res bytes := match k with Point b => Ok b | _ => Err TypeError end.

(* keys.py:928-932, 1258-1262: up to a whole number of octets *)
Definition whole (n : Z) : Z := if n mod 8 =? 0 then n else n + (8 - n mod 8).

Section Sizes.
  (* int(math.ceil(math.log(x, 2))) and math.log(x, 2) / 8 <= 20, of the rounded x *)
  Variable clog : Z -> Z.
  Variable log_small : Z -> bool.
  Definition log_bits (x : Z) : res Z := if x <=? 0 then Err ValueError else Ok (clog (to_double x)).

  Definition is_name (n : text) (s : String.string) : bool := eqb_text n (tx s).
  (* keys.py:915-933 PrivateKeyInfo.bit_size; [prime] is not bound for other algorithms *)
  Definition private_bits (k : keyinfo) : keyinfo * res Z :=
    match q_bits k with
    | Some n => (k, Ok n)
    | None =>
        let '(k, n) := algorithm k in
        match (do prime <- (if is_name n "rsa" || is_name n "rsassa_pss" then modulus_of (q_key k)
                            else if is_name n "dsa" then p_of (q_params k)
                            else if is_name n "ec" then private_of (q_key k)
                            else Err NameError);
               log_bits prime) with
        | Ok b => (KI (q_name k) (q_params k) (q_key k) (q_algorithm k) (Some (whole b)), Ok (whole b))
        | Err e => (k, Err e)
        end
    end.
  (* keys.py:1244-1264 PublicKeyInfo.bit_size *)
  Definition public_bits (k : keyinfo) : keyinfo * res Z :=
    match q_bits k with
    | Some n => (k, Ok n)
    | None =>
        let '(k, n) := algorithm k in
        match (if is_name n "ec" then do b <- point_of (q_key k); Ok (4 * (len b - 1))
               else do prime <- (if is_name n "rsa" || is_name n "rsassa_pss" then modulus_of (q_key k)
                                 else if is_name n "dsa" then p_of (q_params k)
                                 else Err NameError);
                    do b <- log_bits prime;
                    Ok (whole b)) with
        | Ok b => (KI (q_name k) (q_params k) (q_key k) (q_algorithm k) (Some b), Ok b)
        | Err e => (k, Err e)
        end
    end.
  (* keys.py:935-942, 1266-1273: int(math.ceil(bit_size / 8)) *)
  Definition to_octets (r : keyinfo * res Z) : keyinfo * res Z :=
    (fst r, do b <- snd r; Ok ((b + 7) / 8)).

  (* keys.py:878-902 PrivateKeyInfo.hash_algo *)
  Definition hash_of (q : Z) : res text :=
    if q <=? 0 then Err ValueError else Ok (if log_small (to_double q) then tx "sha1" else tx "sha2").
  Definition private_hash (k : keyinfo) : keyinfo * res (option text) :=
    let '(k, n) := algorithm k in
    (k, if is_name n "dsa" then do q <- q_of (q_params k); do h <- hash_of q; Ok (Some h) else Err ValueError).
  (* keys.py:1202-1231 PublicKeyInfo.hash_algo *)
  Definition public_hash (k : keyinfo) : keyinfo * res (option text) :=
    let '(k, n) := algorithm k in
    (k, if is_name n "dsa" then
          match q_params k with
          | NoParams => Ok None
          | p => do q <- q_of p; do h <- hash_of q; Ok (Some h)
          end
        else Err ValueError).
End Sizes.

(* keys.py:844-876, 1168-1200 curve; the native value of explicit parameters is not modelled *)
Definition curve (k : keyinfo) : keyinfo * res dom :=
  let '(k, n) := algorithm k in
  (k, if is_name n "ec" then match q_params k with Curve d => Ok d | _ => Err AttributeError end else Err ValueError).

(* the fields assigned by name or by index; the caches are not touched (core.py:3563-3616) *)
Definition assign (k : keyinfo) (n : text) (p : kparams) (x : kkey) : keyinfo := KI n p x (q_algorithm k) (q_bits k).
