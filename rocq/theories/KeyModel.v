(* Model of the key classes of /repo/asn1crypto/keys.py: the size of a domain
   (ECDomainParameters.key_size), the private key of ECPrivateKey with the state that
   keeps its width, PrivateKeyInfo around it, and the sizes the key classes report.

   Simplifications: the version, the parameters and the public key of an ECPrivateKey are
   given by their encodings, since only the private key changes form; private keys are
   assigned as integers; encodings that were loaded have definite lengths and DER headers;
   a dump gives the contents octets, the outer header is that of C47; nothing is shared
   between objects. *)
Require Import Verif.Base Verif.IntModel Verif.Text Verif.PrimModel.

(* math.log(x, 2) of an integer: C's log is applied to x rounded to 53 significant bits,
   half to even (PyLong_AsDouble, _PyLong_Frexp), so what follows is a function of that *)
Definition round_half_even (x d : Z) : Z :=
  let q := x / d in
  let r := x mod d in
  if 2 * r <? d then q else if d <? 2 * r then q + 1 else if Z.even q then q else q + 1.
Definition to_double (x : Z) : Z :=
  let s := Z.log2 x - 52 in
  if s <=? 0 then x else round_half_even x (2 ^ s) * 2 ^ s.

(* the parameters of a key: keys.py:514-524 *)
Inductive dom := Specified (order : Z) | Named (oid : text) | ImplicitCA.

Fixpoint size_get (m : list (text * Z)) (s : text) : option Z :=
  match m with
  | [] => None
  | (a, n) :: r => if eqb_text a s then Some n else size_get r s
  end.

(* an ECPrivateKey (keys.py:562-575): the fields, _key_size, _mutated and _contents *)
Record eck := K {
  k_version : option bytes; k_private : option obj; k_params : option (dom * bytes); k_public : option bytes;
  k_size : option Z; k_mutated : bool; k_contents : option bytes }.

(* IntegerOctetString without tagging *)
Definition priv_cls : pcls := Cls 0 4 [] [].
Definition priv_tagging : tagging := Tagging 0 4 false [].

Definition new_key : eck := K None None None None None false None.
Definition with_private (k : eck) (o : obj) : eck :=
  K (k_version k) (Some o) (k_params k) (k_public k) (k_size k) (k_mutated k) (k_contents k).
Definition with_size (k : eck) (n : Z) : eck :=
  K (k_version k) (k_private k) (k_params k) (k_public k) (Some n) (k_mutated k) (k_contents k).
Definition fields_changed (k : eck) (v : option bytes) (o : option obj) (p : option (dom * bytes)) (u : option bytes) : eck :=
  K v o p u (k_size k) true (k_contents k).

(* how a field is named in key[...] = value *)
Inductive access := ByName | ByIndex.

Inductive op :=
| SetVersion (b : bytes)
| SetPrivate (w : access) (z : Z)
| SetParams (w : access) (p : option (dom * bytes))     (* None: key['parameters'] = None *)
| SetPublic (p : option bytes)
| DelParams                                          (* del key['parameters'] *)
| SetSize (n : Z)                                    (* set_key_size *)
| Dump (force : bool).

Section Key.
  (* math.ceil(math.log(order, 2.0) / 8.0) as a function of the rounded order *)
  Variable octets_of : Z -> Z.
  (* NamedCurve._key_sizes *)
  Variable sizes : list (text * Z).

  (* keys.py:525-550 ECDomainParameters.key_size *)
  Definition key_size (d : dom) : res Z :=
    match d with
    | ImplicitCA => Err ValueError
    | Specified q => if q <=? 0 then Err ValueError else Ok (octets_of (to_double q))
    | Named o => match size_get sizes o with Some n => Ok n | None => Err ValueError end
    end.

  (* keys.py:608-614 _update_key_size *)
  Definition update_size (k : eck) : eck * res unit :=
    match k_size k, k_private k with
    | Some n, Some o => let '(o', r) := set_width priv_cls o n in (with_private k o', r)
    | _, _ => (k, Ok tt)
    end.
  (* keys.py:597-606 set_key_size *)
  Definition set_key_size (k : eck) (n : Z) : eck * res unit := update_size (with_size k n).

  (* keys.py:578-595 __setitem__ for private_key *)
  Definition set_private (k : eck) (w : access) (z : Z) : eck * res unit :=
    match make KIntOctets priv_cls no_params (NInt z) with
    | Err e => (k, Err e)
    | Ok o =>
        let k := fields_changed k (k_version k) (Some o) (k_params k) (k_public k) in
        match w with
        | ByIndex => (k, Ok tt)
        | ByName =>
            match k_size k with
            | None => match contents o with
                      | Some c => if 1 <? len c then set_key_size k (len c) else (k, Ok tt)
                      | None => (k, Ok tt)
                      end
            | Some _ => update_size k
            end
        end
    end.

  (* keys.py:578-595 __setitem__ for parameters *)
  Definition set_params (k : eck) (w : access) (p : option (dom * bytes)) : eck * res unit :=
    let k := fields_changed k (k_version k) (k_private k) p (k_public k) in
    match w, p with
    | ByIndex, _ | ByName, None | ByName, Some (ImplicitCA, _) => (k, Ok tt)
    | ByName, Some (d, _) =>
        match key_size d with
        | Ok n => set_key_size k n
        | Err e => (k, Err e)
        end
    end.

  Definition some_bytes (x : option bytes) : bytes := match x with Some b => b | None => [] end.

  (* core.py:3673-3707 Sequence._set_contents for the four fields *)
  Definition set_key_contents (k : eck) (force : bool) : eck * res unit :=
    let fin k (p : bytes) :=
      (K (k_version k) (k_private k) (k_params k) (k_public k) (k_size k) false
         (Some (some_bytes (k_version k) ++ p ++ some_bytes (option_map snd (k_params k)) ++ some_bytes (k_public k))),
       Ok tt) in
    match k_private k with
    | None => fin k []
    | Some o => match dump KIntOctets priv_cls o force with
                | (o', Ok b) => fin (with_private k o') b
                | (o', Err e) => (with_private k o', Err e)
                end
    end.

  (* core.py:3458-3495 the contents property; a primitive child does not count as mutated *)
  Definition get_contents (k : eck) : eck * res bytes :=
    match (if k_mutated k then set_key_contents k false else (k, Ok tt)) with
    | (k', Ok tt) => (k', match k_contents k' with Some c => Ok c | None => Err TypeError end)
    | (k', Err e) => (k', Err e)
    end.

  (* core.py:4127-4163 Sequence.dump *)
  Definition dump_key (k : eck) (force : bool) : eck * res bytes :=
    match (if force then set_key_contents k true else (k, Ok tt)) with
    | (k', Err e) => (k', Err e)
    | (k', Ok tt) =>
        match k_version k', k_private k' with
        | Some _, Some _ => get_contents k'
        | _, _ => (k', Err ValueError)
        end
    end.

  Definition ran {A} (b : A) (x : eck * res unit) : eck * res A :=
    (fst x, match snd x with Ok tt => Ok b | Err e => Err e end).

  Definition step (k : eck) (x : op) : eck * res bytes :=
    match x with
    | SetVersion b => (fields_changed k (Some b) (k_private k) (k_params k) (k_public k), Ok [])
    | SetPrivate w z => ran [] (set_private k w z)
    | SetParams w p => ran [] (set_params k w p)
    | SetPublic p => (fields_changed k (k_version k) (k_private k) (k_params k) p, Ok [])
    | DelParams => (fields_changed k (k_version k) (k_private k) None (k_public k), Ok [])
    | SetSize n => ran [] (set_key_size k n)
    | Dump f => dump_key k f
    end.

  Fixpoint run (k : eck) (ops : list op) : res eck :=
    match ops with
    | [] => Ok k
    | x :: r => match step k x with (k', Ok _) => run k' r | (_, Err e) => Err e end
    end.

  (* a key read from an encoding whose private key has the contents c: _key_size is unset *)
  Definition loaded_private (c : bytes) : obj :=
    Obj priv_tagging (Enc 0 (Some (full_header priv_tagging 0 c)) (Some c) [] false) no_cache None.
  Definition loaded (v c : bytes) (p : option (dom * bytes)) (u : option bytes) : eck :=
    K (Some v) (Some (loaded_private c)) p u None false
      (Some (v ++ (full_header priv_tagging 0 c ++ c) ++ some_bytes (option_map snd p) ++ some_bytes u)).

  (* core.py:542-550, 4090-4108: a copy has the contents and no children, which are parsed
     again; _key_size is not copied *)
  Definition copy_key (k : eck) : res eck :=
    match get_contents k with
    | (_, Err e) => Err e
    | (k', Ok _) =>
        match k_version k', k_private k' with
        | Some v, Some o => match contents o with
                            | Some c => Ok (loaded v c (k_params k') (k_public k'))
                            | None => Err TypeError
                            end
        | _, _ => Err ValueError
        end
    end.

  (* ---- PrivateKeyInfo with an EC key: the parameters of the algorithm, the contents of
     the octet string and the object kept as its parsed value (core.py:3871-3877) ---- *)
  Record pki := PKI { p_params : dom; p_octets : bytes; p_parsed : eck }.

  (* keys.py:814-829 __setitem__, once the field is set *)
  Definition resize (x : pki) : pki * res unit :=
    match p_params x with
    | ImplicitCA => (x, Ok tt)
    | d => match key_size d with
           | Err e => (x, Err e)
           | Ok n => let '(k, r) := set_key_size (p_parsed x) n in (PKI (p_params x) (p_octets x) k, r)
           end
    end.
  (* info['private_key'] = k, or a dict from which k is made *)
  Definition pki_make (d : dom) (k : eck) : res (pki * res unit) :=
    match dump_key k false with
    | (k', Ok b) => Ok (resize (PKI d b k'))
    | (_, Err e) => Err e
    end.
  (* info['private_key_algorithm'] = {'algorithm': 'ec', 'parameters': d} *)
  Definition pki_params (x : pki) (d : dom) : pki * res unit := resize (PKI d (p_octets x) (p_parsed x)).
  (* the octets written in the octet string: ParsableOctetString.dump, core.py:2880-2904 *)
  Definition pki_dump (x : pki) (force : bool) : pki * res bytes :=
    if force then
      match dump_key (p_parsed x) true with
      | (k, Ok b) => (PKI (p_params x) b k, Ok b)
      | (k, Err e) => (PKI (p_params x) (p_octets x) k, Err e)
      end
    else (x, Ok (p_octets x)).

  (* keys.py:780-807 wrap(key, 'ec') for an ECPrivateKey object; without parameters the
     algorithm identifier refuses the absent value *)
  Definition wrap_ec (k : eck) : res (pki * res unit) :=
    do c <- copy_key k;
    match k_params c with
    | None => Err ValueError
    | Some (d, _) => pki_make d (fst (step c DelParams))
    end.
End Key.
