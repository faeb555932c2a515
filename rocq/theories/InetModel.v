(* Model of /repo/asn1crypto/_inet.py (the replacements for socket.inet_ntop and
   socket.inet_pton on Windows, util.py:27-31) and of x509.IPAddress
   (/repo/asn1crypto/x509.py:294-416).  Type checks on arguments are the Coq types; the
   address family is the choice of the function. *)
Require Import Verif.Base Verif.Text Verif.IntModel.

(* hex(n)[2:] for n >= 0 *)
Definition hex_digit (d : Z) : Z := if d <? 10 then 48 + d else 87 + d.
Fixpoint hex_loop (fuel : nat) (n : Z) (acc : text) : text :=
  match fuel with
  | O => acc
  | S f =>
      let acc := hex_digit (n mod 16) :: acc in
      if n / 16 =? 0 then acc else hex_loop f (n / 16) acc
  end.
Definition hex (n : Z) : text := hex_loop (S (Z.to_nat (Z.log2 n))) n [].

(* int(s, 16); white space and digits outside ASCII are left out *)
Definition hex_val (c : Z) : option Z :=
  if (48 <=? c) && (c <=? 57) then Some (c - 48)
  else if (97 <=? c) && (c <=? 102) then Some (c - 87)
  else if (65 <=? c) && (c <=? 70) then Some (c - 55)
  else None.
Fixpoint hex_body (s : text) (acc : Z) (after : bool) : option Z :=
  match s with
  | [] => if after then Some acc else None
  | c :: r =>
      match hex_val c with
      | Some d => hex_body r (acc * 16 + d) true
      | None => if (c =? 95) && after then hex_body r acc false else None
      end
  end.
Definition hex_prefixed (s : text) : option Z :=
  match s with
  | 48 :: x :: r =>
      if (x =? 120) || (x =? 88) then
        match r with
        | y :: r' => if y =? 95 then hex_body r' 0 false else hex_body r 0 false
        | [] => None
        end
      else hex_body s 0 false
  | _ => hex_body s 0 false
  end.
Definition py_int16 (s : text) : res Z :=
  let s := strip s in
  match (match s with
         | 45 :: r => option_map Z.opp (hex_prefixed r)
         | 43 :: r => hex_prefixed r
         | _ => hex_prefixed s
         end) with
  | Some n => Ok n
  | None => Err ValueError
  end.

(* _inet.py:55-56 inet_ntop for AF_INET *)
Definition ntop4 (p : bytes) : res text :=
  if len p =? 4 then Ok (join_with 46 (map dec p)) else Err ValueError.

(* struct.unpack('!HHHHHHHH'), struct.pack('!HHHHHHHH') *)
Fixpoint groups (p : bytes) : list Z :=
  match p with a :: b :: r => a * 256 + b :: groups r | _ => [] end.
Definition ungroups (l : list Z) : bytes := concat (map (fun n => [n / 256; n mod 256]) l).

(* _inet.py:60-72: the loop over the groups and a final -1; runs is runs_of_zero *)
Fixpoint runs_loop (l : list Z) (i : Z) (runs : list (Z * Z)) (longest : Z) (zero : option Z) : list (Z * Z) * Z :=
  match l with
  | [] => (runs, longest)
  | g :: r =>
      if negb (g =? 0) then
        match zero with
        | Some z =>
            let n := i - z in
            let runs := if existsb (fun kv => fst kv =? n) runs then runs else runs ++ [(n, z)] in
            runs_loop r (i + 1) runs (Z.max longest n) None
        | None => runs_loop r (i + 1) runs longest None
        end
      else runs_loop r (i + 1) runs longest (match zero with None => Some i | _ => zero end)
  end.
Fixpoint run_get (runs : list (Z * Z)) (n : Z) : option Z :=
  match runs with [] => None | (k, z) :: r => if k =? n then Some z else run_get r n end.

(* _inet.py:58-82 inet_ntop for AF_INET6 *)
Definition ntop6 (p : bytes) : res text :=
  if negb (len p =? 16) then Err ValueError
  else
    let g := groups p in
    let '(runs, longest) := runs_loop (g ++ [-1]) 0 [] 0 None in
    let hexed := map hex g in
    if longest <? 2 then Ok (join_with 58 hexed)
    else
      match run_get runs longest with
      | None => Err KeyError
      | Some z => Ok (join_with 58 (slice hexed 0 z) ++ [58; 58] ++ join_with 58 (slice hexed (z + longest) (len hexed)))
      end.

(* _inet.py:117-138: the octets; the first one out of range ends the loop *)
Fixpoint octets4 (l : list text) : res bytes :=
  match l with
  | [] => Ok []
  | o :: r => do n <- py_int o; if (255 <? n) || (n <? 0) then Err ValueError else do ns <- octets4 r; Ok (n :: ns)
  end.
Definition pton4 (s : text) : res bytes :=
  let o := split_on 46 s in
  if len o =? 4 then octets4 o else Err ValueError.

(* s.count('::') and s.split('::') *)
Fixpoint count2 (s : text) : Z :=
  match s with
  | a :: r => match r with
              | b :: r' => if (a =? 58) && (b =? 58) then 1 + count2 r' else count2 r
              | [] => 0
              end
  | [] => 0
  end.
Fixpoint split2 (s : text) : text * text :=
  match s with
  | a :: r => match r with
              | b :: r' => if (a =? 58) && (b =? 58) then ([], r') else let '(x, y) := split2 r in (a :: x, y)
              | [] => ([a], [])
              end
  | [] => ([], [])
  end.
(* _inet.py:154-162: int() of each part; a value out of range ends the loop, and
   struct.pack is then given too few numbers, as when the number of parts is not eight *)
Fixpoint ints6 (l : list text) : res (list Z) :=
  match l with
  | [] => Ok []
  | o :: r => do n <- py_int16 o; if (65535 <? n) || (n <? 0) then Ok [] else do ns <- ints6 r; Ok (n :: ns)
  end.
(* _inet.py:140-170 *)
Definition pton6 (s : text) : res bytes :=
  let c := count2 s in
  if 1 <? c then Err ValueError
  else
    do octets <- (if c =? 0 then
                    let o := split_on 58 s in if len o =? 8 then Ok o else Err ValueError
                  else
                    let '(b, e) := split2 s in
                    let bo := split_on 58 b in
                    let eo := split_on 58 e in
                    Ok (bo ++ repeat [48] (Z.to_nat (8 - len bo - len eo)) ++ eo));
    do ns <- ints6 octets;
    if len ns =? 8 then Ok (ungroups ns) else Err StructError.

(* ---- x509.IPAddress; the two functions of the platform are arguments ---- *)
Section IP.
  Variable pton : bool -> text -> res bytes.   (* true: AF_INET6 *)
  Variable ntop : bool -> bytes -> res text.

  (* value.split('/', 1) *)
  Fixpoint split_slash (s : text) : text * option text :=
    match s with
    | [] => ([], None)
    | c :: r => if c =? 47 then ([], Some r) else let '(a, b) := split_slash r in (c :: a, b)
    end.
  (* int(cidr_mask, 2) of cidr ones and then zeros *)
  Definition mask_int (cidr size : Z) : Z :=
    fold_left (fun a d => a * 2 + d) (repeat 1 (Z.to_nat cidr) ++ repeat 0 (Z.to_nat (size - cidr))) 0.

  (* x509.py:305-367 set(): the contents *)
  Definition ip_set (value : text) : res bytes :=
    let '(addr, tail) := split_slash value in
    do cidr <- match tail with
               | None => Ok 0
               | Some t => do n <- py_int t; if n <? 0 then Err ValueError else Ok n
               end;
    let v6 := existsb (fun c => c =? 58) addr in
    let size := if v6 then 128 else 32 in
    if size <? cidr then Err ValueError
    else
      do mask <- match tail with
                 | None => Ok []
                 | Some _ => do b <- int_to_bytes (mask_int cidr size) false None;
                             Ok (repeat 0 (Z.to_nat (size / 8 - len b)) ++ b)
                 end;
      do a <- pton v6 addr;
      Ok (a ++ mask).

  (* '{0:b}'.format(n), n >= 0 *)
  Fixpoint bin_loop (fuel : nat) (n : Z) (acc : text) : text :=
    match fuel with
    | O => acc
    | S f => let acc := (48 + n mod 2) :: acc in if n / 2 =? 0 then acc else bin_loop f (n / 2) acc
    end.
  Definition bin (n : Z) : text := bin_loop (S (Z.to_nat (Z.log2 n))) n [].

  (* x509.py:369-399 native of an object with these contents that was not set() *)
  Definition ip_native (c : bytes) : res (option text) :=
    let n := len c in
    do (value, mask) <-
      (if (n =? 32) || (n =? 16) then
         do v <- ntop true (slice c 0 16);
         Ok (Some v, if 16 <? n then Some (int_from_bytes (slice c 16 n) false) else None)
       else if (n =? 8) || (n =? 4) then
         do v <- ntop false (slice c 0 4);
         Ok (Some v, if 4 <? n then Some (int_from_bytes (slice c 4 n) false) else None)
       else Ok (None, None));
    Ok (match value, mask with
        | Some v, Some m => Some (v ++ 47 :: dec (len (rstrip_by (fun c => c =? 48) (bin m))))
        | v, _ => v
        end).

  (* the object: contents, and _native once it is known *)
  Record ip_obj := mk_ip { ip_contents : option bytes; ip_text : option text }.
  (* x509.py:354-358: _native is stored before the address is read *)
  Definition ip_store (o : ip_obj) (value : text) : ip_obj * res unit :=
    match ip_set value with
    | Ok c => (mk_ip (Some c) (Some value), Ok tt)
    | Err e =>
        let reached := match (let '(addr, tail) := split_slash value in
                              do cidr <- match tail with
                                         | None => Ok 0
                                         | Some t => do n <- py_int t; if n <? 0 then Err ValueError else Ok n
                                         end;
                              if (if existsb (fun c => c =? 58) addr then 128 else 32) <? cidr then Err ValueError else Ok tt)
                       with Ok _ => true | Err _ => false end in
        ((if reached then mk_ip (ip_contents o) (Some value) else o), Err e)
    end.
  (* x509.py:369-399 *)
  Definition ip_read (o : ip_obj) : ip_obj * res (option text) :=
    match ip_contents o with
    | None => (o, Ok None)
    | Some c =>
        match ip_text o with
        | Some t => (o, Ok (Some t))
        | None => match ip_native c with
                  | Ok t => (mk_ip (Some c) t, Ok t)
                  | Err e => (o, Err e)
                  end
        end
    end.
End IP.

(* with the functions of _inet.py *)
Definition shim_pton (v6 : bool) : text -> res bytes := if v6 then pton6 else pton4.
Definition shim_ntop (v6 : bool) : bytes -> res text := if v6 then ntop6 else ntop4.
