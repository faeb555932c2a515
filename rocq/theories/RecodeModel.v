(* Model of cls.load(data).dump(force=True) for classes that refer to one another and choose the
   class of a field while reading: the octets that dump(force=True) makes of what _build
   (/repo/asn1crypto/core.py 5438-5668) makes of an encoding.  See ReadModel.v for the classes.

   Simplifications: nothing is asked of the object in between; an absent field with a default
   writes nothing (the object made from the default is encoded with force and compared to
   the encoding of another one made from it); errors may be raised in another order. *)
Require Import Verif.Base Verif.IntModel Verif.ParserModel Verif.Text Verif.PrimModel Verif.ContModel Verif.ParsModel Verif.GenModel Verif.ReadModel.

Section Recode.
Variable env : ref -> option rclass.
Variable pad : bool.
(* set(native) of a class with methods of its own: the new contents, from the octets read *)
Variable redo : ref -> option (bytes -> res bytes).
(* dump() of the object made from a default *)
Variable default_of : rfield -> option bytes.
(* the class Sequence itself *)
Variable untouched : ref -> bool.

(* ---- Any: 1007-1023, and 5612-5628 for what parse() builds under an explicit tag ---- *)
Definition rewrapped (ex : list (Z * Z)) (i : info) (o : gobj) : gobj :=
  let t' t := Tagging (t_class t) (t_tag t) (t_implicit t) ex in
  let e' e := Enc (e_method e) (option_map (fun h => i_header i ++ h) (e_header e)) (e_contents e) (e_trailer e ++ i_trailer i) (e_indef e) in
  match o with
  | OPrim k c p => OPrim k c (Obj (t' (o_tagging p)) (e' (o_enc p)) (o_cache p) (o_width p))
  | ONode w t e ch nat => ONode w (t' t) (e' e) ch nat
  end.
Definition gen_dump (i : info) : res bytes := do o <- gbuild pad i; snd (gdump pad true o).
Definition any_dump (c : pcls) (p : params) (i : info) : res bytes :=
  do (j, _, hd, tl) <- stripped c p i;
  do t <- init_tagging c p;
  let d := hd ++ i_contents j ++ tl in
  do (i', _) <- parse_ d (len d) 0;
  match t_explicit t with
  | [] => gen_dump i'
  | ex => do j' <- unwrapped ex i'; do o <- gbuild pad j'; snd (gdump pad true (rewrapped ex i' o))
  end.

(* ---- primitive values: 1717-1738, 632-663 ---- *)
Definition prim_dump (k : kind) (c : pcls) (own : option (bytes -> res bytes)) (p : params) (i : info) : res bytes :=
  do o <- build k c p i;
  match own with
  | None => snd (dump k c o true)
  | Some f =>
      do v <- snd (get_native k c o);
      match v with
      | NBytes b => do x <- f b; Ok (full_header (o_tagging o) 0 x ++ x)
      | NNone => do x <- f []; Ok (full_header (o_tagging o) 0 x ++ x)
      | _ => Err TypeError
      end
  end.
(* 2880-2905 the parsable strings, given the octets to write *)
Definition string_dump (bits : bool) (c : pcls) (p : params) (b : bytes) : res bytes :=
  do t <- init_tagging c p;
  let x := (if bits then [0] else []) ++ b in Ok (full_header t 0 x ++ x).
Definition node_octets (c : pcls) (p : params) (x : bytes) : res bytes :=
  do t <- init_tagging c p; Ok (full_header t 1 x ++ x).

Section One.
  Variable rd : ref -> params -> option ref -> info -> res aval.
  Variable dmp : ref -> params -> option ref -> info -> res bytes.

  (* 3497-3505, 3690-3693 *)
  Definition field_dump (f : rfield) (pk : pick) (i : info) : res bytes :=
    match pk, g_class f with
    | Keep, Some r => dmp r (g_params f) None i
    | As r, _ => dmp r (g_params f) None i
    | Inside r, Some k => dmp k (g_params f) (Some r) i
    | _, None => gen_dump i
    end.
  (* 3686-3701 *)
  Definition part_dump (f : rfield) (pk : pick) (x : option info) : res bytes :=
    match x with
    | None => Ok []
    | Some i =>
        do d <- field_dump f pk i;
        Ok (match default_of f with Some w => if eqb_bytes w d then [] else d | None => d end)
    end.
  (* 3673-3709 Sequence._set_contents: elements after the last field are left out *)
  Fixpoint parts (fs : list rfield) (at_ : option nat) (pk : pick) (xs : list (option info)) : res (list bytes) :=
    match fs, xs with
    | f :: fr, x :: xr =>
        do d <- part_dump f (match at_ with Some O => pk | _ => Keep end) x;
        do r <- parts fr (match at_ with Some (S n) => Some n | _ => None end) pk xr;
        Ok (d :: r)
    | _, _ => Ok []
    end.
  Definition seq_contents (fs : list rfield) (sel : option selector) (cont : bytes) : res bytes :=
    do xs <- assign env (S (2 * length cont + length fs)) cont fs None 0;
    do pk <- chosen_pick pad rd fs sel xs;
    do l <- parts fs (option_map s_field sel) pk xs;
    Ok (concat l).
  (* 4474-4491 SequenceOf._set_contents, 4817-4838 SetOf._set_contents *)
  Definition of_contents (sorted : bool) (item : option ref) (cont : bytes) : res bytes :=
    do l <- kids_loop (fun i => match item with Some r => dmp r no_params None i | None => gen_dump i end) (S (length cont)) cont 0;
    Ok (concat (if sorted then sort_bytes l else l)).

  (* 1340-1362 Choice.dump; see choice_native *)
  Definition choice_dump (c : pcls) (alts : list rfield) (fix_at : option nat) (p : params) (i : info) : res bytes :=
    do _ <- match p_implicit p with Some _ => Err ValueError | None => Ok tt end;
    do t <- init_tagging c p;
    do (j, _, _, _) <- stripped c p i;
    match alt_at env alts 0 (i_class j) (i_tag j) with
    | None => Err ValueError
    | Some k0 =>
        do k <- recheck pad fix_at k0 (i_contents j);
        match nth_error alts k with
        | None => Err IndexError
        | Some f =>
            let d := i_header j ++ i_contents j in
            do (j', _) <- parse_ d (len d) 0;
            do w <- field_dump f Keep j';
            Ok (wrap (t_explicit t) [] w ++ w)
        end
    end.
End One.

Fixpoint redump (fuel : nat) (r : ref) (p : params) (inside : option ref) (i : info) : res bytes :=
  match fuel with
  | O => Err OutOfFuel
  | S n =>
      match env r with
      | None => Err OutOfFuel
      | Some k =>
          let c := r_cls k in
          match r_def k, inside with
          | DPrim kd, None => prim_dump kd c (redo r) p i
          | DAny, None => any_dump c p i
          | DParse bits, None => do b <- octets_in bits c p i; string_dump bits c p b
          | DParse bits, Some r' =>
              do b <- octets_in bits c p i;
              do (j, _) <- parse_ b (len b) 0;
              do w <- redump n r' no_params None j;
              string_dump bits c p w
          | DSeq fs sel, None =>
              if untouched r then                                       (* 4142-4147 *)
                do (j, _, hd, tl) <- stripped c p i;
                do x <- opened c p i;
                if ends_80 (Some hd) then node_octets c p x else Ok (hd ++ i_contents j ++ tl)
              else do x <- opened c p i; do y <- seq_contents (read env pad n) (redump n) fs sel x; node_octets c p y
          | DOf item, None => do x <- opened c p i; do y <- of_contents (redump n) (k_tag c =? 17) item x; node_octets c p y
          | DChoice alts fix_at, None => choice_dump (redump n) c alts fix_at p i
          | _, Some _ => Err AttributeError
          end
      end
  end.

(* cls.load(data, strict).dump(force=True) *)
Definition recode (fuel : nat) (r : ref) (data : bytes) (strict : bool) : res bytes :=
  do (i, e) <- parse_ data (len data) 0;
  if strict && negb (e =? len data) then Err ValueError else redump fuel r no_params None i.
End Recode.
