(* Model of the container classes of /repo/asn1crypto/core.py: Sequence (3325-4163),
   Set (4622-4806), SequenceOf (4166-4619), SetOf (4809-4840), Choice (1025-1362), and
   of _build (5438-5668) and _fix_tagging (5297-5334) for them.

   A class is a [spec].  The methods of a class are the record [ops]; they are built
   from the methods of the classes of its fields, so the recursion of the code over
   nested classes is recursion on the spec.

   Simplifications: recursive types, _oid_pair, _spec_callbacks, Any and field name
   aliases are not modelled; a field is optional or has a default, not both; explicit
   params are written as an int or a (class name, tag) pair, as everywhere in the
   library; an object handed to a container ([AObj]) is new, that is, the caller keeps
   no reference to it; an exception other than ValueError/TypeError during
   _parse_children is treated like those two; elements after the last field of a
   Sequence are kept, but reading them is not modelled ([OutOfFuel]). *)
Require Import Verif.Base Verif.IntModel Verif.ParserModel Verif.Text Verif.PrimModel.

(* values given to constructors and assignments, and natives read.  A dict, a list, a
   (name, value) pair for a Choice, an object of the class itself made from a value
   under its own tagging *)
Inductive aval :=
| ANone
| APrim (v : native)
| ADict (l : list (text * aval))
| AList (l : list aval)
| AChoice (n : text) (a : aval)
| AObj (p : params) (a : aval).

Inductive presence := Required | Optional | Default (d : aval).
Record fld := Fld { f_name : text; f_params : params; f_pres : presence }.

Inductive spec :=
| SPrim (k : kind) (c : pcls)
| SSeq (c : pcls) (fs : list (fld * spec))
| SSet (c : pcls) (fs : list (fld * spec))
| SSeqOf (c : pcls) (s : spec)
| SSetOf (c : pcls) (s : spec)
| SChoice (ex : list (Z * Z)) (alts : list (fld * spec)).   (* presence of an alternative is unused *)

(* an entry of a cached native dict or list: a value, or (being the same Python object)
   whatever the native of the child is now; the number is the child's index *)
Inductive nent := Snap (a : aval) | Alias (i : nat).

(* objects; VLazy is the tuple of a child that has not been built *)
Inductive value :=
| VVoid
| VLazy (i : info)
| VPrim (o : obj)
| VSeq (t : tagging) (e : enc) (ch : option (list value)) (m : bool) (nc : option (list (text * nent)))
| VList (t : tagging) (e : enc) (ch : option (list value)) (m : bool) (nc : option (list nent))
| VChoice (t : tagging) (e : enc) (idx : option nat) (parsed : option value).

(* the methods of a class *)
Record ops := Ops {
  x_id : option (Z * Z);                                (* class_ and tag of the class *)
  x_choice : bool;                                      (* issubclass(_, Choice) *)
  x_validate : params -> info -> bool;                  (* cls(params).validate(...) succeeds *)
  x_make : params -> option aval -> aval -> res value;  (* cls(value, default=_, params) *)
  x_build : params -> option aval -> info -> res value; (* _build(info, cls, params) *)
  x_contents : value -> value * res (option bytes);     (* .contents *)
  x_dump : bool -> value -> value * res bytes;          (* .dump(force) *)
  x_parse : bool -> value -> value * res unit;          (* ._parse_children(recurse) *)
  x_native : value -> value * res aval;                 (* .native *)
  x_retag : params -> value -> res value;               (* .retag(params) *)
  x_copy : value -> res value;                          (* .copy() *)
  x_get : nat -> value -> value * res unit;             (* [i], for its effect on the object *)
  x_set : nat -> aval -> value -> value * res unit;     (* [i] = a *)
  x_del : nat -> value -> value * res unit;             (* del [i] *)
  x_append : aval -> value -> value * res unit;         (* .append(a) *)
  x_len : value -> value * res Z }.                     (* len() *)

(* x is caught by "except (ValueError, TypeError)"; UnicodeError is a ValueError *)
Definition caught (x : exn) : bool :=
  match x with ValueError | TypeError | UnicodeError => true | _ => false end.

Definition tagging_of (v : value) : tagging :=
  match v with
  | VPrim o => o_tagging o
  | VSeq t _ _ _ _ | VList t _ _ _ _ | VChoice t _ _ _ => t
  | VVoid | VLazy _ => Tagging 0 0 false []
  end.

(* core.py:3482-3495, 4257-4270 _is_mutated *)
Fixpoint mutated (v : value) : bool :=
  match v with
  | VSeq _ _ ch m _ | VList _ _ ch m _ =>
      m || match ch with Some l => existsb mutated l | None => false end
  | _ => false
  end.

Fixpoint update {A} (l : list A) (n : nat) (x : A) : list A :=
  match l, n with
  | [], _ => []
  | _ :: r, O => x :: r
  | y :: r, S n' => y :: update r n' x
  end.
Fixpoint remove_nth {A} (l : list A) (n : nat) : list A :=
  match l, n with
  | [], _ => []
  | _ :: r, O => r
  | y :: r, S n' => y :: remove_nth r n'
  end.

(* ---- the cached natives ---- *)
(* the object found under .native of a child: for a container it is the child's own
   dict or list *)
Fixpoint has_dict (v : value) : bool :=
  match v with
  | VSeq _ _ _ _ (Some _) | VList _ _ _ _ (Some _) => true
  | VChoice _ _ _ (Some p) => has_dict p
  | _ => false
  end.
Definition entry (i : nat) (v : value) (a : aval) : nent := if has_dict v then Alias i else Snap a.

Definition resolve (cs : list aval) (e : nent) : aval :=
  match e with Snap a => a | Alias i => nth i cs ANone end.

(* the present value of the cached dict or list *)
Fixpoint cached_native (v : value) : aval :=
  match v with
  | VSeq _ _ ch _ (Some l) =>
      let cs := match ch with Some c => map cached_native c | None => [] end in
      ADict (map (fun ne => (fst ne, resolve cs (snd ne))) l)
  | VList _ _ ch _ (Some l) =>
      let cs := match ch with Some c => map cached_native c | None => [] end in
      AList (map (resolve cs) l)
  | VChoice _ _ _ (Some p) => cached_native p
  | _ => ANone
  end.

(* deepcopy of the cached dict or list *)
Definition snap_dict (v : value) : option (list (text * nent)) :=
  match v with
  | VSeq _ _ _ _ (Some _) => match cached_native v with
                             | ADict l => Some (map (fun na => (fst na, Snap (snd na))) l)
                             | _ => None
                             end
  | _ => None
  end.
Definition snap_list (v : value) : option (list nent) :=
  match v with
  | VList _ _ _ _ (Some _) => match cached_native v with AList l => Some (map Snap l) | _ => None end
  | _ => None
  end.

(* _native[name] = x *)
Fixpoint dict_set (l : list (text * nent)) (n : text) (x : nent) : list (text * nent) :=
  match l with
  | [] => [(n, x)]
  | (m, y) :: r => if eqb_text m n then (m, x) :: r else (m, y) :: dict_set r n x
  end.
Fixpoint dict_get (l : list (text * aval)) (n : text) : option aval :=
  match l with
  | [] => None
  | (m, y) :: r => if eqb_text m n then Some y else dict_get r n
  end.
(* index shift of the entries of a list whose element n was removed *)
Definition shift (n : nat) (e : nent) : nent :=
  match e with Alias i => Alias (if Nat.ltb n i then pred i else i) | _ => e end.

(* ---- shared parts of the constructed classes ---- *)
Definition no_enc : enc := Enc 1 None None [] false.

(* core.py:5337-5379 _build_id_tuple *)
Definition field_id (p : params) (o : ops) : option (Z * Z) :=
  match p_explicit p with
  | x :: _ => Some x
  | [] => match p_implicit p with Some x => Some x | None => x_id o end
  end.
Definition same_id (a : option (Z * Z)) (c t : Z) : bool :=
  match a with Some (c', t') => (c' =? c) && (t' =? t) | None => false end.

(* core.py:5297-5334 _fix_tagging on an object nobody else refers to *)
Definition fix_tagging (o : ops) (p : params) (v : value) : res value :=
  let t := tagging_of v in
  let retag1 := match p_implicit p with
                | None => t_implicit t
                | Some (c, g) => negb (t_implicit t) || negb (t_class t =? c) || negb (t_tag t =? g)
                end in
  let retag2 := match p_explicit p with
                | [] => match t_explicit t with [] => false | _ => true end
                | _ => true
                end in
  if retag1 || retag2 then x_retag o (Params (p_explicit p) (p_implicit p) false) v else Ok v.

(* .contents of a value held in a field *)
Definition child_contents (o : ops) (v : value) : value * res (option bytes) :=
  match v with VVoid => (v, Ok (Some [])) | _ => x_contents o v end.
Definition child_native (o : ops) (v : value) : value * res aval :=
  match v with VVoid => (v, Ok ANone) | _ => x_native o v end.
Definition child_dump (o : ops) (force : bool) (v : value) : value * res bytes :=
  match v with VVoid => (v, Ok []) | _ => x_dump o force v end.

(* the class and tag checks of _build, 5563-5608, for a class whose method is 1 *)
Definition check_tags (c : pcls) (t : tagging) (i : info) : bool :=
  (i_class i =? t_class t) && (i_method i =? 1)
  && ((i_tag i =? t_tag t) || existsb (fun b => i_tag i =? b) (k_bad c)).

(* _build, 5484-5547 and 5548-5560: explicit tags are taken off, then [plain] builds the
   value and [place] stores header, trailer and explicit tags in it *)
Definition build_with (c : pcls) (p : params)
  (probe : res unit) (plain : params -> info -> res value)
  (place : value -> bytes -> bytes -> list (Z * Z) -> value) (i : info) : res value :=
  if has_explicit c p then
    do _ <- probe;
    do t <- init_tagging c p;
    do (j, hd, tl) <- peel (rev (t_explicit t)) i (i_header i) (i_trailer i);
    do v <- plain (Params [] None true) j;
    Ok (place v hd tl (t_explicit t))
  else plain p i.

Definition with_explicit (t : tagging) (ex : list (Z * Z)) : tagging :=
  Tagging (t_class t) (t_tag t) (t_implicit t) ex.

Definition place_header (v : value) (h tr : bytes) : value :=
  match v with
  | VSeq t e ch m _ => VSeq t (Enc (e_method e) (Some h) (e_contents e) tr (e_indef e)) ch m None
  | VList t e ch m _ => VList t (Enc (e_method e) (Some h) (e_contents e) tr (e_indef e)) ch m None
  | VChoice t e i p => VChoice t (Enc (e_method e) (Some h) (e_contents e) tr (e_indef e)) i p
  | v => v
  end.
Definition place_explicit (v : value) (h tr : bytes) (ex : list (Z * Z)) : value :=
  match place_header v h tr with
  | VSeq t e ch m n => VSeq (with_explicit t ex) e ch m n
  | VList t e ch m n => VList (with_explicit t ex) e ch m n
  | VChoice t e i p => VChoice (with_explicit t ex) e i p
  | v => v
  end.

(* Asn1Value.dump, 632-663, after .contents was read as [c]; for the classes with method 1 *)
Definition finish_dump (t : tagging) (e : enc) (c : option bytes) : enc * res bytes :=
  match c with
  | None => (e, Err TypeError)
  | Some cont =>
      match (if ends_80 (e_header e) then None else e_header e) with
      | Some h => (e, Ok (h ++ cont ++ e_trailer e))
      | None => let h := full_header t (e_method e) cont in
                (Enc (e_method e) (Some h) (e_contents e) [] (e_indef e), Ok (h ++ cont))
      end
  end.

Section Fields.
  (* the fields of a Sequence or Set with the methods of their classes *)
  Variable c : pcls.
  Variable fs : list (fld * ops).

  Definition default_of (f : fld) : option aval :=
    match f_pres f with Default d => Some d | _ => None end.

  (* core.py:3785-3879 _make_value, field_spec and value_spec being the same *)
  Definition make_value (fo : fld * ops) (a : aval) : res value :=
    let '(f, o) := fo in
    match a, f_pres f with
    | ANone, Optional | APrim NNone, Optional => Ok VVoid
    | _, _ =>
        do v <- (if x_choice o then
                   match a with
                   | AObj p b => x_make o p None b
                   | AChoice _ _ => x_make o no_params None a
                   | ADict [(n, b)] => x_make o no_params None (AChoice n b)
                   | _ => Err ValueError
                   end
                 else
                   match a with
                   | AObj p b => x_make o p None b
                   | _ => x_make o (f_params f) (default_of f) a
                   end);
        fix_tagging o (f_params f) v
    end.

  (* 3895-3906: the children of an object that has no contents *)
  Fixpoint init_children (l : list (fld * ops)) : res (list value) :=
    match l with
    | [] => Ok []
    | (f, o) :: r =>
        do v <- match f_pres f with Default _ => make_value (f, o) ANone | _ => Ok VVoid end;
        do vs <- init_children r;
        Ok (v :: vs)
    end.

  (* the value of an absent optional or defaulted field: 3942-3945, 3991-3996 *)
  Definition absent_child (fo : fld * ops) : res value :=
    let '(f, o) := fo in
    match f_pres f with
    | Default d => x_make o (f_params f) (Some d) ANone
    | Optional => Ok VVoid
    | Required => Err ValueError
    end.

  Fixpoint absent_children (l : list (fld * ops)) : res (list value) :=
    match l with
    | [] => Ok []
    | fo :: r => do v <- absent_child fo; do vs <- absent_children r; Ok (v :: vs)
    end.

  (* 3928-3940: may the parsed element be this optional field *)
  Definition takes (fo : fld * ops) (i : info) : bool :=
    let '(f, o) := fo in
    match f_pres f with
    | Required => true
    | _ => same_id (field_id (f_params f) o) (i_class i) (i_tag i) || (x_choice o && x_validate o (f_params f) i)
    end.

  (* 3909-4004, the loop of _parse_children over the contents; [parts] is an element
     that was parsed and not yet given to a field *)
  Fixpoint seq_loop (fuel : nat) (cont : bytes) (l : list (fld * ops)) (parts : option info) (pointer : Z)
    : res (list value) :=
    match fuel with
    | O => Err OutOfFuel
    | S n =>
        match parts with
        | None =>
            if pointer <? len cont then
              do (i, pointer') <- parse_ cont (len cont) pointer;
              seq_loop n cont l (Some i) pointer'
            else absent_children l
        | Some i =>
            match l with
            | [] => do vs <- seq_loop n cont [] None pointer; Ok (VLazy i :: vs)
            | fo :: r =>
                if takes fo i then do vs <- seq_loop n cont r None pointer; Ok (VLazy i :: vs)
                else do v <- absent_child fo; do vs <- seq_loop n cont r (Some i) pointer; Ok (v :: vs)
            end
        end
    end.
  Definition seq_children (cont : bytes) : res (list value) :=
    seq_loop (S (2 * length cont + length fs)) cont fs None 0.

  (* 4663-4772, Set._parse_children: the elements in any order; the last of several
     elements for one field counts *)
  Fixpoint find_field (l : list (fld * ops)) (n : nat) (i : info) : option nat :=
    match l with
    | [] => None
    | (f, o) :: r =>
        match find_field r (S n) i with
        | Some m => Some m
        | None => if same_id (field_id (f_params f) o) (i_class i) (i_tag i) then Some n else None
        end
    end.
  Fixpoint set_loop (fuel : nat) (cont : bytes) (pointer : Z) (found : list (option info)) : res (list (option info)) :=
    match fuel with
    | O => Err OutOfFuel
    | S n =>
        if pointer <? len cont then
          do (i, pointer') <- parse_ cont (len cont) pointer;
          match find_field fs 0 i with
          | None => Err ValueError
          | Some m => set_loop n cont pointer' (update found m (Some i))
          end
        else Ok found
    end.
  Fixpoint set_fill (l : list (fld * ops)) (found : list (option info)) : res (list value) :=
    match l, found with
    | fo :: r, x :: xs =>
        do v <- match x with Some i => Ok (VLazy i) | None => absent_child fo end;
        do vs <- set_fill r xs;
        Ok (v :: vs)
    | _, _ => Ok []
    end.
  Definition set_children (cont : bytes) : res (list value) :=
    do found <- set_loop (S (length cont)) cont 0 (map (fun _ => None) fs);
    set_fill fs found.

  Variable is_set : bool.

  (* _parse_children(recurse=False) *)
  Definition parse_flat (v : value) : value * res unit :=
    match v with
    | VSeq t e ch m nc =>
        match e_contents e with
        | None =>
            match fs with
            | [] => (v, Ok tt)
            | _ => match init_children fs with
                   | Ok l => (VSeq t e (Some l) m nc, Ok tt)
                   | Err x => (v, Err x)
                   end
            end
        | Some cont =>
            match (if is_set then set_children cont else seq_children cont) with
            | Ok l => (VSeq t e (Some l) m nc, Ok tt)
            | Err x => (VSeq t e None m nc, Err x)
            end
        end
    | _ => (v, Err TypeError)
    end.

  (* the children after "if self.children is None: self._parse_children()" *)
  Definition ensure (v : value) : value * res (list value) :=
    match v with
    | VSeq _ _ (Some l) _ _ => (v, Ok l)
    | _ => match parse_flat v with
           | (VSeq t e (Some l) m nc as v', Ok tt) => (v', Ok l)
           | (v', Ok tt) => (v', Err TypeError)
           | (v', Err x) => (v', Err x)
           end
    end.

  (* building one child: 3497-3505 *)
  Definition built (fo : fld * ops) (v : value) : res value :=
    let '(f, o) := fo in
    match v with VLazy i => x_build o (f_params f) (default_of f) i | _ => Ok v end.

  (* recurse=True: 3983-3986; on an error the children are dropped (4006-4010) *)
  Fixpoint build_all (l : list (fld * ops)) (vs : list value) : res (list value) :=
    match vs with
    | [] => Ok []
    | v :: rest =>
        match l with
        | [] => match v with VLazy _ => Err OutOfFuel | _ => do r <- build_all [] rest; Ok (v :: r) end
        | fo :: l' =>
            do v1 <- match v with
                     | VLazy _ =>
                         do b <- built fo v;
                         match b with
                         | VSeq _ _ _ _ _ | VList _ _ _ _ _ =>
                             match x_parse (snd fo) true b with (b', Ok tt) => Ok b' | (_, Err x) => Err x end
                         | _ => Ok b
                         end
                     | _ => Ok v
                     end;
            do r <- build_all l' rest;
            Ok (v1 :: r)
        end
    end.
  Definition parse_seq (recurse : bool) (v : value) : value * res unit :=
    match parse_flat v with
    | (VSeq t e (Some l) m nc as v', Ok tt) =>
        if recurse && match e_contents e with Some _ => true | None => false end then
          match build_all fs l with
          | Ok l' => (VSeq t e (Some l') m nc, Ok tt)
          | Err x => (VSeq t e None m nc, Err x)
          end
        else (v', Ok tt)
    | r => r
    end.

  (* the encoding of a defaulted field's default, 3698-3701: info[1]( **info[2]).dump() *)
  Definition default_dump (fo : fld * ops) : res (option bytes) :=
    let '(f, o) := fo in
    match f_pres f with
    | Default d =>
        do v <- x_make o (f_params f) (Some d) ANone;
        match x_dump o false v with (_, Ok b) => Ok (Some b) | (_, Err x) => Err x end
    | _ => Ok None
    end.
  Definition is_default (fo : fld * ops) (b : bytes) : res bool :=
    do d <- default_dump fo; Ok (match d with Some x => eqb_bytes x b | None => false end).

  (* 3673-3709, the loop of _set_contents; returns the children as they are afterwards *)
  Fixpoint dump_fields (force : bool) (l : list (fld * ops)) (vs : list value) : list value * res bytes :=
    match l with
    | [] => (vs, Ok [])
    | fo :: r =>
        match vs with
        | [] => ([], Err IndexError)
        | v :: vr =>
            let '(v1, x) :=
              match v with
              | VLazy i =>
                  if force then
                    match built fo v with
                    | Ok b => child_dump (snd fo) force b
                    | Err e => (v, Err e)
                    end
                  else (v, Ok (i_header i ++ i_contents i ++ i_trailer i))
              | _ => child_dump (snd fo) force v
              end in
            match x with
            | Err e => (v1 :: vr, Err e)
            | Ok b =>
                match is_default fo b with
                | Err e => (v1 :: vr, Err e)
                | Ok dflt =>
                    let '(vr', y) := dump_fields force r vr in
                    (v1 :: vr', do b' <- y; Ok (if dflt then b' else b ++ b'))
                end
            end
        end
    end.

  (* 4774-4806 Set._set_contents: a tuple has no dump; the tags sorted are those of the
     objects, None for VOID and Choice *)
  Fixpoint dump_members (force : bool) (l : list (fld * ops)) (vs : list value)
    : list value * res (list (option Z * bytes)) :=
    match vs with
    | [] => ([], Ok [])
    | v :: vr =>
        match l with
        | [] => (vs, Err IndexError)
        | fo :: r =>
            let '(v1, x) := match v with VLazy _ => (v, Err AttributeError) | _ => child_dump (snd fo) force v end in
            match x with
            | Err e => (v1 :: vr, Err e)
            | Ok b =>
                match is_default fo b with
                | Err e => (v1 :: vr, Err e)
                | Ok dflt =>
                    let '(vr', y) := dump_members force r vr in
                    let tag := match v1 with
                               | VPrim _ | VSeq _ _ _ _ _ | VList _ _ _ _ _ => Some (t_tag (tagging_of v1))
                               | _ => None
                               end in
                    (v1 :: vr', do b' <- y; Ok (if dflt then b' else (tag, b) :: b'))
                end
            end
        end
    end.
  (* sort(key=tag): stable; comparing None with anything is a TypeError *)
  Fixpoint insert_member (x : Z * bytes) (l : list (Z * bytes)) : list (Z * bytes) :=
    match l with
    | [] => [x]
    | y :: r => if fst y <=? fst x then y :: insert_member x r else x :: l
    end.
  Definition sort_members (l : list (option Z * bytes)) : res bytes :=
    match l with
    | [(_, b)] => Ok b
    | _ =>
        if existsb (fun x => match fst x with None => true | _ => false end) l then Err TypeError
        else Ok (concat (map snd (fold_left (fun s x => insert_member (match fst x with Some t => t | None => 0 end, snd x) s) l [])))
    end.

  (* _set_contents *)
  Definition set_contents_seq (force : bool) (v : value) : value * res unit :=
    match ensure v with
    | (VSeq t e _ m nc, Ok l) =>
        let '(l', x) := if is_set then let '(l', y) := dump_members force fs l in (l', do ms <- y; sort_members ms)
                        else dump_fields force fs l in
        match x with
        | Ok b => (VSeq t (Enc (e_method e) None (Some b) [] (e_indef e)) (Some l') false nc, Ok tt)
        | Err y => (VSeq t e (Some l') m nc, Err y)
        end
    | (v', Ok _) => (v', Err TypeError)
    | (v', Err x) => (v', Err x)
    end.

  (* 3458-3480 contents *)
  Definition contents_seq (v : value) : value * res (option bytes) :=
    match v with
    | VSeq t e (Some l) m nc =>
        if mutated v then
          match set_contents_seq false v with
          | (VSeq _ e' _ _ _ as v', Ok tt) => (v', Ok (e_contents e'))
          | (v', Ok tt) => (v', Err TypeError)
          | (v', Err x) => (v', Err x)
          end
        else (v, Ok (e_contents e))
    | VSeq t e None m nc => (v, Ok (e_contents e))
    | _ => (v, Err TypeError)
    end.

  (* 4143-4161: is a required field missing *)
  Fixpoint missing (l : list (fld * ops)) (vs : list value) : bool :=
    match l, vs with
    | (f, _) :: r, v :: vr =>
        match f_pres f, v with Required, VVoid => true | _, _ => missing r vr end
    | _, _ => false
    end.

  (* 4127-4163 dump *)
  Definition dump_seq (force : bool) (v : value) : value * res bytes :=
    match v with
    | VSeq t e ch m nc =>
        let force := force || ends_80 (e_header e) in
        let force := force && match fs with [] => false | _ => true end in
        let '(v1, x) := if force then set_contents_seq force v else (v, Ok tt) in
        match x with
        | Err y => (v1, Err y)
        | Ok _ =>
            match v1 with
            | VSeq _ _ (Some l) _ _ => if missing fs l then (v1, Err ValueError) else
                match contents_seq v1 with
                | (VSeq t e ch m nc, Ok c) => let '(e', r) := finish_dump t e c in (VSeq t e' ch m nc, r)
                | (v2, Ok _) => (v2, Err TypeError)
                | (v2, Err y) => (v2, Err y)
                end
            | VSeq t e None m nc => let '(e', r) := finish_dump t e (e_contents e) in (VSeq t e' None m nc, r)
            | _ => (v1, Err TypeError)
            end
        end
    | _ => (v, Err TypeError)
    end.

  (* 4056-4088 native *)
  Fixpoint natives (n : nat) (l : list (fld * ops)) (vs : list value) : list value * list (text * nent) * res unit :=
    match vs with
    | [] => ([], [], Ok tt)
    | v :: vr =>
        match l with
        | [] => (vs, [], Err OutOfFuel)
        | fo :: r =>
            match built fo v with
            | Err e => (vs, [], Err e)
            | Ok b =>
                match child_native (snd fo) b with
                | (v1, Err e) => (v1 :: vr, [], Err e)
                | (v1, Ok a) =>
                    let '(vr', ns, x) := natives (S n) r vr in
                    (v1 :: vr', (f_name (fst fo), entry n v1 a) :: ns, x)
                end
            end
        end
    end.
  Definition native_seq (v : value) : value * res aval :=
    match contents_seq v with
    | (v1, Err x) => (v1, Err x)
    | (v1, Ok None) => (v1, Ok ANone)
    | (v1, Ok (Some _)) =>
        match v1 with
        | VSeq t e ch m (Some nc) => (v1, Ok (cached_native v1))
        | VSeq t e ch m None =>
            let '(v2, x) := match ch with None => parse_seq true v1 | Some _ => (v1, Ok tt) end in
            match v2, x with
            | _, Err y => (v2, Err y)
            | VSeq t e (Some l) m _, Ok _ =>
                let '(l', ns, y) := natives 0 fs l in
                match y with
                | Ok _ => let v3 := VSeq t e (Some l') m (Some ns) in (v3, Ok (cached_native v3))
                | Err z => (VSeq t e (Some l') m (if caught z then None else Some ns), Err z)
                end
            | _, Ok _ => (v2, Err TypeError)
            end
        | _ => (v1, Err TypeError)
        end
    end.

  (* 3518-3562 __getitem__ by index *)
  Definition get_seq (i : nat) (v : value) : value * res unit :=
    match ensure v with
    | (v1, Err x) => (v1, Err x)
    | (VSeq t e _ m nc, Ok l) =>
        match nth_error l i, nth_error fs i with
        | None, _ => (VSeq t e (Some l) m nc, Err KeyError)
        | Some (VLazy _), None => (VSeq t e (Some l) m nc, Err OutOfFuel)
        | Some x, None => (VSeq t e (Some l) m nc, Ok tt)
        | Some x, Some fo =>
            match built fo x with
            | Ok b => (VSeq t e (Some (update l i b)) m nc, Ok tt)
            | Err y => (VSeq t e (Some l) m nc, Err y)
            end
        end
    | (v1, Ok _) => (v1, Err TypeError)
    end.

  (* 3564-3617 __setitem__ by index *)
  Definition set_seq (i : nat) (a : aval) (v : value) : value * res unit :=
    match ensure v with
    | (v1, Err x) => (v1, Err x)
    | (VSeq t e ch m nc as v1, Ok l) =>
        match nth_error fs i with
        | None => (v1, Err IndexError)
        | Some fo =>
            match make_value fo a with
            | Err x => (v1, Err x)
            | Ok nv =>
                match child_contents (snd fo) nv with
                | (_, Err x) => (v1, Err x)
                | (_, Ok None) => (v1, Err ValueError)
                | (nv1, Ok (Some _)) =>
                    match nc with
                    | None => (VSeq t e (Some (update l i nv1)) true nc, Ok tt)
                    | Some d =>
                        match child_native (snd fo) nv1 with
                        | (nv2, Ok x) =>
                            (VSeq t e (Some (update l i nv2)) true
                               (Some (dict_set d (f_name (fst fo)) (entry i nv2 x))), Ok tt)
                        | (nv2, Err x) => (VSeq t e (Some (update l i nv2)) m nc, Err x)
                        end
                    end
                end
            end
        end
    | (v1, Ok _) => (v1, Err TypeError)
    end.

  (* 3619-3662 __delitem__ by index *)
  Definition del_seq (i : nat) (v : value) : value * res unit :=
    match ensure v with
    | (v1, Err x) => (v1, Err x)
    | (VSeq t e ch m nc as v1, Ok l) =>
        match nth_error fs i with
        | None => (v1, Err IndexError)
        | Some fo =>
            match f_pres (fst fo) with
            | Required => (v1, Err ValueError)
            | Optional =>
                (VSeq t e (Some (update l i VVoid)) true
                   (match nc with Some d => Some (dict_set d (f_name (fst fo)) (Snap ANone)) | None => None end), Ok tt)
            | Default _ => set_seq i ANone v1
            end
        end
    | (v1, Ok _) => (v1, Err TypeError)
    end.

  Definition len_seq (v : value) : value * res Z :=
    match ensure v with (v1, Ok l) => (v1, Ok (len l)) | (v1, Err x) => (v1, Err x) end.

  (* 3420-3455: the keys present in the dict, in the order of the fields; [keep i] tells
     that the field already has a value (check_existing) *)
  Fixpoint set_keys (keep : nat -> value -> bool) (d : list (text * aval)) (l : list (fld * ops)) (i : nat) (v : value)
    : res value :=
    match l with
    | [] => Ok v
    | fo :: r =>
        match dict_get d (f_name (fst fo)) with
        | Some a =>
            if keep i v then set_keys keep d r (S i) v
            else match set_seq i a v with
                 | (v', Ok tt) => set_keys keep d r (S i) v'
                 | (_, Err x) => Err x
                 end
        | None => set_keys keep d r (S i) v
        end
    end.
  Definition known_keys (d : list (text * aval)) : bool :=
    forallb (fun na => existsb (fun fo => eqb_text (f_name (fst fo)) (fst na)) fs) d.
  Definition set_dict (keep : nat -> value -> bool) (a : aval) (v : value) : res value :=
    match a with
    | ANone => Ok v
    | ADict d => do v' <- set_keys keep d fs 0 v; if known_keys d then Ok v' else Err ValueError
    | _ => Err AttributeError
    end.
  Definition has_child (i : nat) (v : value) : bool :=
    match v with
    | VSeq _ _ (Some l) _ _ => match nth_error l i with Some VVoid | None => false | _ => true end
    | _ => false
    end.

  (* 3382-3456 __init__ without contents *)
  Definition make_seq (p : params) (dflt : option aval) (a : aval) : res value :=
    do t <- init_tagging c p;
    let v := VSeq t no_enc None false None in
    set_dict (fun _ _ => false)
      (match a, dflt with ANone, Some d => d | _, _ => a end) v.

  (* _build: __init__ with contents and a default fills in absent fields from the default *)
  Definition plain_seq (dflt : option aval) (p : params) (i : info) : res value :=
    do t <- init_tagging c p;
    let v := VSeq t (Enc 1 None (Some (i_contents i)) [] false) None false None in
    do v <- match dflt with
            | None => Ok v
            | Some d => match parse_flat v with
                        | (v', Ok tt) => set_dict has_child d v'
                        | (_, Err x) => Err x
                        end
            end;
    if check_tags c t i then Ok (place_header v (i_header i) (i_trailer i)) else Err ValueError.
  Definition build_seq (p : params) (dflt : option aval) (i : info) : res value :=
    build_with c p (do _ <- make_seq p dflt ANone; Ok tt)
      (fun q j => plain_seq (if p_no_explicit q then None else dflt) q j) place_explicit i.

  (* _copy onto a new object with tagging t: 586-608, 4090-4109 (children are not copied,
     the test there looks at the new object) *)
  Definition copy_seq (t : tagging) (v : value) : res value :=
    match contents_seq v with
    | (v1, Ok x) => Ok (VSeq t (Enc 1 None x [] false) None false (snap_dict v1))
    | (_, Err x) => Err x
    end.

  Definition seq_ops : ops :=
    Ops (Some (k_class c, k_tag c)) false (fun _ _ => false) make_seq build_seq contents_seq dump_seq parse_seq native_seq
      (fun p v => do t <- init_tagging c p; copy_seq t v)
      (fun v => copy_seq (tagging_of v) v)
      get_seq set_seq del_seq (fun _ v => (v, Err AttributeError)) len_seq.
End Fields.

Section Elements.
  (* SequenceOf and SetOf with the methods of the child class *)
  Variable c : pcls.
  Variable o : ops.
  Variable ex : list (Z * Z).      (* explicit of the child class *)
  Variable sorted : bool.          (* SetOf *)

  (* 4283-4336 _make_value *)
  Definition make_elt (a : aval) : res value :=
    match a with
    | AObj p b => do v <- x_make o p None b;
                  if (if list_eq_dec (fun x y : Z * Z => ltac:(decide equality; apply Z.eq_dec)) (t_explicit (tagging_of v)) ex then true else false)
                     && negb (t_implicit (tagging_of v))
                  then Ok v else x_retag o (Params ex None false) v
    | _ => if x_choice o then Err ValueError else x_make o no_params None a
    end.

  (* 4495-4529 _parse_children *)
  Fixpoint list_loop (fuel : nat) (cont : bytes) (pointer : Z) : res (list value) :=
    match fuel with
    | O => Err OutOfFuel
    | S n =>
        if pointer <? len cont then
          do (i, pointer') <- parse_ cont (len cont) pointer;
          do vs <- list_loop n cont pointer';
          Ok (VLazy i :: vs)
        else Ok []
    end.
  Definition list_flat (v : value) : value * res unit :=
    match v with
    | VList t e ch m nc =>
        match (match e_contents e with None => Ok [] | Some cont => list_loop (S (length cont)) cont 0 end) with
        | Ok l => (VList t e (Some l) m nc, Ok tt)
        | Err x => (VList t e None m nc, Err x)
        end
    | _ => (v, Err TypeError)
    end.
  Definition ensure_list (v : value) : value * res (list value) :=
    match v with
    | VList _ _ (Some l) _ _ => (v, Ok l)
    | _ => match list_flat v with
           | (VList t e (Some l) m nc as v', Ok tt) => (v', Ok l)
           | (v', Ok tt) => (v', Err TypeError)
           | (v', Err x) => (v', Err x)
           end
    end.
  Definition built_elt (v : value) : res value :=
    match v with VLazy i => x_build o no_params None i | _ => Ok v end.
  Fixpoint build_elts (vs : list value) : res (list value) :=
    match vs with
    | [] => Ok []
    | v :: r =>
        do v1 <- match v with
                 | VLazy _ =>
                     do b <- built_elt v;
                     match b with
                     | VSeq _ _ _ _ _ | VList _ _ _ _ _ =>
                         match x_parse o true b with (b', Ok tt) => Ok b' | (_, Err x) => Err x end
                     | _ => Ok b
                     end
                 | _ => Ok v
                 end;
        do r' <- build_elts r;
        Ok (v1 :: r')
    end.
  Definition parse_list (recurse : bool) (v : value) : value * res unit :=
    match list_flat v with
    | (VList t e (Some l) m nc as v', Ok tt) =>
        if recurse then
          match build_elts l with
          | Ok l' => (VList t e (Some l') m nc, Ok tt)
          | Err x => (VList t e None m nc, Err x)
          end
        else (v', Ok tt)
    | r => r
    end.

  (* 4474-4493: for child in self: child.dump(force) *)
  Fixpoint dump_elts (force : bool) (vs : list value) : list value * res (list bytes) :=
    match vs with
    | [] => ([], Ok [])
    | v :: r =>
        match built_elt v with
        | Err e => (vs, Err e)
        | Ok b =>
            match x_dump o force b with
            | (v1, Err e) => (v1 :: r, Err e)
            | (v1, Ok d) => let '(r', y) := dump_elts force r in (v1 :: r', do ds <- y; Ok (d :: ds))
            end
        end
    end.
  (* sorted() on byte strings *)
  Fixpoint bytes_leb (a b : bytes) : bool :=
    match a, b with
    | [], _ => true
    | _ :: _, [] => false
    | x :: a', y :: b' => (x <? y) || ((x =? y) && bytes_leb a' b')
    end.
  Fixpoint insert_bytes (x : bytes) (l : list bytes) : list bytes :=
    match l with
    | [] => [x]
    | y :: r => if bytes_leb y x then y :: insert_bytes x r else x :: l
    end.
  Definition sort_bytes (l : list bytes) : list bytes := fold_left (fun s x => insert_bytes x s) l [].

  Definition set_contents_list (force : bool) (v : value) : value * res unit :=
    match ensure_list v with
    | (VList t e _ m nc, Ok l) =>
        let '(l', x) := dump_elts force l in
        match x with
        | Ok ds => (VList t (Enc (e_method e) None (Some (concat (if sorted then sort_bytes ds else ds))) [] (e_indef e))
                      (Some l') false nc, Ok tt)
        | Err y => (VList t e (Some l') m nc, Err y)
        end
    | (v', Ok _) => (v', Err TypeError)
    | (v', Err x) => (v', Err x)
    end.
  (* 4233-4255 contents *)
  Definition contents_list (v : value) : value * res (option bytes) :=
    match v with
    | VList t e (Some l) m nc =>
        if mutated v then
          match set_contents_list false v with
          | (VList _ e' _ _ _ as v', Ok tt) => (v', Ok (e_contents e'))
          | (v', Ok tt) => (v', Err TypeError)
          | (v', Err x) => (v', Err x)
          end
        else (v, Ok (e_contents e))
    | VList t e None m nc => (v, Ok (e_contents e))
    | _ => (v, Err TypeError)
    end.
  (* 4600-4619 dump *)
  Definition dump_list (force : bool) (v : value) : value * res bytes :=
    match v with
    | VList t e ch m nc =>
        let '(v1, x) := if force || ends_80 (e_header e) then set_contents_list true v else (v, Ok tt) in
        match x with
        | Err y => (v1, Err y)
        | Ok _ =>
            match contents_list v1 with
            | (VList t e ch m nc, Ok c) => let '(e', r) := finish_dump t e c in (VList t e' ch m nc, r)
            | (v2, Ok _) => (v2, Err TypeError)
            | (v2, Err y) => (v2, Err y)
            end
        end
    | _ => (v, Err TypeError)
    end.
  (* 4542-4564 native *)
  Fixpoint natives_list (n : nat) (vs : list value) : list value * list nent * res unit :=
    match vs with
    | [] => ([], [], Ok tt)
    | v :: vr =>
        match built_elt v with
        | Err e => (vs, [], Err e)
        | Ok b =>
            match x_native o b with
            | (v1, Err e) => (v1 :: vr, [], Err e)
            | (v1, Ok a) => let '(vr', ns, x) := natives_list (S n) vr in (v1 :: vr', entry n v1 a :: ns, x)
            end
        end
    end.
  Definition native_list (v : value) : value * res aval :=
    match contents_list v with
    | (v1, Err x) => (v1, Err x)
    | (v1, Ok None) => (v1, Ok ANone)
    | (v1, Ok (Some _)) =>
        match v1 with
        | VList t e ch m (Some nc) => (v1, Ok (cached_native v1))
        | VList t e ch m None =>
            let '(v2, x) := match ch with None => parse_list true v1 | Some _ => (v1, Ok tt) end in
            match v2, x with
            | _, Err y => (v2, Err y)
            | VList t e (Some l) m _, Ok _ =>
                let '(l', ns, y) := natives_list 0 l in
                match y with
                | Ok _ => let v3 := VList t e (Some l') m (Some ns) in (v3, Ok (cached_native v3))
                | Err z => (VList t e (Some l') m None, Err z)
                end
            | _, Ok _ => (v2, Err TypeError)
            end
        | _ => (v1, Err TypeError)
        end
    end.

  (* 4349-4361 __getitem__ *)
  Definition get_list (i : nat) (v : value) : value * res unit :=
    match ensure_list v with
    | (v1, Err x) => (v1, Err x)
    | (VList t e _ m nc, Ok l) =>
        match nth_error l i with
        | None => (VList t e (Some l) m nc, Err IndexError)
        | Some x => match built_elt x with
                    | Ok b => (VList t e (Some (update l i b)) m nc, Ok tt)
                    | Err y => (VList t e (Some l) m nc, Err y)
                    end
        end
    | (v1, Ok _) => (v1, Err TypeError)
    end.
  (* 4363-4392 __setitem__; an index equal to the length appends *)
  Definition set_list (i : nat) (a : aval) (v : value) : value * res unit :=
    match ensure_list v with
    | (v1, Err x) => (v1, Err x)
    | (VList t e _ m nc as v1, Ok l) =>
        match make_elt a with
        | Err x => (v1, Err x)
        | Ok nv =>
            if Nat.ltb (length l) i then (v1, Err IndexError)
            else
              let put := fun w => if Nat.eqb i (length l) then l ++ [w] else update l i w in
              match nc with
              | None => (VList t e (Some (put nv)) true None, Ok tt)
              | Some d =>
                  let d := if Nat.eqb i (length l) then d ++ [Snap ANone] else d in
                  match x_native o nv with
                  | (nv2, Ok x) => (VList t e (Some (put nv2)) true (Some (update d i (entry i nv2 x))), Ok tt)
                  | (nv2, Err x) => (VList t e (Some (put nv2)) m (Some d), Err x)
                  end
              end
        end
    | (v1, Ok _) => (v1, Err TypeError)
    end.
  (* 4394-4410 __delitem__ *)
  Definition del_list (i : nat) (v : value) : value * res unit :=
    match ensure_list v with
    | (v1, Err x) => (v1, Err x)
    | (VList t e _ m nc as v1, Ok l) =>
        if Nat.ltb i (length l) then
          (VList t e (Some (remove_nth l i)) true
             (match nc with Some d => Some (map (shift i) (remove_nth d i)) | None => None end), Ok tt)
        else (v1, Err IndexError)
    | (v1, Ok _) => (v1, Err TypeError)
    end.
  (* 4454-4472 append *)
  Definition append_list (a : aval) (v : value) : value * res unit :=
    match ensure_list v with
    | (v1, Err x) => (v1, Err x)
    | (VList t e _ m nc as v1, Ok l) =>
        match make_elt a with
        | Err x => (v1, Err x)
        | Ok nv =>
            match nc with
            | None => (VList t e (Some (l ++ [nv])) true None, Ok tt)
            | Some d =>
                match x_native o nv with
                | (nv2, Ok x) => (VList t e (Some (l ++ [nv2])) true (Some (d ++ [entry (length l) nv2 x])), Ok tt)
                | (nv2, Err x) => (VList t e (Some (l ++ [nv2])) m nc, Err x)
                end
            end
        end
    | (v1, Ok _) => (v1, Err TypeError)
    end.
  Definition len_list (v : value) : value * res Z :=
    match ensure_list v with (v1, Ok l) => (v1, Ok (len l)) | (v1, Err x) => (v1, Err x) end.

  (* 4190-4231 __init__ without contents *)
  Fixpoint set_all (i : nat) (l : list aval) (v : value) : res value :=
    match l with
    | [] => Ok v
    | a :: r => match set_list i a v with (v', Ok tt) => set_all (S i) r v' | (_, Err x) => Err x end
    end.
  Definition make_list (p : params) (dflt : option aval) (a : aval) : res value :=
    do t <- init_tagging c p;
    let v := VList t no_enc None false None in
    match (match a, dflt with ANone, Some d => d | _, _ => a end) with
    | ANone => Ok v
    | AList l =>
        do v1 <- set_all 0 l v;
        match contents_list v1 with
        | (v2, Ok (Some _)) => Ok v2
        | (v2, Ok None) => match set_contents_list false v2 with (v3, Ok tt) => Ok v3 | (_, Err x) => Err x end
        | (_, Err x) => Err x
        end
    | _ => Err TypeError
    end.

  Definition plain_list (p : params) (i : info) : res value :=
    do t <- init_tagging c p;
    if check_tags c t i then
      Ok (place_header (VList t (Enc 1 None (Some (i_contents i)) [] false) None false None) (i_header i) (i_trailer i))
    else Err ValueError.
  Definition build_list (p : params) (dflt : option aval) (i : info) : res value :=
    build_with c p (do _ <- make_list p dflt ANone; Ok tt) plain_list place_explicit i.

  (* 4566-4585 _copy *)
  Definition copy_list (t : tagging) (v : value) : res value :=
    match contents_list v with
    | (v1, Ok x) => Ok (VList t (Enc 1 None x [] false) None false (snap_list v1))
    | (_, Err x) => Err x
    end.

  Definition list_ops : ops :=
    Ops (Some (k_class c, k_tag c)) false (fun _ _ => false) make_list build_list contents_list dump_list parse_list native_list
      (fun p v => do t <- init_tagging c p; copy_list t v)
      (fun v => copy_list (tagging_of v) v)
      get_list set_list del_list append_list len_list.
End Elements.

Section Alternatives.
  Variable ex : list (Z * Z).               (* explicit of the class *)
  Variable alts : list (fld * ops).

  Definition choice_cls : pcls := Cls 0 0 ex [].

  (* Choice.__init__ refuses implicit tags: 1119-1132 *)
  Definition init_choice (p : params) : res tagging :=
    do t <- init_tagging choice_cls (Params (p_explicit p) None (p_no_explicit p));
    match p_implicit p with Some _ => Err ValueError | None => Ok t end.

  (* _id_map: the last alternative with an id counts (1082-1096) *)
  Fixpoint alt_of (l : list (fld * ops)) (n : nat) (cl tg : Z) : option nat :=
    match l with
    | [] => None
    | (f, o) :: r =>
        match alt_of r (S n) cl tg with
        | Some m => Some m
        | None => if same_id (field_id (f_params f) o) cl tg then Some n else None
        end
    end.
  Fixpoint alt_named (l : list (fld * ops)) (n : nat) (s : text) : option nat :=
    match l with
    | [] => None
    | (f, _) :: r =>
        match alt_named r (S n) s with
        | Some m => Some m
        | None => if eqb_text (f_name f) s then Some n else None
        end
    end.

  (* 1251-1313 validate, on an object with these explicit tags *)
  Definition validate (expl : list (Z * Z)) (i : info) : res nat :=
    match expl with
    | [] => match alt_of alts 0 (i_class i) (i_tag i) with Some n => Ok n | None => Err ValueError end
    | _ =>
        let '(cl, tg) := last expl (0, 0) in
        if (cl =? i_class i) && (tg =? i_tag i) then
          do (j, _) <- parse_ (i_contents i) (len (i_contents i)) 0;
          match alt_of alts 0 (i_class j) (i_tag j) with Some n => Ok n | None => Err ValueError end
        else Err ValueError
    end.

  (* 1098-1180 __init__ *)
  Definition make_choice (p : params) (dflt : option aval) (a : aval) : res value :=
    do t <- init_choice p;
    do _ <- match dflt with Some _ => Err AttributeError | None => Ok tt end;
    match (match a with ADict [(n, b)] => AChoice n b | _ => a end) with
    | ANone => Ok (VChoice t (Enc 1 None None [] false) None None)
    | AChoice n b =>
        match alt_named alts 0 n with
        | None => Err ValueError
        | Some k =>
            match nth_error alts k with
            | None => Err IndexError
            | Some (f, o) =>
                do v <- match b with
                        | AObj q b' => do w <- x_make o q None b'; fix_tagging o (f_params f) w
                        | _ => x_make o (f_params f) None b
                        end;
                Ok (VChoice t (Enc 1 None None [] false) (Some k) (Some v))
            end
        end
    | _ => Err ValueError
    end.

  (* 1213-1229 parse *)
  Definition parse_choice (v : value) : value * res unit :=
    match v with
    | VChoice t e idx (Some _) => (v, Ok tt)
    | VChoice t e (Some k) None =>
        match nth_error alts k, e_contents e with
        | Some (f, o), Some cont =>
            match (do (i, _) <- parse_ cont (len cont) 0; x_build o (f_params f) None i) with
            | Ok w => (VChoice t e (Some k) (Some w), Ok tt)
            | Err x => (v, Err x)
            end
        | _, _ => (v, Err TypeError)
        end
    | _ => (v, Err TypeError)
    end.

  (* _build, 5567-5577: the trailer is not part of what the alternative is parsed from *)
  Definition plain_choice (p : params) (i : info) : res value :=
    do t <- init_choice p;
    do k <- validate (t_explicit t) i;
    match parse_choice (VChoice t (Enc 1 None (Some (i_header i ++ i_contents i)) [] false) (Some k) None) with
    | (v, Ok tt) => Ok (place_header v [] (i_trailer i))
    | (_, Err x) => Err x
    end.

  (* 5484-5547 for a Choice: only the outermost header is kept *)
  Definition build_choice (p : params) (dflt : option aval) (i : info) : res value :=
    if has_explicit choice_cls p then
      do _ <- make_choice p dflt ANone;
      do t <- init_choice p;
      do (j, _, _) <- peel (rev (t_explicit t)) i (i_header i) (i_trailer i);
      do v <- plain_choice (Params [] None true) j;
      Ok (place_explicit v (i_header i) (i_trailer i) (t_explicit t))
    else plain_choice p i.

  Definition choice_with (f : ops -> value -> value * res bytes) (v : value) : value * res bytes :=
    match parse_choice v with
    | (v1, Err x) => (v1, Err x)
    | (VChoice t e (Some k) (Some w) as v1, Ok tt) =>
        match nth_error alts k with
        | Some (_, o) => let '(w', r) := f o w in (VChoice t e (Some k) (Some w'), r)
        | None => (v1, Err IndexError)
        end
    | (v1, Ok tt) => (v1, Err TypeError)
    end.

  (* 1182-1201 contents *)
  Definition contents_choice (v : value) : value * res (option bytes) :=
    match v with
    | VChoice t e (Some k) (Some w) =>
        match nth_error alts k with
        | Some (_, o) => let '(w', r) := x_contents o w in (VChoice t e (Some k) (Some w'), r)
        | None => (v, Err IndexError)
        end
    | VChoice t e _ _ => (v, Ok (e_contents e))
    | _ => (v, Err TypeError)
    end.

  (* 1240-1249 native *)
  Definition native_choice (v : value) : value * res aval :=
    match parse_choice v with
    | (v1, Err x) => (v1, Err x)
    | (VChoice t e (Some k) (Some w) as v1, Ok tt) =>
        match nth_error alts k with
        | Some (_, o) => let '(w', r) := x_native o w in (VChoice t e (Some k) (Some w'), r)
        | None => (v1, Err IndexError)
        end
    | (v1, Ok tt) => (v1, Err TypeError)
    end.

  (* 1340-1362 dump *)
  Definition dump_choice (force : bool) (v : value) : value * res bytes :=
    match v with
    | VChoice _ e0 _ _ =>
        let force := force || ends_80 (e_header e0) in
        match choice_with (fun o w => x_dump o force w) v with
        | (v1, Err x) => (v1, Err x)
        | (VChoice t e idx w, Ok b) =>
            let h := match e_header e with
                     | Some h => if force then wrap (t_explicit t) [] b else h
                     | None => wrap (t_explicit t) [] b
                     end in
            (VChoice t (Enc (e_method e) (Some h) (Some b) (e_trailer e) (e_indef e)) idx w, Ok (h ++ b))
        | (v1, Ok _) => (v1, Err TypeError)
        end
    | _ => (v, Err TypeError)
    end.

  (* 1323-1338 _copy *)
  Definition copy_choice (t : tagging) (v : value) : res value :=
    match contents_choice v with
    | (VChoice _ _ idx w, Ok x) =>
        do w' <- match idx, w with
                 | Some k, Some w => match nth_error alts k with
                                     | Some (_, o) => do u <- x_copy o w; Ok (Some u)
                                     | None => Err IndexError
                                     end
                 | _, _ => Ok None
                 end;
        Ok (VChoice t (Enc 1 None x [] false) idx w')
    | (_, Ok _) => Err TypeError
    | (_, Err x) => Err x
    end.

  (* .chosen, for its effect on the object; the index is not used *)
  Definition choice_ops : ops :=
    Ops None true
      (fun p i => match (do t <- init_choice p; validate (t_explicit t) i) with Ok _ => true | Err _ => false end)
      make_choice build_choice contents_choice dump_choice (fun _ v => (v, Err AttributeError)) native_choice
      (fun p v => do t <- init_choice p; copy_choice t v)
      (fun v => copy_choice (tagging_of v) v)
      (fun _ v => parse_choice v) (fun _ _ v => (v, Err TypeError)) (fun _ v => (v, Err TypeError))
      (fun _ v => (v, Err AttributeError)) (fun v => (v, Err TypeError)).
End Alternatives.

Section Primitives.
  Variable k : kind.
  Variable c : pcls.
  Definition on_prim {A} (f : obj -> obj * res A) (v : value) : value * res A :=
    match v with VPrim o => let '(o', r) := f o in (VPrim o', r) | _ => (v, Err TypeError) end.
  (* Primitive.__init__ 1663-1692; dicts, lists and tuples are refused by every set() but
     those of Boolean and Null *)
  Definition make_prim (p : params) (dflt : option aval) (a : aval) : res value :=
    match (match a, dflt with ANone, Some d => d | _, _ => a end) with
    | ANone => do o <- make k c p NNone; Ok (VPrim o)
    | APrim v => do o <- make k c p v; Ok (VPrim o)
    | b =>
        match k with
        | KBool =>                                     (* bool(value) of a dict, list or tuple *)
            do o <- make k c p (NBool (match b with ADict [] | AList [] => false | _ => true end)); Ok (VPrim o)
        | KNull => do o <- make k c p (NBool true); Ok (VPrim o)       (* the argument is not looked at *)
        | _ => Err TypeError
        end
    end.
  Definition native_of (v : native) : aval := match v with NNone => ANone | _ => APrim v end.
  Definition prim_ops : ops :=
    Ops (Some (k_class c, k_tag c)) false (fun _ _ => false)
      make_prim
      (fun p _ i => do o <- build k c p i; Ok (VPrim o))
      (on_prim (fun o => (o, Ok (contents o))))
      (fun force => on_prim (fun o => dump k c o force))
      (fun _ v => (v, Err AttributeError))
      (on_prim (fun o => let '(o', r) := get_native k c o in (o', do v <- r; Ok (native_of v))))
      (fun p v => match v with VPrim o => do o' <- retag k c p o; Ok (VPrim o') | _ => Err TypeError end)
      (fun v => match v with VPrim o => do o' <- copy k c o; Ok (VPrim o') | _ => Err TypeError end)
      (fun _ v => (v, Err TypeError)) (fun _ _ v => (v, Err TypeError)) (fun _ v => (v, Err TypeError))
      (fun _ v => (v, Err AttributeError)) (fun v => (v, Err TypeError)).
End Primitives.

Definition class_explicit (s : spec) : list (Z * Z) :=
  match s with
  | SPrim _ c | SSeq c _ | SSet c _ | SSeqOf c _ | SSetOf c _ => k_explicit c
  | SChoice ex _ => ex
  end.

Fixpoint methods (s : spec) : ops :=
  match s with
  | SPrim k c => prim_ops k c
  | SSeq c fs => seq_ops c (map (fun fs => (fst fs, methods (snd fs))) fs) false
  | SSet c fs => seq_ops c (map (fun fs => (fst fs, methods (snd fs))) fs) true
  | SSeqOf c s => list_ops c (methods s) (class_explicit s) false
  | SSetOf c s => list_ops c (methods s) (class_explicit s) true
  | SChoice ex alts => choice_ops ex (map (fun fs => (fst fs, methods (snd fs))) alts)
  end.

(* core.py:216-240, 1060-1080 load *)
Definition cload (s : spec) (p : params) (data : bytes) (strict : bool) : res value :=
  do (i, e) <- parse_ data (len data) 0;
  if strict && negb (e =? len data) then Err ValueError else x_build (methods s) p None i.
