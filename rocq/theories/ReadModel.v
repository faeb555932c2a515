(* Model of reading the structures of the library: the native of what _build
   (/repo/asn1crypto/core.py 5438-5668) makes of an encoding under a class, for classes that
   refer to one another and choose the class of a field while reading (_determine_spec,
   3738-3783).  A class is what an environment says of a reference.

   Simplifications: the object in between is not modelled, only its native, so nothing is kept
   in caches; errors may be raised in another order; the class of a field is chosen only when
   the field is present; the fuel bounds the nesting of classes where Python bounds the nesting
   of calls.  Sets with named members, Concat and choices with a tag of their own are left out. *)
Require Import Verif.Base Verif.IntModel Verif.ParserModel Verif.Text Verif.PrimModel Verif.ContModel Verif.ParsModel Verif.GenModel.
Require Coq.Strings.String.
Notation string := String.string.

(* a class, or a SetOf or SequenceOf whose items are given by the param 'spec' (4189-4215) *)
Inductive ref := CName (n : string) | COf (n item : string).

(* the class chosen for a field: as declared, another one, or the one to parse the octets with
   (3757-3781, 3950-3957) *)
Inductive pick := Keep | As (r : ref) | Inside (r : ref).
(* the native of an object made from a default is part of the field *)
Inductive gpres := GReq | GOpt | GDef (x : aval).
Record rfield := RField { g_name : text; g_class : option ref; g_params : params; g_pres : gpres }.
(* the field whose class is chosen, the path to the value that decides, the choice by name,
   and the choice for anything else; None there is a KeyError *)
Record selector := Sel { s_field : nat; s_key : list text; s_table : list (text * pick); s_else : option pick }.

Inductive rdef :=
| DPrim (k : kind)
| DAny
| DParse (bits : bool)                            (* ParsableOctetString, ParsableOctetBitString *)
| DSeq (fs : list rfield) (sel : option selector)
| DOf (item : option ref)                         (* SequenceOf and SetOf; without a class, universal types *)
| DChoice (alts : list rfield) (fix_at : option nat).   (* fix_at: CertificateChoices.validate, see below *)
(* r_out: what a native method of its own makes of the native *)
Record rclass := RClass { r_cls : pcls; r_def : rdef; r_out : aval -> res aval }.

Fixpoint index_of {A} (f : A -> bool) (l : list A) (n : nat) : option nat :=
  match l with [] => None | x :: r => if f x then Some n else index_of f r (S n) end.

Section Read.
Variable env : ref -> option rclass.
Variable pad : bool.

(* ---- ids of fields: 5337-5379 ---- *)
Definition def_of (r : ref) : option rdef := option_map r_def (env r).
Definition class_id (r : ref) : option (Z * Z) :=
  match env r with
  | Some k => match r_def k with DAny | DChoice _ _ => None | _ => Some (k_class (r_cls k), k_tag (r_cls k)) end
  | None => None
  end.
Definition field_id (f : rfield) : option (Z * Z) :=
  match p_explicit (g_params f) with
  | x :: _ => Some x
  | [] => match p_implicit (g_params f) with
          | Some x => Some x
          | None => match g_class f with Some r => class_id r | None => None end
          end
  end.
(* 1082-1096 _id_map: the last alternative with an id counts *)
Fixpoint alt_at (l : list rfield) (n : nat) (cl tg : Z) : option nat :=
  match l with
  | [] => None
  | f :: r => match alt_at r (S n) cl tg with
              | Some m => Some m
              | None => if same_id (field_id f) cl tg then Some n else None
              end
  end.

(* ---- opening an encoding: 5484-5547, 5563-5608 ---- *)
Definition stripped (c : pcls) (p : params) (i : info) : res (info * tagging * bytes * bytes) :=
  if has_explicit c p then
    do t <- init_tagging c p;
    do (j, hd, tl) <- peel (rev (t_explicit t)) i (i_header i) (i_trailer i);
    do t' <- init_tagging c (Params [] None true);
    Ok (j, t', hd, tl)
  else do t <- init_tagging c p; Ok (i, t, i_header i, i_trailer i).
Definition opened (c : pcls) (p : params) (i : info) : res bytes :=
  do (j, t, _, _) <- stripped c p i;
  if check_tags c t j then Ok (i_contents j) else Err ValueError.

(* ---- Any: 942-981, with 5612-5650 ---- *)
Definition gen_native (i : info) : res aval := do o <- gbuild pad i; snd (whole_native pad o).
Fixpoint unwrapped (ex : list (Z * Z)) (i : info) : res info :=
  match ex with
  | [] => Ok i
  | _ :: r => do (j, _) <- parse_ (i_contents i) (len (i_contents i)) 0; unwrapped r j
  end.
Definition any_native (c : pcls) (p : params) (i : info) : res aval :=
  do (j, _, hd, tl) <- stripped c p i;
  do t <- init_tagging c p;
  let d := hd ++ i_contents j ++ tl in
  do (i', _) <- parse_ d (len d) 0;
  do j' <- unwrapped (t_explicit t) i';
  gen_native j'.

(* ---- primitive values ---- *)
Definition prim_native (k : kind) (c : pcls) (p : params) (i : info) : res aval :=
  do o <- build k c p i; do v <- snd (get_native k c o); Ok (native_of v).
(* 2813-2825 __bytes__ of the parsable strings *)
Definition octets_in (bits : bool) (c : pcls) (p : params) (i : info) : res bytes :=
  do o <- build (pkind bits) c p i;
  pmerged bits c (e_indef (o_enc o)) (match contents o with Some x => x | None => [] end).

(* ---- the elements of a Sequence: 3909-4004 ---- *)
(* 3928-3940: may the element be this field *)
Definition takes (f : rfield) (i : info) : bool :=
  match g_pres f with
  | GReq => true
  | _ =>
      same_id (field_id f) (i_class i) (i_tag i)
      || match g_class f with
         | Some r => match def_of r with
                     | Some DAny => true
                     | Some (DChoice alts _) =>
                         match p_explicit (g_params f), p_implicit (g_params f), alt_at alts 0 (i_class i) (i_tag i) with
                         | [], None, Some _ => true
                         | _, _, _ => false
                         end
                     | _ => false
                     end
         | None => false
         end
  end.
(* the element of each field, if there is one; elements after the last field follow *)
Fixpoint absent (l : list rfield) : res (list (option info)) :=
  match l with
  | [] => Ok []
  | f :: r => match g_pres f with GReq => Err ValueError | _ => do t <- absent r; Ok (None :: t) end
  end.
Fixpoint assign (fuel : nat) (cont : bytes) (l : list rfield) (parts : option info) (pointer : Z)
  : res (list (option info)) :=
  match fuel with
  | O => Err OutOfFuel
  | S n =>
      match parts with
      | None =>
          if pointer <? len cont then
            do (i, pointer') <- parse_ cont (len cont) pointer;
            assign n cont l (Some i) pointer'
          else absent l
      | Some i =>
          match l with
          | [] => do t <- assign n cont [] None pointer; Ok (Some i :: t)
          | f :: r =>
              if takes f i then do t <- assign n cont r None pointer; Ok (Some i :: t)
              else do t <- assign n cont r (Some i) pointer; Ok (None :: t)
          end
      end
  end.

Section One.
  Variable rd : ref -> params -> option ref -> info -> res aval.

  (* _lazy_child and native of a child: 3497-3505, 4076-4084 *)
  Definition field_read (f : rfield) (pk : pick) (i : info) : res aval :=
    match pk, g_class f with
    | Keep, Some r => rd r (g_params f) None i
    | As r, _ => rd r (g_params f) None i
    | Inside r, Some k => rd k (g_params f) (Some r) i
    | _, None => gen_native i
    end.
  Definition field_native (f : rfield) (pk : pick) (x : option info) : res aval :=
    match x with
    | Some i => field_read f pk i
    | None => match g_pres f with GReq => Err ValueError | GOpt => Ok ANone | GDef d => Ok d end
    end.

  (* self['a']['b'].native, a being a field before the one that is chosen *)
  Fixpoint follow (a : aval) (path : list text) : res aval :=
    match path with
    | [] => Ok a
    | n :: r => match a with
                | ADict l => match dict_get l n with Some b => follow b r | None => Err KeyError end
                | _ => Err TypeError
                end
    end.
  Definition key_native (fs : list rfield) (s : selector) (xs : list (option info)) : res aval :=
    match s_key s with
    | [] => Err KeyError
    | n :: r =>
        match index_of (fun f => eqb_text (g_name f) n) fs 0 with
        | None => Err KeyError
        | Some k =>
            if Nat.ltb k (s_field s) then
              match nth_error fs k, nth_error xs k with
              | Some f, Some x => do a <- field_native f Keep x; follow a r
              | _, _ => Err IndexError
              end
            else Err IndexError
        end
    end.
  Fixpoint table_get (l : list (text * pick)) (t : text) : option pick :=
    match l with [] => None | (n, x) :: r => if eqb_text n t then Some x else table_get r t end.
  Definition picked (s : selector) (a : aval) : res pick :=
    match (match a with APrim (NText t) => table_get (s_table s) t | _ => None end) with
    | Some x => Ok x
    | None => match s_else s with Some x => Ok x | None => Err KeyError end
    end.
  Definition chosen_pick (fs : list rfield) (sel : option selector) (xs : list (option info)) : res pick :=
    match sel with
    | None => Ok Keep
    | Some s => match nth_error xs (s_field s) with
                | Some (Some _) => do a <- key_native fs s xs; picked s a
                | _ => Ok Keep
                end
    end.

  (* 4060-4091 native; at: positions before the one whose class is chosen *)
  Fixpoint natives (fs : list rfield) (at_ : option nat) (pk : pick) (pos : Z) (xs : list (option info)) : res (list (text * aval)) :=
    match xs with
    | [] => Ok []
    | x :: xr =>
        match fs with
        | f :: fr =>
            do a <- field_native f (match at_ with Some O => pk | _ => Keep end) x;
            do r <- natives fr (match at_ with Some (S n) => Some n | _ => None end) pk (pos + 1) xr;
            Ok ((g_name f, a) :: r)
        | [] =>
            match x with
            | Some i => do a <- gen_native i; do r <- natives [] None pk (pos + 1) xr; Ok ((dec pos, a) :: r)
            | None => Err IndexError
            end
        end
    end.
  Definition seq_native (fs : list rfield) (sel : option selector) (cont : bytes) : res aval :=
    do xs <- assign (S (2 * length cont + length fs)) cont fs None 0;
    do pk <- chosen_pick fs sel xs;
    do l <- natives fs (option_map s_field sel) pk 0 xs;
    Ok (ADict l).
  Definition of_native (item : option ref) (cont : bytes) : res aval :=
    do l <- kids_loop (fun i => match item with Some r => rd r no_params None i | None => gen_native i end) (S (length cont)) cont 0;
    Ok (AList l).

  (* cms.py:490-513 CertificateChoices.validate: alternative k is taken for the next one if the first
     element inside says version 2 *)
  Definition recheck (fix_at : option nat) (k : nat) (cont : bytes) : res nat :=
    match fix_at with
    | Some n =>
        if Nat.eqb n k then
          do (x, _) <- parse_ cont (len cont) 0;
          do o <- (if check_tags (Cls 0 16 [] []) (Tagging 0 16 false []) x then gbuild pad x else Err ValueError);
          match snd (ask_at pad [0] (QDump false) o) with
          | Ok (ABytes d) =>
              do (i, _) <- parse_ d (len d) 0;
              do v <- prim_native (KInt [(0, tx "v1"); (1, tx "v2")]) (Cls 0 2 [] []) no_params i;
              match v with
              | APrim (NText t) => if eqb_text t (tx "v2") then Ok (S k) else Ok k
              | _ => Ok k
              end
          | Ok _ => Err TypeError
          | Err x => Err x
          end
        else Ok k
    | None => Ok k
    end.
  (* 5567-5577, 1213-1249: the alternative is parsed from header and contents, without the trailer *)
  Definition choice_native (c : pcls) (alts : list rfield) (fix_at : option nat) (p : params) (i : info) : res aval :=
    do _ <- match p_implicit p with Some _ => Err ValueError | None => Ok tt end;
    do (j, _, _, _) <- stripped c p i;
    match alt_at alts 0 (i_class j) (i_tag j) with
    | None => Err ValueError
    | Some k0 =>
        do k <- recheck fix_at k0 (i_contents j);
        match nth_error alts k with
        | None => Err IndexError
        | Some f =>
            let d := i_header j ++ i_contents j in
            do (j', _) <- parse_ d (len d) 0;
            field_read f Keep j'
        end
    end.
End One.

(* the native of what _build makes of i under class and params; inside: the class the octets
   are parsed with (nested_spec) *)
Fixpoint read (fuel : nat) (r : ref) (p : params) (inside : option ref) (i : info) : res aval :=
  match fuel with
  | O => Err OutOfFuel
  | S n =>
      match env r with
      | None => Err OutOfFuel
      | Some k =>
          let c := r_cls k in
          do a <- match r_def k, inside with
                  | DPrim kd, None => prim_native kd c p i
                  | DAny, None => any_native c p i
                  | DParse bits, None => do b <- octets_in bits c p i; Ok (APrim (NBytes b))
                  | DParse bits, Some r' =>
                      do b <- octets_in bits c p i;
                      do (j, _) <- parse_ b (len b) 0;
                      read n r' no_params None j
                  | DSeq fs sel, None => do x <- opened c p i; seq_native (read n) fs sel x
                  | DOf item, None => do x <- opened c p i; of_native (read n) item x
                  | DChoice alts fix_at, None => choice_native (read n) c alts fix_at p i
                  | _, Some _ => Err AttributeError
                  end;
          r_out k a
      end
  end.

(* cls.load(data, strict).native: 5671-5706 *)
Definition read_from (fuel : nat) (r : ref) (data : bytes) (strict : bool) : res aval :=
  do (i, e) <- parse_ data (len data) 0;
  if strict && negb (e =? len data) then Err ValueError else read fuel r no_params None i.
End Read.
