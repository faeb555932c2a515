(* Model of dump() of what the constructor of a class makes of a Python value, for classes that
   refer to one another and choose the class of a field by the value of another one
   (/repo/asn1crypto/core.py 3382-3455, 3564-3615, 3673-3709, 3738-3871, 4189-4330, 1100-1165).
   See ReadModel.v for the classes.  A dict is ADict, a list AList, a tuple of a name and a value
   AChoice, an object AObj: an object of the class expected there, made of a Python value.

   Simplifications: the objects in between are not modelled, only what they are written as; an object given
   as the value of a field is taken to be made of its Python value with the tags of the field;
   a field with a default that is absent, or given as None, writes nothing (the object made from the default is
   encoded and compared to the encoding of another one made from it); errors may be others, or raised in
   another order; objects of another class given for an Any or a Choice are left out; a class chosen for the inside of a
   string is taken not to be a Choice (3820-3842 would come first). *)
Require Import Verif.Base Verif.IntModel Verif.ParserModel Verif.Text Verif.PrimModel Verif.ContModel Verif.GenModel Verif.ReadModel Verif.RecodeModel.

Fixpoint map_res {A B} (f : A -> res B) (l : list A) : res (list B) :=
  match l with [] => Ok [] | x :: r => do y <- f x; do t <- map_res f r; Ok (y :: t) end.

Section Write.
Variable env : ref -> option rclass.
(* the contents that set(value) of a class with a method of its own makes of a value *)
Variable own : ref -> option (native -> res bytes).
(* dump() of the object made from a default *)
Variable default_of : rfield -> option bytes.
(* the fields that __setitem__ of the class sets on its own, added to those given *)
Variable fill : ref -> list (text * aval) -> list (text * aval).
(* classes whose constructor is not modelled *)
Variable special : ref -> bool.

Definition bare (x : aval) : aval := match x with AObj _ a => a | _ => x end.
Definition choice_class (r : ref) : bool := match def_of env r with Some (DChoice _ _) => true | _ => false end.

(* 1663-1692, and set of the class *)
Definition prim_written (kd : kind) (c : pcls) (f : option (native -> res bytes)) (p : params) (i : aval) : res bytes :=
  match f, i with
  | _, ANone =>                                  (* no contents: 3593-3599 *)
      match kd with KNull => do o <- make kd c p NNone; snd (dump kd c o false) | _ => Err ValueError end
  | Some f, APrim v => do x <- f v; do t <- init_tagging c p; Ok (full_header t 0 x ++ x)
  | None, APrim v => do o <- make kd c p v; snd (dump kd c o false)
  | _, _ => Err TypeError
  end.

(* self['a']['b'].native, of what was made of a Python value *)
Definition field_key (kg : ref -> aval -> list text -> res aval) (fs : list rfield) (li : list (text * aval)) (path : list text) : res aval :=
  match path with
  | [] => Err KeyError
  | q :: rest =>
      match find (fun f => eqb_text (g_name f) q) fs, dict_get li q with
      | Some f, Some x => match g_class f with Some r => kg r (bare x) rest | None => Err TypeError end
      | _, _ => Err KeyError
      end
  end.
Fixpoint key_made (fuel : nat) (r : ref) (i : aval) (path : list text) : res aval :=
  match fuel with
  | O => Err OutOfFuel
  | S n =>
      match env r with
      | None => Err OutOfFuel
      | Some k =>
          match r_def k, path, i with
          | DPrim kd, [], APrim v =>
              do o <- make kd (r_cls k) no_params v; do w <- snd (get_native kd (r_cls k) o); r_out k (native_of w)
          | DSeq fs _, _ :: _, ADict li => field_key (key_made n) fs (fill r li) path
          | _, _, _ => Err TypeError
          end
      end
  end.

Section One.
  Variable wr : ref -> params -> option ref -> aval -> res bytes.
  Variable kg : ref -> aval -> list text -> res aval.

  (* a Choice is given as a tuple, a dict with one item (not told apart from a tuple here) or an object: 3820-3842 *)
  Definition acceptable (r : ref) (x : aval) : bool :=
    match x with AObj _ _ | AChoice _ _ => true | _ => negb (choice_class r) end.
  (* 3785-3871 _make_value, and dump of what it makes *)
  Definition element_written (f : rfield) (pk : pick) (x : aval) : res bytes :=
    match pk, g_class f with
    | Keep, Some r => if acceptable r x then wr r (g_params f) None (bare x) else Err ValueError
    | As r, _ => if acceptable r x then wr r (g_params f) None (bare x) else Err ValueError
    | Inside r, Some k => wr k (g_params f) (Some r) x
    | _, None => Err TypeError
    end.
  Definition part_written (f : rfield) (pk : pick) (given : option aval) : res bytes :=
    match given, g_pres f with
    | None, GReq => Err ValueError
    | None, _ => Ok []
    | Some ANone, GOpt | Some ANone, GDef _ => Ok []                     (* 3809-3810 *)
    | Some x, _ =>
        do w <- element_written f pk x;
        Ok (match default_of f with Some d => if eqb_bytes d w then [] else w | None => w end)
    end.
  Fixpoint parts_written (fs : list rfield) (at_ : option nat) (pk : pick) (li : list (text * aval)) : res (list bytes) :=
    match fs with
    | [] => Ok []
    | f :: fr =>
        do w <- part_written f (match at_ with Some O => pk | _ => Keep end) (dict_get li (g_name f));
        do r <- parts_written fr (match at_ with Some (S n) => Some n | _ => None end) pk li;
        Ok (w :: r)
    end.
  Definition seq_written (fs : list rfield) (sel : option selector) (li li' : list (text * aval)) : res bytes :=
    if forallb (fun e => existsb (fun f => eqb_text (g_name f) (fst e)) fs) li then
      do pk <- match sel with None => Ok Keep | Some s => do a <- field_key kg fs li' (s_key s); picked s a end;
      do l <- parts_written fs (option_map s_field sel) pk li';
      Ok (concat l)
    else Err ValueError.                                                 (* 3437-3446 *)
  Definition items_written (sorted : bool) (item : ref) (li : list aval) : res bytes :=
    do l <- map_res (fun x => match x with
                              | AObj _ a => wr item no_params None a
                              | _ => if choice_class item then Err ValueError else wr item no_params None x
                              end) li;
    Ok (concat (if sorted then sort_bytes l else l)).
End One.

Fixpoint write (fuel : nat) (r : ref) (p : params) (inside : option ref) (i : aval) : res bytes :=
  match fuel with
  | O => Err OutOfFuel
  | S n =>
      match env r with
      | None => Err OutOfFuel
      | Some k =>
          let c := r_cls k in
          if special r then Err OutOfFuel
          else
          match r_def k, inside with
          | DPrim kd, None => prim_written kd c (own r) p i
          | DAny, None => Err TypeError                                  (* 876-906 *)
          | DParse bits, None =>
              match i with APrim (NBytes b) => string_dump bits c p b | ANone => Err ValueError | _ => Err TypeError end
          | DParse bits, Some r' =>
              do w <- match i with AObj q a => write n r' q None a | _ => write n r' no_params None i end;
              string_dump bits c p w
          | DSeq fs sel, None =>
              match i with
              | ADict [] | ANone => Err ValueError                       (* no contents *)
              | ADict li => do y <- seq_written (write n) (key_made n) fs sel li (fill r li); node_octets c p y
              | _ => Err AttributeError                                  (* value.keys() *)
              end
          | DOf item, None =>
              match i, item with
              | AList li, Some r' => do y <- items_written (write n) (k_tag c =? 17) r' li; node_octets c p y
              | _, _ => Err TypeError
              end
          | DChoice alts _, None =>
              do _ <- match p_implicit p with Some _ => Err ValueError | None => Ok tt end;
              do t <- init_tagging c p;
              match i with
              | AChoice name x =>
                  match find (fun f => eqb_text (g_name f) name) alts with
                  | Some f => match g_class f with
                              | Some r' => do w <- write n r' (g_params f) None (bare x); Ok (wrap (t_explicit t) [] w ++ w)
                              | None => Err TypeError
                              end
                  | None => Err ValueError
                  end
              | _ => Err ValueError
              end
          | _, Some _ => Err AttributeError
          end
      end
  end.
End Write.
