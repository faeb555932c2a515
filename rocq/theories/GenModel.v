(* Model of loading without a class: core.load and Asn1Value.load without a spec
   (/repo/asn1crypto/core.py 115-166, 216-240), _build without a spec (5630-5665) with the table
   _UNIVERSAL_SPECS (5408-5437), and the methods of the classes of that table: the
   primitive ones (PrimModel.v) and Sequence, Set and EmbeddedPdv without fields.

   Simplifications: Python's limit on nested calls is not modelled; only reading is (no
   set() on a primitive found inside, no copy); an index into a primitive is a TypeError here,
   as for most of the classes, though bit strings have items of their own; the dict that
   is returned as native is not shared with the caller. *)
Require Import Verif.Base Verif.IntModel Verif.ParserModel Verif.Text Verif.CodecModel Verif.PrimModel Verif.ContModel.

(* Sequence, Set and EmbeddedPdv, which have the same methods but for _parse_children,
   _set_contents and dump *)
Inductive node := NSeq | NSet | NPdv.
Inductive gclass := GPrimitive (k : kind) (c : pcls) | GNode (w : node).

(* pad: see TimeModel *)
Section Pad.
Variable pad : bool.

(* 5408-5437 _UNIVERSAL_SPECS *)
Definition universal (tag : Z) : option gclass :=
  let prim k := Some (GPrimitive k (Cls 0 tag [] [])) in
  match tag with
  | 1 => prim KBool
  | 2 => prim (KInt [])
  | 3 => prim (KBits None)
  | 4 => prim KOctets
  | 5 => prim KNull
  | 6 => prim (KOid [])
  | 7 => prim KRaw                   (* ObjectDescriptor *)
  | 8 => prim KRaw                   (* InstanceOf *)
  | 9 => prim KRaw                   (* Real *)
  | 10 => prim (KEnum None)
  | 11 => Some (GNode NPdv)
  | 12 => prim (KStr Utf8)
  | 13 => prim (KOid [])             (* RelativeOid *)
  | 16 => Some (GNode NSeq)
  | 17 => Some (GNode NSet)
  | 18 => prim (KStr Latin1)         (* NumericString *)
  | 19 => prim (KStr Latin1)         (* PrintableString *)
  | 20 => prim (KStr Teletex)
  | 21 => prim KOctets               (* VideotexString *)
  | 22 => prim (KStr Ascii)          (* IA5String *)
  | 23 => prim KUtcTime
  | 24 => prim (KGenTime pad)
  | 25 => prim (KStr Latin1)         (* GraphicString *)
  | 26 => prim (KStr Latin1)         (* VisibleString *)
  | 27 => prim (KStr Latin1)         (* GeneralString *)
  | 28 => prim (KStr Utf32be)        (* UniversalString *)
  | 29 => prim (KStr Latin1)         (* CharacterString *)
  | 30 => prim (KStr Utf16be)        (* BMPString *)
  | _ => None
  end.

(* objects; a child that has not been built is the tuple _parse made of it *)
Inductive gobj :=
| OPrim (k : kind) (c : pcls) (o : obj)
| ONode (w : node) (t : tagging) (e : enc) (ch : option (list (info + gobj))) (nat : option (list (text * aval))).

(* 5630-5665: the class is chosen by the tag number alone; class and method are those found *)
Definition gbuild (i : info) : res gobj :=
  match universal (i_tag i) with
  | None => Err ValueError
  | Some (GPrimitive k c) =>
      let indef := (i_method i =? 1) && eqb_bytes (i_trailer i) [0; 0] && constructable k in
      Ok (OPrim k c (Obj (Tagging (i_class i) (i_tag i) false [])
                         (Enc (i_method i) (Some (i_header i)) (Some (i_contents i)) (i_trailer i) indef) no_cache None))
  | Some (GNode w) =>
      Ok (ONode w (Tagging (i_class i) (i_tag i) false [])
                  (Enc (i_method i) (Some (i_header i)) (Some (i_contents i)) (i_trailer i) false) None None)
  end.

(* 216-240 load without a spec, 5671-5706 *)
Definition gload (data : bytes) (strict : bool) : res gobj :=
  do (i, e) <- parse_ data (len data) 0;
  if strict && negb (e =? len data) then Err ValueError else gbuild i.

(* 3912-3989 the loop of Sequence._parse_children without fields; f makes the child *)
Fixpoint kids_loop {A} (f : info -> res A) (fuel : nat) (cont : bytes) (pointer : Z) : res (list A) :=
  match fuel with
  | O => Err OutOfFuel
  | S n =>
      if pointer <? len cont then
        do (i, pointer') <- parse_ cont (len cont) pointer;
        do x <- f i;
        do r <- kids_loop f n cont pointer';
        Ok (x :: r)
      else Ok []
  end.

Definition cont_of (e : enc) : bytes := match e_contents e with Some c => c | None => [] end.

(* 3891-4010 Sequence._parse_children and 4663-4748 Set._parse_children without fields;
   no element of a Set matches a field *)
Fixpoint parse_kids (fuel : nat) (recurse : bool) (w : node) (cont : bytes) : res (list (info + gobj)) :=
  match fuel with
  | O => Err OutOfFuel
  | S n =>
      match w with
      | NSet => match cont with
                | [] => Ok []
                | _ => do _ <- parse_ cont (len cont) 0; Err ValueError
                end
      | _ =>
          kids_loop (fun i =>
            if recurse then
              do o <- gbuild i;
              match o with
              | ONode w' t e _ nat => do l <- parse_kids n true w' (cont_of e); Ok (inr (ONode w' t e (Some l) nat))
              | _ => Ok (inr o)
              end
            else Ok (inl i)) (S (length cont)) cont 0
      end
  end.

Definition kids (recurse : bool) (w : node) (e : enc) (ch : option (list (info + gobj))) : res (list (info + gobj)) :=
  match ch with Some l => Ok l | None => parse_kids (S (length (cont_of e))) recurse w (cont_of e) end.

(* 3497-3505 _lazy_child *)
Definition lazy (x : info + gobj) : res gobj := match x with inl i => gbuild i | inr o => Ok o end.

(* the loop of native 4076-4084: the children, what has been read, and the error if one
   stopped it *)
Section Read.
  Variable nat_of : gobj -> gobj * res aval.
  Fixpoint read_loop (index : Z) (l : list (info + gobj)) : list (info + gobj) * list (text * aval) * option exn :=
    match l with
    | [] => ([], [], None)
    | x :: r =>
        match lazy x with
        | Err e => (l, [], Some e)
        | Ok o =>
            match nat_of o with
            | (o', Err e) => (inr o' :: r, [], Some e)
            | (o', Ok v) => let '(r', vs, e) := read_loop (index + 1) r in (inr o' :: r', (dec index, v) :: vs, e)
            end
        end
    end.
End Read.

(* 4060-4091 Sequence.native; an exception other than ValueError and TypeError leaves what
   has been read so far as native *)
Fixpoint gnative (fuel : nat) (o : gobj) : gobj * res aval :=
  match fuel with
  | O => (o, Err OutOfFuel)
  | S n =>
      match o with
      | OPrim k c p => let '(p', r) := get_native k c p in (OPrim k c p', do v <- r; Ok (native_of v))
      | ONode w t e ch (Some d) => (o, Ok (ADict d))
      | ONode w t e ch None =>
          match kids true w e ch with
          | Err x => (o, Err x)
          | Ok l =>
              match read_loop (gnative n) 0 l with
              | (l', d, None) => (ONode w t e (Some l') (Some d), Ok (ADict d))
              | (l', d, Some x) => (ONode w t e (Some l') (if caught x then None else Some d), Err x)
              end
          end
      end
  end.

(* as deep as an object can be nested *)
Fixpoint height (o : gobj) : nat :=
  match o with
  | OPrim _ _ _ => O
  | ONode _ _ e None _ => S (length (cont_of e))
  | ONode _ _ e (Some l) _ =>
      S (fold_right (fun x n => Nat.max (match x with inl i => S (length (i_contents i)) | inr c => height c end) n) O l)
  end.
Definition whole_native (o : gobj) : gobj * res aval := gnative (S (height o)) o.

(* 632-663 Asn1Value.dump of a node *)
Definition node_dump (w : node) (t : tagging) (e : enc) ch nat : gobj * res bytes :=
  match (if ends_80 (e_header e) then None else e_header e) with
  | Some h => (ONode w t e ch nat, Ok (h ++ cont_of e ++ e_trailer e))
  | None => let h := full_header t (e_method e) (cont_of e) in
            (ONode w t (Enc (e_method e) (Some h) (Some (cont_of e)) [] (e_indef e)) ch nat, Ok (h ++ cont_of e))
  end.

(* 4127-4163 Sequence.dump: only the class Sequence itself is never forced; a class
   without fields then has empty contents (3675-3709, 4756-4806) *)
Definition gdump (force : bool) (o : gobj) : gobj * res bytes :=
  match o with
  | OPrim k c p => let '(p', r) := dump k c p force in (OPrim k c p', r)
  | ONode w t e ch nat =>
      if (force || ends_80 (e_header e)) && match w with NSeq => false | _ => true end then
        match kids false w e ch with
        | Err x => (o, Err x)
        | Ok l => node_dump w t (Enc (e_method e) None (Some []) [] (e_indef e)) (Some l) nat
        end
      else node_dump w t e ch nat
  end.

(* Python's l[i], where i may count from the end *)
Definition place (n : nat) (i : Z) : option nat :=
  if (0 <=? i) && (i <? Z.of_nat n) then Some (Z.to_nat i)
  else if (i <? 0) && (0 <=? i + Z.of_nat n) then Some (Z.to_nat (i + Z.of_nat n))
  else None.

Fixpoint put {A} (l : list A) (n : nat) (x : A) : list A :=
  match l, n with
  | [], _ => []
  | _ :: r, O => x :: r
  | a :: r, S n' => a :: put r n' x
  end.

(* what is asked of an object: .native, .dump(force), len(), and [i] = v or del [i],
   which find no field to assign to (3592, 3646) *)
Inductive ask := QNative | QDump (force : bool) | QLen | QAssign.
Inductive answer := ANative (v : aval) | ABytes (b : bytes) | ALen (n : Z).

(* asked of the object found by indexing: 3519-3560 __getitem__ *)
Fixpoint ask_at (path : list Z) (q : ask) (o : gobj) : gobj * res answer :=
  match path with
  | [] =>
      match q, o with
      | QNative, _ => let '(o', r) := whole_native o in (o', do v <- r; Ok (ANative v))
      | QDump f, _ => let '(o', r) := gdump f o in (o', do b <- r; Ok (ABytes b))
      | _, OPrim _ _ _ => (o, Err TypeError)
      | QLen, ONode w t e ch nat =>
          match kids false w e ch with
          | Err x => (o, Err x)
          | Ok l => (ONode w t e (Some l) nat, Ok (ALen (Z.of_nat (length l))))
          end
      | QAssign, ONode w t e ch nat =>
          match kids false w e ch with
          | Err x => (o, Err x)
          | Ok l => (ONode w t e (Some l) nat, Err IndexError)
          end
      end
  | i :: path' =>
      match o with
      | OPrim _ _ _ => (o, Err TypeError)
      | ONode w t e ch nat =>
          match kids false w e ch with
          | Err x => (o, Err x)
          | Ok l =>
              match place (length l) i with
              | None => (ONode w t e (Some l) nat, Err (if i <? 0 then IndexError else KeyError))
              | Some n =>
                  match nth_error l n with
                  | None => (o, Err IndexError)
                  | Some x =>
                      match lazy x with
                      | Err x => (ONode w t e (Some l) nat, Err x)
                      | Ok c => let '(c', r) := ask_at path' q c in (ONode w t e (Some (put l n (inr c'))) nat, r)
                      end
                  end
              end
          end
      end
  end.

Fixpoint ask_all (l : list (list Z * ask)) (o : gobj) : gobj :=
  match l with [] => o | (p, q) :: r => ask_all r (fst (ask_at p q o)) end.
End Pad.
