(* Model of the primitive value objects: Asn1Value, Primitive, Constructable and the
   primitive classes of /repo/asn1crypto/core.py, with the state each object keeps,
   and of _build/_parse_build (core.py:5438-5706) for primitive specs.

   Simplifications: Python classes are described by a [kind] and the class attributes
   in [pcls]; class names given as strings ('context') are given as their numbers;
   aliasing of mutable native values (the set object of a named bit string) is not
   modelled; ParsableOctetString and ParsableOctetBitString are not modelled here. *)
Require Import Verif.Base Verif.IntModel Verif.ParserModel Verif.Text Verif.OidModel Verif.BitModel
  Verif.CodecModel Verif.Calendar Verif.TimeModel.

(* The classes, with their _map where they can have one *)
Inductive kind :=
| KBool                                  (* Boolean, 1862 *)
| KInt (m : list (Z * text))             (* Integer, 1915; [] is "no _map" *)
| KEnum (m : option (list (Z * text)))   (* Enumerated, 3239 *)
| KBits (m : option (list (Z * text)))   (* BitString, 2104 *)
| KOctetBits                             (* OctetBitString, 2359 *)
| KIntBits                               (* IntegerBitString, 2505 *)
| KOctets                                (* OctetString, 2570; VideotexString, 4878 *)
| KIntOctets                             (* IntegerOctetString, 2648 *)
| KNull                                  (* Null, 2959 *)
| KOid (m : list (text * text))          (* ObjectIdentifier, 2990; RelativeOid, 3316 *)
| KStr (e : encoding)                    (* the AbstractString classes *)
| KUtcTime                               (* UTCTime, 4993 *)
| KGenTime (pad : bool)                  (* GeneralizedTime, 5079; pad: see TimeModel *)
| KRaw.                                  (* ObjectDescriptor, InstanceOf, Real: 3215-3236 *)

(* isinstance(value, Constructable) *)
Definition constructable (k : kind) : bool :=
  match k with
  | KBits _ | KOctetBits | KIntBits | KOctets | KIntOctets | KStr _ | KUtcTime | KGenTime _ => true
  | _ => false
  end.

(* native Python values *)
Inductive native :=
| NNone
| NBool (b : bool)
| NInt (z : Z)
| NText (s : text)
| NBytes (b : bytes)
| NBits (l : list bool)     (* tuple of 0 and 1 *)
| NSet (s : list label)     (* set of names *)
| NTime (x : dt).

(* bool(value) *)
Definition truth (v : native) : bool :=
  match v with
  | NNone => false
  | NBool b => b
  | NInt z => negb (z =? 0)
  | NText s => negb (len s =? 0)
  | NBytes b => negb (len b =? 0)
  | NBits l => negb (len l =? 0)
  | NSet s => negb (len s =? 0)
  | NTime _ => true
  end.

(* isinstance(value, int_types): bool is a subclass of int *)
Definition as_int (v : native) : option Z :=
  match v with NInt z => Some z | NBool b => Some (if b then 1 else 0) | _ => None end.

(* class attributes: class_, tag, explicit, _bad_tag *)
Record pcls := Cls { k_class : Z; k_tag : Z; k_explicit : list (Z * Z); k_bad : list Z }.

(* instance attributes fixed by construction *)
Record tagging := Tagging { t_class : Z; t_tag : Z; t_implicit : bool; t_explicit : list (Z * Z) }.

(* instance attributes holding the encoding *)
Record enc := Enc {
  e_method : Z; e_header : option bytes; e_contents : option bytes; e_trailer : bytes; e_indef : bool }.

(* instance attributes caching decoded forms *)
Record cache := Cache {
  c_native : option native; c_bytes : option bytes; c_unicode : option text;
  c_unused : list bool; c_dotted : option text }.

Record obj := Obj { o_tagging : tagging; o_enc : enc; o_cache : cache; o_width : option Z }.

Definition no_cache : cache := Cache None None None [] None.

Definition with_enc (o : obj) (e : enc) : obj := Obj (o_tagging o) e (o_cache o) (o_width o).
Definition with_cache (o : obj) (c : cache) : obj := Obj (o_tagging o) (o_enc o) c (o_width o).
Definition set_native (o : obj) (v : option native) : obj :=
  let c := o_cache o in with_cache o (Cache v (c_bytes c) (c_unicode c) (c_unused c) (c_dotted c)).
Definition set_bytes (o : obj) (v : option bytes) : obj :=
  let c := o_cache o in with_cache o (Cache (c_native c) v (c_unicode c) (c_unused c) (c_dotted c)).
Definition set_unicode (o : obj) (v : option text) : obj :=
  let c := o_cache o in with_cache o (Cache (c_native c) (c_bytes c) v (c_unused c) (c_dotted c)).
Definition set_unused (o : obj) (v : list bool) : obj :=
  let c := o_cache o in with_cache o (Cache (c_native c) (c_bytes c) (c_unicode c) v (c_dotted c)).
Definition set_dotted (o : obj) (v : option text) : obj :=
  let c := o_cache o in with_cache o (Cache (c_native c) (c_bytes c) (c_unicode c) (c_unused c) v).
Definition set_contents (o : obj) (v : option bytes) : obj :=
  let e := o_enc o in with_enc o (Enc (e_method e) (e_header e) v (e_trailer e) (e_indef e)).
Definition contents (o : obj) : option bytes := e_contents (o_enc o).

(* the end of every set(): contents stored, _header and _trailer dropped, and for a
   Constructable an indefinite value becomes a primitive one (e.g. 1794-1818) *)
Definition store (k : kind) (o : obj) (c : bytes) : obj :=
  let e := o_enc o in
  if constructable k && e_indef e then with_enc o (Enc 0 None (Some c) [] false)
  else with_enc o (Enc (e_method e) None (Some c) [] (e_indef e)).

(* dict lookups; keys are unique in a dict, _reverse_map keeps the last entry with a
   given value (ValueMap._setup, core.py:680-690) *)
Fixpoint rev_get (m : list (Z * text)) (s : text) : option Z :=
  match m with
  | [] => None
  | (i, v) :: r => match rev_get r s with
                   | Some j => Some j
                   | None => if eqb_text v s then Some i else None
                   end
  end.
Fixpoint tmap_get (m : list (text * text)) (s : text) : option text :=
  match m with
  | [] => None
  | (a, v) :: r => if eqb_text a s then Some v else tmap_get r s
  end.
Fixpoint tmap_rev (m : list (text * text)) (s : text) : option text :=
  match m with
  | [] => None
  | (a, v) :: r => match tmap_rev r s with
                   | Some b => Some b
                   | None => if eqb_text v s then Some a else None
                   end
  end.

(* the native form of an integer under a _map (1922-1968, 1977-1993) *)
Definition int_native (m : list (Z * text)) (z : Z) : native :=
  match map_get m z with Some s => NText s | None => NInt z end.

(* set(): the new state and the exception raised, if any *)
Definition done (o : obj) : obj * res unit := (o, Ok tt).
Definition fail (o : obj) (e : exn) : obj * res unit := (o, Err e).

(* core.py:1922-1968 Integer.set after the str_cls branch *)
Definition set_int (k : kind) (m : list (Z * text)) (o : obj) (z : Z) : obj * res unit :=
  match int_to_bytes z true None with
  | Ok c => done (store k (set_native o (Some (int_native m z))) c)
  | Err e => fail (set_native o (Some (int_native m z))) e
  end.

(* core.py:1794-1818 AbstractString.set *)
Definition set_text (k : kind) (e : encoding) (o : obj) (s : text) : obj * res unit :=
  let o := set_unicode o (Some s) in
  match encode e s with
  | Ok c => done (store k o c)
  | Err x => fail o x
  end.

(* core.py:5046-5057, 5142-5156: the text to store for a time *)
Definition set_time (k : kind) (o : obj) (s : text) : obj * res unit :=
  match set_text k Latin1 o s with
  | (o', Ok tt) => (set_native o' None, Ok tt)
  | r => r
  end.

Definition size_of (m : option (list (Z * text))) : option Z :=
  match m with None => None | Some m => Some (map_size m) end.

(* core.py:2124-2221, common end of BitString.set *)
Definition set_bits (k : kind) (m : option (list (Z * text))) (o : obj) (bits : list bool) : obj * res unit :=
  match bitstring_encode (size_of m) bits with
  | Ok c => done (store k (set_unused o (repeat false (Z.to_nat (hd 0 c)))) c)
  | Err e => fail o e
  end.

Definition set_value (k : kind) (o : obj) (v : native) : obj * res unit :=
  match k with
  | KBool =>                                                         (* 1869-1881 *)
      done (store k (set_native o (Some (NBool (truth v)))) [if truth v then 255 else 0])
  | KInt m =>                                                        (* 1922-1968 *)
      match v with
      | NText s => match m, rev_get m s with
                   | [], _ => fail o ValueError
                   | _, None => fail o ValueError
                   | _, Some z => set_int k m o z
                   end
      | _ => match as_int v with Some z => set_int k m o z | None => fail o TypeError end
      end
  | KEnum None => fail o TypeError                                   (* "in None" *)
  | KEnum (Some m) =>                                                (* 3247-3288 *)
      match v with
      | NText s => match rev_get m s with None => fail o ValueError | Some z => set_int k m o z end
      | _ => match as_int v with
             | Some z => match map_get m z with None => fail o ValueError | Some _ => set_int k m o z end
             | None => fail o TypeError
             end
      end
  | KBits m =>                                                       (* 2124-2221 *)
      match v with
      | NSet s => match m with
                  | None => fail o ValueError
                  | Some mm => set_bits k m (set_native o (Some (NSet s))) (bits_of_set mm s)
                  end
      | NBits l => set_bits k m
                     (set_native o (Some (match m with None => NBits l | Some mm => NSet (set_of_bits mm l) end))) l
      | _ => fail o TypeError
      end
  | KOctetBits =>                                                    (* 2372-2401 *)
      match v with
      | NBytes b => done (store k (set_unused (set_bytes o (Some b)) []) (octetbits_encode b))
      | _ => fail o TypeError
      end
  | KIntBits =>                                                      (* 2512-2550 *)
      match as_int v with
      | Some z =>
          if z <? 0 then fail o ValueError
          else match intbits_encode z with
               | Ok c => done (store k (set_unused (set_native o (Some (NInt z))) []) c)
               | Err e => fail (set_native o (Some (NInt z))) e
               end
      | None => fail o TypeError
      end
  | KOctets =>                                                       (* 2580-2604 *)
      match v with
      | NBytes b => done (store k (set_bytes o (Some b)) b)
      | _ => fail o TypeError
      end
  | KIntOctets =>                                                    (* 2661-2697 *)
      match as_int v with
      | Some z =>
          if z <? 0 then fail o ValueError
          else let o := set_native o (Some (NInt z)) in
               match intoctets_encode (o_width o) z with
               | Ok c => done (store k o c)
               | Err e => fail o e
               end
      | None => fail o TypeError
      end
  | KNull => done (set_contents o (Some []))                         (* 2968-2976 *)
  | KOid m =>                                                        (* 3085-3148 *)
      match v with
      | NText s =>
          let o := set_native o (Some (NText s)) in
          let s := match tmap_rev m s with Some d => d | None => s end in
          match oid_set_parts s with
          | (c, None) => done (store k o c)
          | (c, Some e) => fail (set_contents o (Some c)) e
          end
      | _ => fail o TypeError
      end
  | KStr e => match v with NText s => set_text k e o s | _ => fail o TypeError end
  | KUtcTime =>                                                      (* 5029-5057 *)
      match v with
      | NTime x =>
          if d_year x =? 0 then fail o TypeError       (* extended_datetime is no datetime *)
          else match utctime_format x with Ok s => set_time k o s | Err e => fail o e end
      | NText s => set_time k o s
      | _ => fail o TypeError
      end
  | KGenTime pad =>                                                  (* 5125-5156 *)
      match v with
      | NTime x => match gentime_format pad x with Ok s => set_time k o s | Err e => fail o e end
      | NText s => set_time k o s
      | _ => fail o TypeError
      end
  | KRaw =>                                                          (* 1694-1715 *)
      match v with
      | NBytes b => done (store k (set_native o (Some (NBytes b))) b)
      | _ => fail o TypeError
      end
  end.

(* ---- construction and tagging ---- *)
(* keyword arguments explicit / implicit / no_explicit of __init__; p_explicit is the
   normalised tuple of (class, tag) pairs, innermost first *)
Record params := Params { p_explicit : list (Z * Z); p_implicit : option (Z * Z); p_no_explicit : bool }.
Definition no_params : params := Params [] None false.

Definition class_ok (c : Z) : bool := (0 <=? c) && (c <=? 3).

(* core.py:242-446, Asn1Value.__init__: the tagging of a new object *)
Definition init_tagging (c : pcls) (p : params) : res tagging :=
  do t <- (match p_explicit p with
           | _ :: _ =>
               if forallb (fun ct => class_ok (fst ct)) (p_explicit p)
               then Ok (Tagging (k_class c) (k_tag c) false (k_explicit c ++ p_explicit p))
               else Err ValueError
           | [] =>
               match p_implicit p with
               | Some (cl, tg) =>
                   if class_ok cl then Ok (Tagging cl tg true (k_explicit c)) else Err ValueError
               | None => Ok (Tagging (k_class c) (k_tag c) false (k_explicit c))
               end
           end);
  Ok (if p_no_explicit p then Tagging (t_class t) (t_tag t) (t_implicit t) [] else t).

(* class attribute contents = b'' of Null (2959) *)
Definition initial_contents (k : kind) : option bytes :=
  match k with KNull => Some [] | _ => None end.

(* an object of the class constructed without a value *)
Definition new_obj (k : kind) (c : pcls) (p : params) : res obj :=
  do t <- init_tagging c p;
  Ok (Obj t (Enc 0 None (initial_contents k) [] false) no_cache None).

(* an object constructed with a value: Primitive.__init__ 1663-1692 *)
Definition make (k : kind) (c : pcls) (p : params) (v : native) : res obj :=
  do o <- new_obj k c p;
  match v with
  | NNone => Ok o
  | _ => match set_value k o v with (o', Ok tt) => Ok o' | (_, Err e) => Err e end
  end.

(* core.py:5548-5608 with spec_params explicit removed: the checks of _build for a
   primitive spec *)
Definition build_plain (k : kind) (c : pcls) (p : params) (i : info) : res obj :=
  do t <- init_tagging c p;
  if negb (i_class i =? t_class t) then Err ValueError
  else
    let same := i_method i =? 0 in
    let ber_indef := (i_method i =? 1) && eqb_bytes (i_trailer i) [0; 0] in
    if negb same && negb (ber_indef && constructable k) then Err ValueError
    else if negb (i_tag i =? t_tag t) && negb (existsb (fun b => i_tag i =? b) (k_bad c)) then Err ValueError
    else Ok (Obj t (Enc (i_method i) (Some (i_header i)) (Some (i_contents i)) (i_trailer i) (negb same))
                 no_cache None).

(* core.py:5492-5547: taking off explicit tags, outermost first; header and trailer
   octets are accumulated.  Data after the inner value is ignored. *)
Fixpoint peel (ex : list (Z * Z)) (i : info) (hd tl : bytes) : res (info * bytes * bytes) :=
  match ex with
  | [] => Ok (i, hd, tl)
  | (cl, tg) :: r =>
      if negb (i_class i =? cl) then Err ValueError
      else if negb (i_method i =? 1) then Err ValueError
      else if negb (i_tag i =? tg) then Err ValueError
      else
        do (j, _) <- parse_ (i_contents i) (len (i_contents i)) 0;
        peel r j (hd ++ i_header j) (i_trailer j ++ tl)
  end.

Definition has_explicit (c : pcls) (p : params) : bool :=
  negb (p_no_explicit p) &&
  match k_explicit c, p_explicit p with [], [] => false | _, _ => true end.

(* core.py:5438-5668 _build for a primitive spec *)
Definition build (k : kind) (c : pcls) (p : params) (i : info) : res obj :=
  if has_explicit c p then
    do t <- init_tagging c p;
    do (j, hd, tl) <- peel (rev (t_explicit t)) i (i_header i) (i_trailer i);
    do o <- build_plain k c (Params [] None true) j;
    let e := o_enc o in
    Ok (Obj (Tagging (t_class (o_tagging o)) (t_tag (o_tagging o)) (t_implicit (o_tagging o)) (t_explicit t))
            (Enc (e_method e) (Some hd) (e_contents e) tl (e_indef e)) (o_cache o) (o_width o))
  else build_plain k c p i.

(* core.py:5671-5706 _parse_build *)
Definition parse_build (k : kind) (c : pcls) (p : params) (data : bytes) (pointer : Z) : res (obj * Z) :=
  do (i, e) <- parse_ data (len data) pointer;
  do o <- build k c p i;
  Ok (o, e).

(* core.py:216-240 load *)
Definition load (k : kind) (c : pcls) (p : params) (data : bytes) (strict : bool) : res obj :=
  do (i, e) <- parse_ data (len data) 0;
  if strict && negb (e =? len data) then Err ValueError else build k c p i.

(* ---- chunk merging: core.py:747-771 Constructable._merge_chunks ---- *)
Section Merge.
  Variable X : Type.
  Variable as_chunk : bool -> bytes -> res (list X).   (* _as_chunk, given _indefinite *)
  Variable k : kind.
  Variable c : pcls.

  Fixpoint merge_loop (n : nat) (rec : bool -> bytes -> res (list X)) (cont : bytes) (pointer : Z)
    (acc : option (list X)) : res (list X) :=
    match n with
    | O => Err OutOfFuel
    | S n' =>
        if pointer <? len cont then
          do (o, pointer') <- parse_build k c no_params cont pointer;
          do x <- rec (e_indef (o_enc o)) (match contents o with Some b => b | None => [] end);
          merge_loop n' rec cont pointer' (Some (match acc with None => x | Some a => a ++ x end))
        else match acc with Some a => Ok a | None => as_chunk true cont end
    end.

  Fixpoint merge (fuel : nat) (indef : bool) (cont : bytes) : res (list X) :=
    match fuel with
    | O => Err OutOfFuel
    | S f =>
        if indef then merge_loop (S (length cont)) (merge f) cont 0 None
        else as_chunk false cont
    end.
End Merge.

(* Constructable._as_chunk (773-783) *)
Definition bytes_chunk (indef : bool) (c : bytes) : res bytes := Ok c.
(* _IntegerBitString._as_chunk (2004-2041) *)
Definition int_chunk (indef : bool) (c : bytes) : res (list (Z * Z * list bool)) :=
  if indef then Ok [] else do x <- bit_chunk c; Ok [x].
(* OctetBitString._as_chunk (2442-2474) *)
Definition octet_chunk (indef : bool) (c : bytes) : res (list (bytes * list bool)) :=
  do x <- octetbits_chunk c; Ok [x].

Definition merged_bytes (k : kind) (c : pcls) (indef : bool) (cont : bytes) : res bytes :=
  merge Z bytes_chunk k c (S (length cont)) indef cont.

(* 2043-2072 _chunks_to_int *)
Definition merged_int (k : kind) (c : pcls) (indef : bool) (cont : bytes) : res (Z * Z * list bool) :=
  if indef then
    do l <- merge _ int_chunk k c (S (length cont)) indef cont; chunks_int l 0 0 []
  else bit_chunk cont.

(* 2403-2424, the loop over the chunks *)
Fixpoint octet_unused (l : list (bytes * list bool)) (u : list bool) : res (list bool) :=
  match l with
  | [] => Ok u
  | (_, u') :: r => match u with [] => octet_unused r u' | _ => Err ValueError end
  end.
Definition merged_octets (k : kind) (c : pcls) (indef : bool) (cont : bytes) : res (bytes * list bool) :=
  if indef then
    do l <- merge _ octet_chunk k c (S (length cont)) indef cont;
    do u <- octet_unused l [];
    Ok (concat (map fst l), u)
  else octetbits_chunk cont.

(* ---- reading: the .native property ---- *)
Definition ret (o : obj) (v : native) : obj * res native := (o, Ok v).
Definition raise (o : obj) (e : exn) : obj * res native := (o, Err e).

(* __unicode__ (1820-1830) *)
Definition get_unicode (k : kind) (e : encoding) (c : pcls) (o : obj) (cont : bytes) : obj * res text :=
  match c_unicode (o_cache o) with
  | Some s => (o, Ok s)
  | None =>
      match (do b <- merged_bytes k c (e_indef (o_enc o)) cont; decode e b) with
      | Ok s => (set_unicode o (Some s), Ok s)
      | Err x => (o, Err x)
      end
  end.

(* ObjectIdentifier.dotted (3158-3192) *)
Definition get_dotted (o : obj) (cont : bytes) : obj * text :=
  match c_dotted (o_cache o) with
  | Some s => (o, s)
  | None => let s := oid_dotted cont in (set_dotted o (Some s), s)
  end.

(* 2327-2356, the computing part of BitString.native *)
Definition bits_native (m : option (list (Z * text))) (k : kind) (c : pcls) (o : obj) (cont : bytes)
  : obj * res native :=
  match c_native (o_cache o) with
  | Some v => ret o v
  | None =>
      match merged_int k c (e_indef (o_enc o)) cont with
      | Err e => raise o e
      | Ok (v, n, ub) =>
          let o := set_unused o ub in
          match int_to_bits v n with
          | Err e => raise o e
          | Ok bits =>
              let r := match m with None => NBits bits | Some mm => NSet (set_of_bits mm bits) end in
              ret (set_native o (Some r)) r
          end
      end
  end.

(* a cached computation of _native *)
Definition cached (o : obj) (x : res native) : obj * res native :=
  match c_native (o_cache o) with
  | Some v => ret o v
  | None => match x with Ok v => ret (set_native o (Some v)) v | Err e => raise o e end
  end.

(* 4964-4990 AbstractTime.native: the text goes through __unicode__ *)
Definition time_native (k : kind) (c : pcls) (o : obj) (cont : bytes) (f : text -> res dt) : obj * res native :=
  match c_native (o_cache o) with
  | Some v => ret o v
  | None =>
      match get_unicode k Latin1 c o cont with
      | (o', Err e) => raise o' e
      | (o', Ok s) => match f s with
                      | Ok x => ret (set_native o' (Some (NTime x))) (NTime x)
                      | Err e => raise o' e
                      end
      end
  end.

Definition get_native (k : kind) (c : pcls) (o : obj) : obj * res native :=
  match contents o with
  | None =>
      match k with
      | KBits m =>                                                   (* 2327-2356 *)
          match set_value k o (match m with None => NBits [] | Some _ => NSet [] end) with
          | (o', Ok tt) => match contents o' with
                           | Some cont => bits_native m k c o' cont
                           | None => raise o' TypeError
                           end
          | (o', Err e) => raise o' e
          end
      | KRaw => raise o AttributeError
      | _ => ret o NNone
      end
  | Some cont =>
      let indef := e_indef (o_enc o) in
      match k with
      | KBool => cached o (Ok (NBool (negb (eqb_bytes cont [0]))))            (* 1898-1912 *)
      | KInt m => cached o (Ok (int_native m (int_from_bytes cont true)))     (* 1977-1993 *)
      | KEnum m =>                                                            (* 3290-3304 *)
          cached o (match m with
                    | None => Err TypeError
                    | Some mm => match map_get mm (int_from_bytes cont true) with
                                 | Some s => Ok (NText s)
                                 | None => Err KeyError
                                 end
                    end)
      | KBits m => bits_native m k c o cont
      | KOctetBits =>                                                         (* 2403-2424 *)
          match c_bytes (o_cache o) with
          | Some b => ret o (NBytes b)
          | None => match merged_octets k c indef cont with
                    | Ok (b, u) => ret (set_unused (set_bytes o (Some b)) u) (NBytes b)
                    | Err e => raise o e
                    end
          end
      | KIntBits =>                                                           (* 2552-2567 *)
          match c_native (o_cache o) with
          | Some v => ret o v
          | None => match merged_int k c indef cont with
                    | Ok (v, _, u) => ret (set_unused (set_native o (Some (NInt v))) u) (NInt v)
                    | Err e => raise o e
                    end
          end
      | KOctets =>                                                            (* 2606-2645 *)
          match c_bytes (o_cache o) with
          | Some b => ret o (NBytes b)
          | None => match merged_bytes k c indef cont with
                    | Ok b => ret (set_bytes o (Some b)) (NBytes b)
                    | Err e => raise o e
                    end
          end
      | KIntOctets =>                                                         (* 2699-2713 *)
          cached o (do b <- merged_bytes k c indef cont; Ok (NInt (intoctets_decode b)))
      | KNull => ret o NNone
      | KOid m =>                                                             (* 3194-3212 *)
          let '(o, v) := match c_native (o_cache o) with
                         | Some v => (o, v)
                         | None => let '(o', s) := get_dotted o cont in
                                   (set_native o' (Some (NText s)), NText s)
                         end in
          match v with
          | NText s => match tmap_get m s with
                       | Some n => ret (set_native o (Some (NText n))) (NText n)
                       | None => ret o v
                       end
          | _ => ret o v
          end
      | KStr e => match get_unicode k e c o cont with
                  | (o', Ok s) => ret o' (NText s)
                  | (o', Err x) => raise o' x
                  end
      | KUtcTime => time_native k c o cont utctime_native
      | KGenTime _ => time_native k c o cont gentime_native
      | KRaw => raise o AttributeError
      end
  end.

(* ---- dump ---- *)
Definition ends_80 (h : option bytes) : bool :=
  match h with Some h => match h with [] => false | _ => last h 0 =? 128 end | None => false end.

(* the header octets for the contents under the tagging: 632-663 *)
Definition wrap (ex : list (Z * Z)) (header cont : bytes) : bytes :=
  fold_left (fun h ct => dump_header (fst ct) 1 (snd ct) (h ++ cont) ++ h) ex header.
Definition full_header (t : tagging) (method : Z) (cont : bytes) : bytes :=
  wrap (t_explicit t) (dump_header (t_class t) method (t_tag t) cont) cont.

(* 632-663 Asn1Value.dump; len(None) and bytes + None raise TypeError *)
Definition base_dump (k : kind) (o : obj) : obj * res bytes :=
  let e := o_enc o in
  match e_contents e with
  | None => (o, Err TypeError)
  | Some cont =>
      match (if ends_80 (e_header e) then None else e_header e) with
      | Some h => (o, Ok (h ++ cont ++ e_trailer e))
      | None =>
          let m := if constructable k && e_indef e then 0 else e_method e in
          let h := full_header (o_tagging o) m cont in
          (with_enc o (Enc m (Some h) (Some cont) [] (e_indef e)), Ok (h ++ cont))
      end
  end.

(* 1717-1738 Primitive.dump *)
Definition dump (k : kind) (c : pcls) (o : obj) (force : bool) : obj * res bytes :=
  if force || ends_80 (e_header (o_enc o)) then
    match get_native k c o with
    | (o1, Err e) => (o1, Err e)
    | (o1, Ok v) =>
        match set_value k (set_contents o1 None) v with
        | (o2, Err e) => (o2, Err e)
        | (o2, Ok tt) => base_dump k o2
        end
    end
  else base_dump k o.

(* 2715-2726 IntegerOctetString.set_encoded_width *)
Definition set_width (c : pcls) (o : obj) (w : Z) : obj * res unit :=
  let o := Obj (o_tagging o) (o_enc o) (o_cache o) (Some w) in
  match contents o with
  | Some cont =>
      if len cont =? w then done o
      else match get_native KIntOctets c o with
           | (o', Ok v) => set_value KIntOctets o' v
           | (o', Err e) => fail o' e
           end
  | None => done o
  end.

(* 1743-1778 Primitive.__eq__ for two Primitive objects of classes c and d: the bases
   sets compared there always contain the classes themselves, so the comparison ends
   with the contents whatever the classes are *)
Definition prim_eq (c : pcls) (a : obj) (d : pcls) (b : obj) : bool :=
  match contents a, contents b with
  | None, None => k_tag c =? k_tag d
  | Some x, Some y => eqb_bytes x y && (k_tag c =? k_tag d)
  | _, _ => false
  end.

(* 586-608 _copy with the overrides of the classes (799-815, 1832-1845, 2074-2087,
   2426-2440, 2618-2631), onto a new object; [o] is the source *)
Definition copy_onto (k : kind) (c : pcls) (t : tagging) (o : obj) : res obj :=
  let base := Obj t (Enc 0 None (contents o) [] false)
                  (Cache (c_native (o_cache o)) None None [] None) None in
  do (r, src) <- (if constructable k && e_indef (o_enc o) then
                    match get_native k c o with
                    | (src, Ok v) => match set_value k base v with
                                     | (r, Ok tt) => Ok (r, src)
                                     | (_, Err e) => Err e
                                     end
                    | (_, Err e) => Err e
                    end
                  else Ok (base, o));
  Ok (match k with
      | KStr _ | KUtcTime | KGenTime _ => set_unicode r (c_unicode (o_cache src))
      | KBits _ | KIntBits => set_unused r (c_unused (o_cache src))
      | KOctetBits => set_unused (set_bytes r (c_bytes (o_cache src))) (c_unused (o_cache src))
      | KOctets => set_bytes r (c_bytes (o_cache src))
      | _ => r
      end).

(* 542-550 copy, 552-584 retag and untag *)
Definition copy (k : kind) (c : pcls) (o : obj) : res obj := copy_onto k c (o_tagging o) o.
Definition retag (k : kind) (c : pcls) (p : params) (o : obj) : res obj :=
  do t <- init_tagging c p; copy_onto k c t o.
Definition untag (k : kind) (c : pcls) (o : obj) : res obj :=
  do t <- init_tagging c no_params; copy_onto k c t o.
