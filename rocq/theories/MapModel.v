(* Value maps: /repo/asn1crypto/core.py:665-690 (ValueMap), 1915-1993 (Integer),
   2990-3212 (ObjectIdentifier), 3239-3304 (Enumerated), the set-up on first use
   (core.py:297-307, 3050-3053), algos.py:1317-1324 (AnyAlgorithmId) and
   keys.py:491-510 (NamedCurve.register).

   A Python dict is the list of its items in order, keys unique.  A class is the list of
   the attributes _map and _reverse_map along its bases, its own first; None stands for
   "not set here" as well as for the value None of ValueMap (669-674), which is the last
   base.  Values that are not text are left out (they raise TypeError). *)
Require Import Verif.Base Verif.IntModel Verif.Text Verif.OidModel.

(* d.get(k), and d[k] = v: a key keeps its place *)
Fixpoint dget {K V} (eqb : K -> K -> bool) (d : list (K * V)) (k : K) : option V :=
  match d with
  | [] => None
  | (a, v) :: r => if eqb a k then Some v else dget eqb r k
  end.
Fixpoint dput {K V} (eqb : K -> K -> bool) (d : list (K * V)) (k : K) (v : V) : list (K * V) :=
  match d with
  | [] => [(k, v)]
  | (a, w) :: r => if eqb a k then (a, v) :: r else (a, w) :: dput eqb r k v
  end.

(* the attributes one class of the hierarchy defines itself *)
Record own (K : Type) := Own { own_map : option (list (K * text)); own_rev : option (list (text * K)) }.
Arguments Own {K}. Arguments own_map {K}. Arguments own_rev {K}.

(* a class: the bases in method resolution order, whether it is in _SETUP_CLASSES
   (core.py:112), and for AnyAlgorithmId the maps its _setup copies *)
Record cls (K : Type) := Cls
  { k_mro : list (own K); k_done : bool; k_any : option (list (list (K * text))) }.
Arguments Cls {K}. Arguments k_mro {K}. Arguments k_done {K}. Arguments k_any {K}.

(* attribute lookup: the first base that defines it *)
Fixpoint find_map {K} (m : list (own K)) : option (list (K * text)) :=
  match m with
  | [] => None
  | o :: r => match own_map o with Some d => Some d | None => find_map r end
  end.
Fixpoint find_rev {K} (m : list (own K)) : option (list (text * K)) :=
  match m with
  | [] => None
  | o :: r => match own_rev o with Some d => Some d | None => find_rev r end
  end.
Definition c_map {K} (c : cls K) := find_map (k_mro c).
Definition c_rev {K} (c : cls K) := find_rev (k_mro c).

(* core.py:688-690: "for key, value in cls._map.items(): cls._reverse_map[value] = key" *)
Definition reversed {K} (m : list (K * text)) : list (text * K) :=
  fold_left (fun d kv => dput eqb_text d (snd kv) (fst kv)) m [].

(* core.py:680-690 ValueMap._setup; the new dict becomes an attribute of the class itself *)
Definition valuemap_setup {K} (m : list (own K)) : list (own K) :=
  match find_map m, find_rev m with
  | Some d, None => match m with
                    | o :: r => Own (own_map o) (Some (reversed d)) :: r
                    | [] => []
                    end
  | _, _ => m
  end.

(* "cls._map[k] = v": changes the dict the lookup finds *)
Fixpoint put_map {K} (eqb : K -> K -> bool) (m : list (own K)) (k : K) (v : text) : list (own K) :=
  match m with
  | [] => []
  | o :: r => match own_map o with
              | Some d => Own (Some (dput eqb d k v)) (own_rev o) :: r
              | None => o :: put_map eqb r k v
              end
  end.
(* "cls._reverse_map[v] = k" *)
Fixpoint put_rev {K} (m : list (own K)) (k : K) (v : text) : list (own K) :=
  match m with
  | [] => []
  | o :: r => match own_rev o with
              | Some d => Own (own_map o) (Some (dput eqb_text d v k)) :: r
              | None => o :: put_rev r k v
              end
  end.
Definition on_mro {K} (c : cls K) (m : list (own K)) : cls K := Cls m (k_done c) (k_any c).

(* pdf.py:76-83, tsp.py:305-309: "SomeClass._map[oid] = name" in another module *)
Definition add_entry {K} (eqb : K -> K -> bool) (c : cls K) (k : K) (v : text) : cls K :=
  on_mro c (put_map eqb (k_mro c) k v).

(* keys.py:507-509 NamedCurve.register; _key_sizes is left out *)
Definition register {K} (eqb : K -> K -> bool) (c : cls K) (k : K) (v : text) : cls K :=
  let m := put_map eqb (k_mro c) k v in
  on_mro c (match find_rev m with Some _ => put_rev m k v | None => m end).

(* algos.py:1320-1324 AnyAlgorithmId._setup *)
Definition any_setup {K} (eqb : K -> K -> bool) (others : list (list (K * text))) (m : list (own K)) : list (own K) :=
  fold_left (fun m d => fold_left (fun m kv => put_map eqb m (fst kv) (snd kv)) d m) others m.

(* core.py:299-307, 3050-3053: _setup of a class runs when it is first used *)
Definition ensure {K} (eqb : K -> K -> bool) (c : cls K) : cls K :=
  if k_done c then c
  else Cls (match k_any c with
            | None => valuemap_setup (k_mro c)
            | Some others => any_setup eqb others (k_mro c)
            end) true (k_any c).

(* ---- ObjectIdentifier ---- *)
Definition ocls := cls text.
Definition use (c : ocls) : ocls := ensure eqb_text c.

(* core.py:3003-3035 map() *)
Definition oid_map (c : ocls) (value : text) : res text :=
  match c_map c with
  | None => Err ValueError
  | Some m => Ok (match dget eqb_text m value with Some n => n | None => value end)
  end.

(* core.py:105 _OID_RE = ^\d+(\.\d+)*$ and match(); $ also matches before a final
   newline; [nd] is \d, the decimal digits of Unicode *)
Fixpoint oid_re_body (nd : Z -> bool) (s : text) (after_digit : bool) : bool :=
  match s with
  | [] => after_digit
  | c :: r =>
      if nd c then oid_re_body nd r true
      else if after_digit then
        if c =? 46 then oid_re_body nd r false
        else (c =? 10) && match r with [] => true | _ => false end
      else false
  end.
Definition oid_re (nd : Z -> bool) (s : text) : bool := oid_re_body nd s false.

(* core.py:3037-3083 unmap() *)
Definition oid_unmap (nd : Z -> bool) (c : ocls) (value : text) : ocls * res text :=
  let c := use c in
  (c, match c_map c with
      | None => Err ValueError
      | Some _ =>
          match c_rev c with
          | None => Err TypeError                             (* "in None" *)
          | Some r => match dget eqb_text r value with
                      | Some k => Ok k
                      | None => if oid_re nd value then Ok value else Err ValueError
                      end
          end
      end).

(* the object C(value): core.py:312-... calls set(), 3085-3148; its contents *)
Definition oid_make (c : ocls) (value : text) : ocls * res bytes :=
  let c := use c in
  (c, match c_map c with
      | None => oid_encode value
      | Some _ =>
          match c_rev c with
          | None => Err TypeError
          | Some r => oid_encode (match dget eqb_text r value with Some k => k | None => value end)
          end
      end).

(* native of an object with nothing cached but [known] (3194-3212): the text given to
   set(), or None after loading *)
Definition oid_native (c : ocls) (known : option text) (contents : bytes) : text :=
  let s := match known with Some s => s | None => oid_dotted contents end in
  match c_map c with
  | None => s
  | Some m => match dget eqb_text m s with Some n => n | None => s end
  end.

(* C.load(...).native; loading constructs an object first *)
Definition oid_read (c : ocls) (contents : bytes) : ocls * text :=
  let c := use c in (c, oid_native c None contents).

(* ---- Integer and Enumerated ---- *)
Inductive inative := IName (n : text) | INum (z : Z).
Definition icls := cls Z.
Definition iuse (c : icls) : icls := ensure Z.eqb c.

(* core.py:1937-1957: the number meant by a text *)
Definition int_of_name (c : icls) (value : text) : res Z :=
  match c_map c with
  | None => Err ValueError
  | Some _ => match c_rev c with
              | None => Err TypeError
              | Some r => match dget eqb_text r value with Some z => Ok z | None => Err ValueError end
              end
  end.

(* core.py:1922-1968 Integer(value): contents and native *)
Definition int_name_of (c : icls) (z : Z) : inative :=
  match c_map c with
  | Some m => match dget Z.eqb m z with Some n => IName n | None => INum z end
  | None => INum z
  end.
Definition int_make (c : icls) (v : inative) : icls * res (bytes * inative) :=
  let c := iuse c in
  (c, do z <- match v with IName n => int_of_name c n | INum z => Ok z end;
      do b <- int_to_bytes z true None;
      Ok (b, int_name_of c z)).
(* core.py:1977-1993 native of a loaded Integer *)
Definition int_read (c : icls) (contents : bytes) : icls * inative :=
  let c := iuse c in (c, int_name_of c (int_from_bytes contents true)).

(* core.py:3246-3287 Enumerated(value); 3289-3304 native *)
Definition enum_make (c : icls) (v : inative) : icls * res (bytes * inative) :=
  let c := iuse c in
  match (match v with
         | IName n => match c_rev c with
                      | None => Err TypeError
                      | Some r => match dget eqb_text r n with Some z => Ok z | None => Err ValueError end
                      end
         | INum z => match c_map c with
                     | None => Err TypeError
                     | Some m => match dget Z.eqb m z with Some _ => Ok z | None => Err ValueError end
                     end
         end) with
  | Ok z => int_make c (INum z)
  | Err e => (c, Err e)
  end.
Definition enum_read (c : icls) (contents : bytes) : icls * res text :=
  let c := iuse c in
  (c, match c_map c with
      | None => Err TypeError
      | Some m => match dget Z.eqb m (int_from_bytes contents true) with Some n => Ok n | None => Err KeyError end
      end).

(* ---- how the classes are declared ---- *)
(* ObjectIdentifier, Integer and Enumerated inherit None for both (core.py:669-674) *)
Definition no_map {K} : own K := Own None None.
(* class C(Base): _map = m; _reverse_map = r *)
Definition declare {K} (m : list (K * text)) (r : option (list (text * K))) : cls K :=
  Cls [Own (Some m) r; no_map] false None.
(* class D(C): _map = m, for a class C already declared *)
Definition subclass {K} (m : list (K * text)) (parent : cls K) : cls K :=
  Cls (Own (Some m) None :: k_mro parent) false None.

(* any sequence of calls; only the state of the class matters *)
Inductive act := AUnmap (s : text) | AMake (s : text) | ARead (c : bytes).
Definition act_on (nd : Z -> bool) (c : ocls) (a : act) : ocls :=
  match a with
  | AUnmap s => fst (oid_unmap nd c s)
  | AMake s => fst (oid_make c s)
  | ARead b => fst (oid_read c b)
  end.
Definition after (nd : Z -> bool) (l : list act) (c : ocls) : ocls := fold_left (act_on nd) l c.
Inductive iact := IMake (v : inative) | IRead (c : bytes) | EMake (v : inative) | ERead (c : bytes).
Definition iact_on (c : icls) (a : iact) : icls :=
  match a with
  | IMake v => fst (int_make c v)
  | IRead b => fst (int_read c b)
  | EMake v => fst (enum_make c v)
  | ERead b => fst (enum_read c b)
  end.
Definition iafter (l : list iact) (c : icls) : icls := fold_left iact_on l c.
