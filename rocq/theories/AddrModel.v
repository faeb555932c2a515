(* Model of the names of RFC 5280 that are compared in a way of their own:
   /repo/asn1crypto/x509.py, DNSName (71-122) and EmailAddress (181-291).

   Python's idna codec (3.11) is written out for ASCII texts; what it does to others is
   given by the arguments idna_to and idna_from, and lowering of other texts by lower_to.
   Simplifications: an object is the merged contents, the encoding it was loaded from and
   the text it keeps; encodings of indefinite length are left out, so that set need not
   tell segments apart. *)
Require Import Verif.Base Verif.Text Verif.ParserModel Verif.PrimModel Verif.DomainModel.

(* contents; the encoding as loaded; _unicode *)
Record aobj := Addr { a_contents : option bytes; a_kept : option bytes; a_text : option text }.
Definition new_addr : aobj := Addr None None None.
(* load: the encoding is e, its contents are c *)
Definition load_addr (e c : bytes) : aobj := Addr (Some c) (Some e) None.

(* core.py:632-663 dump with the tagging t *)
Definition dump_addr (t : tagging) (o : aobj) : res bytes :=
  match a_kept o, a_contents o with
  | Some e, _ => Ok e
  | None, Some c => Ok (full_header t 0 c ++ c)
  | None, None => Err TypeError
  end.

(* s.rsplit(c, 1), None without c *)
Fixpoint rsplit (c : Z) (s : text) : option (text * text) :=
  match s with
  | [] => None
  | x :: r => match rsplit c r with
              | Some (m, h) => Some (x :: m, h)
              | None => if x =? c then Some ([], r) else None
              end
  end.
(* w in s *)
Fixpoint starts (w s : text) : bool :=
  match w, s with
  | [], _ => true
  | a :: w, b :: s => (a =? b) && starts w s
  | _, _ => false
  end.
Fixpoint infix (w s : text) : bool :=
  starts w s || match s with [] => false | _ :: r => infix w r end.

(* s.encode('ascii') *)
Definition to_ascii (s : text) : res bytes := if is_ascii s then Ok s else Err UnicodeError.
(* b.decode('cp1252') *)
Definition cp1252_high : list (option Z) :=
  [Some 0x20ac; None; Some 0x201a; Some 0x192; Some 0x201e; Some 0x2026; Some 0x2020; Some 0x2021;
   Some 0x2c6; Some 0x2030; Some 0x160; Some 0x2039; Some 0x152; None; Some 0x17d; None;
   None; Some 0x2018; Some 0x2019; Some 0x201c; Some 0x201d; Some 0x2022; Some 0x2013; Some 0x2014;
   Some 0x2dc; Some 0x2122; Some 0x161; Some 0x203a; Some 0x153; None; Some 0x17e; Some 0x178].
Definition cp1252_char (b : Z) : res Z :=
  if (b <? 128) || (160 <=? b) then Ok b
  else match nth (Z.to_nat (b - 128)) cp1252_high None with Some c => Ok c | None => Err UnicodeError end.
Fixpoint cp1252 (b : bytes) : res text :=
  match b with [] => Ok [] | x :: r => do c <- cp1252_char x; do t <- cp1252 r; Ok (c :: t) end.

Section Addr.
  Variable idna_to : text -> res bytes.       (* encode, of texts that are not ASCII *)
  Variable idna_from : bytes -> res text.     (* decode, of octets that are not ASCII or hold xn-- *)
  Variable lower_to : text -> text.           (* lower, of texts that are not ASCII *)

  Definition idna_encode (s : text) : res bytes := if is_ascii s then idna_ascii s else idna_to s.
  Definition ace : text := tx "xn--".
  Definition idna_decode (b : bytes) : res text :=
    if is_ascii b && negb (infix ace b) then Ok b else idna_from b.
  Definition lower (s : text) : text := if is_ascii s then lower_ascii s else lower_to s.

  (* the text of an object (__unicode__), which is kept *)
  Definition text_of (decode : bytes -> res text) (o : aobj) (c : bytes) : aobj * res text :=
    match a_text o with
    | Some v => (o, Ok v)
    | None => match decode c with
              | Ok v => (Addr (a_contents o) (a_kept o) (Some v), Ok v)
              | Err e => (o, Err e)
              end
    end.
  (* core.py:1847-1859 native *)
  Definition native (decode : bytes -> res text) (o : aobj) : aobj * res (option text) :=
    match a_contents o with
    | None => (o, Ok None)
    | Some c => let '(o, r) := text_of decode o c in (o, do v <- r; Ok (Some v))
    end.

  (* ---- DNSName ---- *)
  (* 94-122 set *)
  Definition dns_encode (v : text) : res bytes :=
    match v with
    | 46 :: r => do b <- idna_encode r; Ok (46 :: b)
    | _ => idna_encode v
    end.
  Definition dns_set (v : text) : res aobj := do b <- dns_encode v; Ok (Addr (Some b) None (Some v)).
  (* core.py:1820-1830 __unicode__ *)
  Definition dns_text (o : aobj) : aobj * res text :=
    match a_contents o with None => (o, Ok []) | Some c => text_of idna_decode o c end.
  (* 79-92 __eq__ *)
  Definition dns_eq (a b : aobj) : aobj * aobj * res bool :=
    match dns_text a with
    | (a, Err e) => (a, b, Err e)
    | (a, Ok s) => match dns_text b with
                   | (b, Err e) => (a, b, Err e)
                   | (b, Ok t) => (a, b, Ok (eqb_text (lower s) (lower t)))
                   end
    end.

  (* ---- EmailAddress ---- *)
  (* 213-243 set *)
  Definition email_encode (v : text) : res bytes :=
    match rsplit 64 v with
    | Some (m, h) => do m <- to_ascii m; do h <- idna_encode h; Ok (m ++ 64 :: h)
    | None => to_ascii v
    end.
  (* _normalized is reset by the assignment of the contents that follows, so it is never True *)
  Definition email_set (v : text) : res aobj := do b <- email_encode v; Ok (Addr (Some b) None (Some v)).
  (* 245-260 __unicode__; without contents, core.py:1856 answers for native *)
  Definition email_decode (b : bytes) : res text :=
    match rsplit 64 b with
    | Some (m, h) => do m <- cp1252 m; do h <- idna_decode h; Ok (m ++ 64 :: h)
    | None => cp1252 b
    end.
  Definition email_text (o : aobj) : aobj * res text :=
    match a_contents o with
    | None => (o, match a_text o with Some v => Ok v | None => Err AttributeError end)
    | Some c => text_of email_decode o c
    end.
  (* 276-279: self.set(self.native); set(None) raises TypeError *)
  Definition normalize (o : aobj) : aobj * res bytes :=
    match native email_decode o with
    | (o, Err e) => (o, Err e)
    | (o, Ok None) => (o, Err TypeError)
    | (o, Ok (Some v)) => match email_encode v with
                          | Ok b => (Addr (Some b) None (Some v), Ok b)
                          | Err e => (o, Err e)
                          end
    end.
  (* 281-291 *)
  Definition octets_eq (a b : bytes) : bool :=
    match rsplit 64 a, rsplit 64 b with
    | Some (m, h), Some (m', h') => eqb_bytes m m' && eqb_bytes (lower_ascii h) (lower_ascii h')
    | _, _ => eqb_bytes a b
    end.
  (* 262-291 __eq__ *)
  Definition email_eq (a b : aobj) : aobj * aobj * res bool :=
    match normalize a with
    | (a, Err e) => (a, b, Err e)
    | (a, Ok x) => match normalize b with
                   | (b, Err e) => (a, b, Err e)
                   | (b, Ok y) => (a, b, Ok (octets_eq x y))
                   end
    end.

  (* what happens to an object; the other side of a comparison is another object *)
  Inductive use := Read | Compare (x : aobj) | CompareRight (x : aobj).
  Definition dns_use (o : aobj) (u : use) : aobj :=
    match u with
    | Read => fst (dns_text o)
    | Compare x => fst (fst (dns_eq o x))
    | CompareRight x => snd (fst (dns_eq x o))
    end.
  Definition email_use (o : aobj) (u : use) : aobj :=
    match u with
    | Read => fst (email_text o)
    | Compare x => fst (fst (email_eq o x))
    | CompareRight x => snd (fst (email_eq x o))
    end.
End Addr.
