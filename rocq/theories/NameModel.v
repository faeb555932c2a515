(* Model of the comparison of X.509 names: /repo/asn1crypto/x509.py, classes
   NameType (504), NameTypeAndValue (652), RelativeDistinguishedName (851),
   RDNSequence (936) and Name (978).

   A name is seen through what the comparison reads: for every attribute the
   native form of its type (a text: a mapped word or a dotted OID) and the
   native form of its value.  How both are obtained from the encoding is the
   subject of the container models.  Values whose native form is a text, a byte
   string, an integer, a boolean or None are modelled; values of unregistered
   attributes whose native form is a list, a dict, a set or a time are not.

   The tables of the standard library's stringprep module and
   unicodedata.normalize are not part of /repo; they are the fields of a record
   that every definition takes as an argument, so that every theorem holds for
   all of them (or states what it needs of them). *)
Require Import Verif.Base Verif.Text.

Record prep_lib := {
  map_b2 : Z -> text;       (* stringprep.map_table_b2 *)
  nfkc : text -> text;      (* unicodedata.normalize('NFKC', _) *)
  in_a1 : Z -> bool;        (* stringprep.in_table_a1, and so on *)
  in_c8 : Z -> bool;
  in_c3 : Z -> bool;
  in_c4 : Z -> bool;
  in_c5 : Z -> bool;
  in_d1 : Z -> bool;
  in_d2 : Z -> bool }.

(* character classes of regular expressions: inclusive ranges *)
Fixpoint in_ranges (l : list (Z * Z)) (c : Z) : bool :=
  match l with
  | [] => false
  | (a, b) :: r => ((a <=? c) && (c <=? b)) || in_ranges r c
  end.

(* x509.py:755 *)
Definition drop_first : list (Z * Z) :=
  [(0xad, 0xad); (0x1806, 0x1806); (0x34f, 0x34f); (0x180b, 0x180d); (0xfe0f, 0xff00); (0xfffc, 0xfffc)].
(* x509.py:756 *)
Definition blank_controls : list (Z * Z) := [(9, 13); (0x85, 0x85)].
(* x509.py:763 (builds whose sys.maxunicode is above 0xffff; the surrogate
   variant of line 761 for narrow Python 2 builds is not modelled) *)
Definition drop_high : list (Z * Z) := [(0x1d173, 0x1d17a); (0xe0020, 0xe007f); (0xe0001, 0xe0001)].
(* x509.py:764-769 *)
Definition drop_controls : list (Z * Z) :=
  [(0, 8); (0xe, 0x1f); (0x7f, 0x84); (0x86, 0x9f); (0x6dd, 0x6dd); (0x70f, 0x70f); (0x180e, 0x180e);
   (0x200c, 0x200f); (0x202a, 0x202e); (0x2060, 0x2063); (0x206a, 0x206f); (0xfeff, 0xfeff); (0xfff9, 0xfffb)].
(* x509.py:771 *)
Definition blank_spaces : list (Z * Z) :=
  [(0xa0, 0xa0); (0x1680, 0x1680); (0x2000, 0x200a); (0x2028, 0x2029); (0x202f, 0x202f); (0x205f, 0x205f);
   (0x3000, 0x3000)].

(* re.sub('[...]', '', s) and re.sub('[...]', ' ', s) *)
Definition drop (l : list (Z * Z)) (s : text) : text := filter (fun c => negb (in_ranges l c)) s.
Definition blank (l : list (Z * Z)) (s : text) : text := map (fun c => if in_ranges l c then 32 else c) s.

(* x509.py:754-771, the map step up to line 771 *)
Definition map_step (s : text) : text :=
  let s := drop drop_first s in
  let s := blank blank_controls s in
  let s := drop drop_high s in
  let s := drop drop_controls s in
  let s := drop [(0x200b, 0x200b)] s in
  blank blank_spaces s.

(* x509.py:779-821, the prohibit step: the first offending character raises *)
Definition prohibited (L : prep_lib) (c : Z) : bool :=
  in_a1 L c || in_c8 L c || in_c3 L c || in_c4 L c || in_c5 L c || (c =? 0xfffd).

(* x509.py:823-843, the bidirectional step: true when it raises *)
Definition bad_bidi (L : prep_lib) (s : text) : bool :=
  let has_r := existsb (in_d1 L) s in
  let has_l := existsb (fun c => negb (in_d1 L c) && in_d2 L c) s in
  has_r && (has_l || negb (in_d1 L (hd 0 s)) || negb (in_d1 L (last s 0))).

(* str.strip(): the characters Python counts as white space *)
Definition white : list (Z * Z) :=
  [(9, 13); (28, 32); (0x85, 0x85); (0xa0, 0xa0); (0x1680, 0x1680); (0x2000, 0x200a); (0x2028, 0x2029);
   (0x202f, 0x202f); (0x205f, 0x205f); (0x3000, 0x3000)].
Definition strip_white (s : text) : text := rstrip_by (in_ranges white) (lstrip_by (in_ranges white) s).

(* re.sub(' +', '  ', s); after: the previous character was a space *)
Fixpoint double_spaces (after : bool) (s : text) : text :=
  match s with
  | [] => []
  | c :: r =>
      if c =? 32 then (if after then double_spaces true r else 32 :: 32 :: double_spaces true r)
      else c :: double_spaces false r
  end.

(* x509.py:742-848, NameTypeAndValue._ldap_string_prep *)
Definition ldap_prep (L : prep_lib) (s : text) : res text :=
  let s := flat_map (map_b2 L) (map_step s) in
  let s := nfkc L s in
  if existsb (prohibited L) s then Err ValueError
  else if bad_bidi L s then Err ValueError
  else Ok (32 :: strip_white (double_spaces false s) ++ [32]).

(* bytes.decode('cp1252'), Python's own codec: the five unassigned octets raise *)
Definition cp1252_high : list (option Z) :=
  [Some 0x20ac; None; Some 0x201a; Some 0x192; Some 0x201e; Some 0x2026; Some 0x2020; Some 0x2021;
   Some 0x2c6; Some 0x2030; Some 0x160; Some 0x2039; Some 0x152; None; Some 0x17d; None;
   None; Some 0x2018; Some 0x2019; Some 0x201c; Some 0x201d; Some 0x2022; Some 0x2013; Some 0x2014;
   Some 0x2dc; Some 0x2122; Some 0x161; Some 0x203a; Some 0x153; None; Some 0x17e; Some 0x178].
Definition cp1252_char (b : Z) : res Z :=
  if (0x80 <=? b) && (b <=? 0x9f) then
    match nth (Z.to_nat (b - 0x80)) cp1252_high None with Some c => Ok c | None => Err UnicodeError end
  else Ok b.
Fixpoint cp1252 (l : bytes) : res text :=
  match l with
  | [] => Ok []
  | b :: r => do c <- cp1252_char b; do s <- cp1252 r; Ok (c :: s)
  end.

(* native values, and values prepared for comparison *)
Inductive raw := RText (s : text) | RBytes (b : bytes) | RInt (n : Z) | RBool (b : bool) | RNone.
Inductive prepped := PText (s : text) | PInt (n : Z) | PBool (b : bool) | PNone.

(* x509.py:700-718, NameTypeAndValue.prepped_value without its cache *)
Definition prep_value (L : prep_lib) (v : raw) : res prepped :=
  match v with
  | RText s => do r <- ldap_prep L s; Ok (PText r)
  | RBytes b => do s <- cp1252 b; Ok (PText (32 :: s ++ [32]))
  | RInt n => Ok (PInt n)
  | RBool b => Ok (PBool b)
  | RNone => Ok PNone
  end.

(* == of native values; booleans are the integers 0 and 1 *)
Definition as_number (p : prepped) : option Z :=
  match p with PInt n => Some n | PBool b => Some (if b then 1 else 0) | _ => None end.
Definition peq (p q : prepped) : bool :=
  match p, q with
  | PText a, PText b => eqb_text a b
  | PNone, PNone => true
  | _, _ => match as_number p, as_number q with Some a, Some b => a =? b | _, _ => false end
  end.

(* '%s' % value *)
Definition show (p : prepped) : text :=
  match p with
  | PText s => s
  | PInt n => dec n
  | PBool true => tx "True"
  | PBool false => tx "False"
  | PNone => tx "None"
  end.

Record attr := mk_attr { a_type : text; a_value : raw }.
Definition rdn := list attr.
Definition name := list rdn.

(* x509.py:723-740, NameTypeAndValue.__eq__ *)
Definition eq_attr (L : prep_lib) (x y : attr) : res bool :=
  if negb (eqb_text (a_type y) (a_type x)) then Ok false
  else do q <- prep_value L (a_value y); do p <- prep_value L (a_value x); Ok (peq q p).

(* dict assignment and lookup *)
Fixpoint dset {A} (k : text) (v : A) (d : list (text * A)) : list (text * A) :=
  match d with
  | [] => [(k, v)]
  | (k', v') :: r => if eqb_text k k' then (k', v) :: r else (k', v') :: dset k v r
  end.
Fixpoint dget {A} (k : text) (d : list (text * A)) : option A :=
  match d with
  | [] => None
  | (k', v) :: r => if eqb_text k k' then Some v else dget k r
  end.

(* x509.py:905-917, _get_types (a set: here the list it is made of) *)
Definition types (r : rdn) : list text := map a_type r.
Definition mem (t : text) (l : list text) : bool := existsb (eqb_text t) l.
Definition same_set (a b : list text) : bool := forallb (fun t => mem t b) a && forallb (fun t => mem t a) b.

(* x509.py:919-933, _get_values: later attributes of a type overwrite earlier ones *)
Fixpoint get_values (L : prep_lib) (r : rdn) (d : list (text * prepped)) : res (list (text * prepped)) :=
  match r with
  | [] => Ok d
  | x :: r' => do p <- prep_value L (a_value x); get_values L r' (dset (a_type x) p d)
  end.

(* x509.py:873-903, RelativeDistinguishedName.__eq__ *)
Definition eq_rdn (L : prep_lib) (a b : rdn) : res bool :=
  if negb (len a =? len b) then Ok false
  else if negb (same_set (types a) (types b)) then Ok false
  else
    do va <- get_values L a [];
    do vb <- get_values L b [];
    Ok (forallb (fun t => match dget t va, dget t vb with Some p, Some q => peq p q | _, _ => false end) (types a)).

(* sorted() on texts: code point by code point *)
Fixpoint text_leb (a b : text) : bool :=
  match a, b with
  | [], _ => true
  | _ :: _, [] => false
  | x :: a', y :: b' => (x <? y) || ((x =? y) && text_leb a' b')
  end.
Fixpoint insert_key (x : text) (l : list text) : list text :=
  match l with
  | [] => [x]
  | y :: r => if text_leb y x then y :: insert_key x r else x :: l
  end.
Definition sort_keys (l : list text) : list text := fold_left (fun s x => insert_key x s) l [].

(* x509.py:854-868, RelativeDistinguishedName.hashable *)
Definition entry (d : list (text * prepped)) (k : text) : text :=
  k ++ tx ": " ++ match dget k d with Some p => show p | None => [] end.
Definition hash_rdn (L : prep_lib) (r : rdn) : res text :=
  do d <- get_values L r [];
  Ok (join_with 0x1f (map (entry d) (sort_keys (map fst d)))).

(* x509.py:939-949, RDNSequence.hashable; 1060-1067, Name.hashable *)
Fixpoint hash_rdns (L : prep_lib) (n : name) : res (list text) :=
  match n with
  | [] => Ok []
  | r :: n' => do h <- hash_rdn L r; do hs <- hash_rdns L n'; Ok (h :: hs)
  end.
Definition hash_name (L : prep_lib) (n : name) : res text :=
  do hs <- hash_rdns L n; Ok (join_with 0x1e hs).

(* x509.py:954-975, RDNSequence.__eq__; 1075-1088, Name.__eq__.  The loop asks
   whether the other name's element differs from this one's. *)
Fixpoint eq_rdns (L : prep_lib) (a b : name) : res bool :=
  match a, b with
  | x :: a', y :: b' => do e <- eq_rdn L y x; if e then eq_rdns L a' b' else Ok false
  | _, _ => Ok true
  end.
Definition eq_name (L : prep_lib) (a b : name) : res bool :=
  if negb (len a =? len b) then Ok false else eq_rdns L a b.

(* The cache of prepped_value, x509.py:698-718: the prepared value is kept in
   self._prepped, which nothing clears (Sequence.__setitem__, core.py:3714, does
   not know of it). *)
Record attr_obj := { o_attr : attr; o_prepped : option prepped }.
Definition new_attr (x : attr) : attr_obj := {| o_attr := x; o_prepped := None |}.
Definition read_prepped (L : prep_lib) (o : attr_obj) : attr_obj * res prepped :=
  match o_prepped o with
  | Some PNone | None =>
      match prep_value L (a_value (o_attr o)) with
      | Ok p => ({| o_attr := o_attr o; o_prepped := Some p |}, Ok p)
      | Err e => (o, Err e)
      end
  | Some p => (o, Ok p)
  end.
(* obj['value'] = v *)
Definition assign_value (v : raw) (o : attr_obj) : attr_obj :=
  {| o_attr := mk_attr (a_type (o_attr o)) v; o_prepped := o_prepped o |}.
(* a == b *)
Definition eq_obj (L : prep_lib) (x y : attr_obj) : attr_obj * attr_obj * res bool :=
  if negb (eqb_text (a_type (o_attr y)) (a_type (o_attr x))) then (x, y, Ok false)
  else
    let '(y', q) := read_prepped L y in
    match q with
    | Err e => (x, y', Err e)
    | Ok q =>
        let '(x', p) := read_prepped L x in
        (x', y', do p <- p; Ok (peq q p))
    end.

(* x509.py:505-546, NameType._map *)
Definition name_map : list (text * text) :=
  [(tx "2.5.4.3", tx "common_name"); (tx "2.5.4.4", tx "surname"); (tx "2.5.4.5", tx "serial_number");
   (tx "2.5.4.6", tx "country_name"); (tx "2.5.4.7", tx "locality_name"); (tx "2.5.4.8", tx "state_or_province_name");
   (tx "2.5.4.9", tx "street_address"); (tx "2.5.4.10", tx "organization_name");
   (tx "2.5.4.11", tx "organizational_unit_name"); (tx "2.5.4.12", tx "title"); (tx "2.5.4.15", tx "business_category");
   (tx "2.5.4.17", tx "postal_code"); (tx "2.5.4.20", tx "telephone_number"); (tx "2.5.4.41", tx "name");
   (tx "2.5.4.42", tx "given_name"); (tx "2.5.4.43", tx "initials"); (tx "2.5.4.44", tx "generation_qualifier");
   (tx "2.5.4.45", tx "unique_identifier"); (tx "2.5.4.46", tx "dn_qualifier"); (tx "2.5.4.65", tx "pseudonym");
   (tx "2.5.4.97", tx "organization_identifier"); (tx "2.23.133.2.1", tx "tpm_manufacturer");
   (tx "2.23.133.2.2", tx "tpm_model"); (tx "2.23.133.2.3", tx "tpm_version");
   (tx "2.23.133.2.4", tx "platform_manufacturer"); (tx "2.23.133.2.5", tx "platform_model");
   (tx "2.23.133.2.6", tx "platform_version"); (tx "1.2.840.113549.1.9.1", tx "email_address");
   (tx "1.3.6.1.4.1.311.60.2.1.1", tx "incorporation_locality");
   (tx "1.3.6.1.4.1.311.60.2.1.2", tx "incorporation_state_or_province");
   (tx "1.3.6.1.4.1.311.60.2.1.3", tx "incorporation_country"); (tx "0.9.2342.19200300.100.1.1", tx "user_id");
   (tx "0.9.2342.19200300.100.1.25", tx "domain_component"); (tx "0.2.262.1.10.7.20", tx "name_distinguisher")].
(* core.py:3002-3035, ObjectIdentifier.map for NameType *)
Definition map_type (s : text) : text := match dget s name_map with Some w => w | None => s end.

(* x509.py:551-585, NameType.preferred_order *)
Definition preferred_order : list text :=
  [tx "incorporation_country"; tx "incorporation_state_or_province"; tx "incorporation_locality";
   tx "business_category"; tx "serial_number"; tx "country_name"; tx "postal_code"; tx "state_or_province_name";
   tx "locality_name"; tx "street_address"; tx "organization_name"; tx "organizational_unit_name"; tx "title";
   tx "common_name"; tx "user_id"; tx "initials"; tx "generation_qualifier"; tx "surname"; tx "given_name"; tx "name";
   tx "pseudonym"; tx "dn_qualifier"; tx "telephone_number"; tx "email_address"; tx "domain_component";
   tx "name_distinguisher"; tx "organization_identifier"; tx "tpm_manufacturer"; tx "tpm_model"; tx "tpm_version";
   tx "platform_manufacturer"; tx "platform_model"; tx "platform_version"].

(* list.index, or the length of the list *)
Fixpoint index_of (t : text) (l : list text) : Z :=
  match l with
  | [] => 0
  | x :: r => if eqb_text t x then 0 else 1 + index_of t r
  end.
(* x509.py:587-605, NameType.preferred_ordinal *)
Definition ordinal (key : text) : Z * text :=
  let w := map_type key in (index_of w preferred_order, w).
Definition ord_leb (a b : Z * text) : bool :=
  (fst a <? fst b) || ((fst a =? fst b) && text_leb (snd a) (snd b)).

(* sorted(name_dict.items(), key=...): stable *)
Fixpoint insert_item {A} (x : text * A) (l : list (text * A)) : list (text * A) :=
  match l with
  | [] => [x]
  | y :: r => if ord_leb (ordinal (fst y)) (ordinal (fst x)) then y :: insert_item x r else x :: l
  end.
Definition sort_items {A} (l : list (text * A)) : list (text * A) := fold_left (fun s x => insert_item x s) l [].

(* x509.py:659-696, the keys of NameTypeAndValue._oid_specs: every word of the map *)
Definition has_spec (w : text) : bool := existsb (eqb_text w) (map snd name_map).

(* x509.py:987-1058, Name.build.  make stands for the construction of the value
   object by the class the specification names, followed by reading .native. *)
Fixpoint build_rdns (make : text -> raw -> res raw) (l : list (text * raw)) : res name :=
  match l with
  | [] => Ok []
  | (k, v) :: r =>
      let w := map_type k in
      if negb (has_spec w) then Err ValueError
      else do x <- make w v; do n <- build_rdns make r; Ok ([mk_attr w x] :: n)
  end.
Definition build (make : text -> raw -> res raw) (d : list (text * raw)) : res name :=
  build_rdns make (sort_items d).

(* x509.py:1090-1104, Name.native: one value, or a list of them, for each type *)
Inductive native_entry := One (v : raw) | Many (l : list raw).
Definition add_native (d : list (text * native_entry)) (x : attr) : list (text * native_entry) :=
  match dget (a_type x) d with
  | Some (One v) => dset (a_type x) (Many [v; a_value x]) d
  | Some (Many l) => dset (a_type x) (Many (l ++ [a_value x])) d
  | None => dset (a_type x) (One (a_value x)) d
  end.
Definition native_name (n : name) : list (text * native_entry) := fold_left add_native (concat n) [].

(* x509.py:607-649, NameType.human_friendly *)
Definition friendly_map : list (text * text) :=
  [(tx "common_name", tx "Common Name"); (tx "surname", tx "Surname"); (tx "serial_number", tx "Serial Number");
   (tx "country_name", tx "Country"); (tx "locality_name", tx "Locality");
   (tx "state_or_province_name", tx "State/Province"); (tx "street_address", tx "Street Address");
   (tx "organization_name", tx "Organization"); (tx "organizational_unit_name", tx "Organizational Unit");
   (tx "title", tx "Title"); (tx "business_category", tx "Business Category"); (tx "postal_code", tx "Postal Code");
   (tx "telephone_number", tx "Telephone Number"); (tx "name", tx "Name"); (tx "given_name", tx "Given Name");
   (tx "initials", tx "Initials"); (tx "generation_qualifier", tx "Generation Qualifier");
   (tx "unique_identifier", tx "Unique Identifier"); (tx "dn_qualifier", tx "DN Qualifier");
   (tx "pseudonym", tx "Pseudonym"); (tx "email_address", tx "Email Address");
   (tx "incorporation_locality", tx "Incorporation Locality");
   (tx "incorporation_state_or_province", tx "Incorporation State/Province");
   (tx "incorporation_country", tx "Incorporation Country"); (tx "domain_component", tx "Domain Component");
   (tx "name_distinguisher", tx "Name Distinguisher"); (tx "organization_identifier", tx "Organization Identifier");
   (tx "tpm_manufacturer", tx "TPM Manufacturer"); (tx "tpm_model", tx "TPM Model"); (tx "tpm_version", tx "TPM Version");
   (tx "platform_manufacturer", tx "Platform Manufacturer"); (tx "platform_model", tx "Platform Model");
   (tx "platform_version", tx "Platform Version"); (tx "user_id", tx "User ID")].
Definition friendly (w : text) : text := match dget w friendly_map with Some f => f | None => w end.

(* x509.py:1106-1161, Name.human_friendly and _recursive_humanize, for values
   whose native form is a text.  A repeated field becomes the list of what was
   there and the new value, so lists nest. *)
Inductive nest := Leaf (s : text) | Pair (l : nest) (s : text).
Fixpoint join_text (sep : text) (l : list text) : text :=
  match l with
  | [] => []
  | [w] => w
  | w :: ws => w ++ sep ++ join_text sep ws
  end.
Fixpoint humanize (v : nest) : text :=
  match v with
  | Leaf s => s
  | Pair l s => join_text (tx ", ") (rev [humanize l; s])
  end.
Definition add_friendly (d : list (text * nest)) (x : text * text) : list (text * nest) :=
  let f := friendly (fst x) in
  match dget f d with
  | Some v => dset f (Pair v (snd x)) d
  | None => dset f (Leaf (snd x)) d
  end.
(* the attributes of all RDNs in order, as (type, text) pairs *)
Definition human (l : list (text * text)) : text :=
  let data := fold_left add_friendly l [] in
  let last_field := match rev l with [] => None | x :: _ => Some (friendly (fst x)) end in
  let items := match last_field with
               | Some f => if eqb_text f (tx "Country") then rev data else data
               | None => data
               end in
  let to_join := map (fun kv => fst kv ++ tx ": " ++ humanize (snd kv)) items in
  let has_comma := existsb (fun e => existsb (Z.eqb 44) e) to_join in
  join_text (if has_comma then tx "; " else tx ", ") (rev to_join).
