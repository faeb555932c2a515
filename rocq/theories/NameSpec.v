(* What the theorems about names say, written without the model's comparison. *)
Require Import Verif.Base Verif.Text Verif.NameModel.
Require Import Permutation.

(* ---- texts ---- *)
Definition printable (s : text) : Prop := Forall (fun c => 32 <= c <= 126) s.
Definition lower (c : Z) : Z := if (65 <=? c) && (c <=? 90) then c + 32 else c.
(* the maximal runs of characters other than the space *)
Definition words (s : text) : list text := filter (fun w => negb (len w =? 0)) (split_on 32 s).
(* words separated by two spaces, with one space before and after: RFC 4518 section 2.6.1 *)
Fixpoint spaced (l : list text) : text :=
  match l with
  | [] => []
  | [w] => w
  | w :: ws => w ++ [32; 32] ++ spaced ws
  end.
(* the same text but for the case of ASCII letters *)
Definition same_but_case (s t : text) : Prop := map lower s = map lower t.
(* what Unicode's tables say of printable ASCII: B.2 folds case, NFKC changes
   nothing, nothing is prohibited and nothing is written right to left *)
Definition ascii_lib (L : prep_lib) : Prop :=
  (forall c, 32 <= c <= 126 -> map_b2 L c = [lower c]) /\
  (forall s, printable s -> nfkc L s = s) /\
  (forall c, 32 <= c <= 126 ->
     in_a1 L c = false /\ in_c8 L c = false /\ in_c3 L c = false /\ in_c4 L c = false /\ in_c5 L c = false /\
     in_d1 L c = false).
(* the tables never produce a control character from a text without one *)
Definition quiet_lib (L : prep_lib) : Prop :=
  (forall c x, 32 <= c -> In x (map_b2 L c) -> 32 <= x) /\
  (forall s, Forall (fun c => 32 <= c) s -> Forall (fun c => 32 <= c) (nfkc L s)).

(* RFC 4518 section 2.2, in code point order.  The RFC prints the range of the
   variation selectors as "FF00-FE0F"; the variation selectors are FE00-FE0F. *)
Definition between (a b c : Z) : bool := (a <=? c) && (c <=? b).
Definition rfc_space (c : Z) : bool :=
  between 0x9 0xd c || (c =? 0x20) || (c =? 0x85) || (c =? 0xa0) || (c =? 0x1680) || between 0x2000 0x200a c ||
  between 0x2028 0x2029 c || (c =? 0x202f) || (c =? 0x205f) || (c =? 0x3000).
Definition rfc_nothing (c : Z) : bool :=
  between 0x0 0x8 c || between 0xe 0x1f c || between 0x7f 0x84 c || between 0x86 0x9f c || (c =? 0xad) ||
  (c =? 0x34f) || (c =? 0x6dd) || (c =? 0x70f) || (c =? 0x1806) || between 0x180b 0x180e c ||
  between 0x200b 0x200f c || between 0x202a 0x202e c || between 0x2060 0x2063 c || between 0x206a 0x206f c ||
  between 0xfe00 0xfe0f c || (c =? 0xfeff) || between 0xfff9 0xfffc c || between 0x1d173 0x1d17a c ||
  (c =? 0xe0001) || between 0xe0020 0xe007f c.
Definition rfc_map (s : text) : text :=
  flat_map (fun c => if rfc_nothing c then [] else if rfc_space c then [32] else [c]) s.

(* ---- attributes ---- *)
Definition can_prepare (L : prep_lib) (x : attr) : Prop := exists p, prep_value L (a_value x) = Ok p.
Definition comparable (L : prep_lib) (n : name) : Prop := Forall (Forall (can_prepare L)) n.
Definition same_attr (L : prep_lib) (x y : attr) : Prop :=
  a_type x = a_type y /\
  exists p q, prep_value L (a_value x) = Ok p /\ prep_value L (a_value y) = Ok q /\ peq p q = true.
(* the same multiset of attributes *)
Definition same_attrs (L : prep_lib) (a b : rdn) : Prop :=
  exists b', Permutation b b' /\ Forall2 (same_attr L) a b'.
Definition distinct_types (r : rdn) : Prop := NoDup (map a_type r).
Definition not_bool (x : attr) : Prop := match a_value x with RBool _ => False | _ => True end.

(* names made of texts, each RDN with at least one attribute and no repeated
   type, types free of colons and control characters *)
Definition text_attr (x : attr) : Prop :=
  (exists s, a_value x = RText s /\ Forall (fun c => 0 <= c) s) /\ Forall (fun c => 32 <= c /\ c <> 58) (a_type x).
Definition text_rdn (r : rdn) : Prop := r <> [] /\ distinct_types r /\ Forall text_attr r.
Definition text_name (n : name) : Prop := Forall text_rdn n.

(* ---- summaries ---- *)
Definition values_of (t : text) (n : name) : list raw :=
  map a_value (filter (fun x => eqb_text (a_type x) t) (concat n)).
(* the elements of a list, each at its first place only *)
Fixpoint firsts (seen l : list text) : list text :=
  match l with
  | [] => []
  | x :: r => if existsb (eqb_text x) seen then firsts seen r else x :: firsts (x :: seen) r
  end.
(* the texts shown for a field, latest first *)
Definition shown (f : text) (l : list (text * text)) : list text :=
  rev (map snd (filter (fun x => eqb_text (friendly (fst x)) f) l)).

(* ---- building ---- *)
(* the place of a type in the preferred order; types that are not listed come
   last, in alphabetical order *)
Definition comes_before (a b : text) : Prop :=
  index_of a preferred_order < index_of b preferred_order \/
  index_of a preferred_order = index_of b preferred_order /\ text_leb a b = true.
Fixpoint in_order (l : list text) : Prop :=
  match l with
  | [] => True
  | a :: r => Forall (comes_before a) r /\ in_order r
  end.

(* RFC 4518 section 2.4 and RFC 3454 section 6 *)
Definition rfc_prohibited (L : prep_lib) (c : Z) : Prop :=
  in_a1 L c = true \/ in_c3 L c = true \/ in_c4 L c = true \/ in_c5 L c = true \/ in_c8 L c = true \/ c = 0xfffd.
Definition rfc_bidi (L : prep_lib) (t : text) : Prop :=
  (exists c, In c t /\ in_d1 L c = true) ->
  (forall c, In c t -> in_d2 L c = false) /\
  (forall c m, t = c :: m -> in_d1 L c = true) /\ (forall c m, t = m ++ [c] -> in_d1 L c = true).
