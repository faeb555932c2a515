(* Sets of named members (X.690 8.11, 10.3): the same values as a sequence with the same
   members, encoded in the order of their tags.  Stated without reference to how the
   library computes the encoding. *)
Require Import Verif.Base Verif.Text Verif.TagSpec Verif.PrimModel Verif.PrimSpec Verif.ContModel Verif.ContSpec Verif.ContPath Verif.ContHistSpec
  Verif.ParserModel Verif.ParserSpec Verif.BerSpec.
Require Import Sorting.Permutation Sorting.Sorted.

(* X.680 8.6: universal before application before context specific before private, and
   within a class by number *)
Definition tag_le (x y : Z * Z) : Prop := fst x < fst y \/ (fst x = fst y /\ snd x <= snd y).
(* the tag the encoding of a member starts with *)
Definition lead (f : fld * spec) : Z * Z :=
  match rev (t_explicit (ftags f)) with
  | ct :: _ => ct
  | [] => (t_class (ftags f), t_tag (ftags f))
  end.

(* y is what the member contributes; nothing if it is absent or has its default value *)
Definition member_der (f : fld * spec) (na : text * aval) (y : bytes) : Prop :=
  fst na = fname f /\
  match fpres f, snd na with
  | Optional, ANone => y = []
  | Default d, a =>
      exists w, der (snd f) (ftags f) a w /\
        let is_default := exists ad, denotes (snd f) d ad /\ der (snd f) (ftags f) ad w in
        (is_default /\ y = []) \/ (~ is_default /\ y = w)
  | _, a => der (snd f) (ftags f) a y
  end.
Definition written (x : (Z * Z) * bytes) : bool := match snd x with [] => false | _ => true end.

(* the encoding: the members in the order of their tags *)
Definition der_set (fs : list (fld * spec)) (t : tagging) (a : aval) (d : bytes) : Prop :=
  match a with
  | ADict la => exists ys zs, all3 member_der fs la ys /\
      Permutation (filter written (combine (map lead fs) ys)) zs /\
      StronglySorted (fun x y => tag_le (fst x) (fst y)) zs /\ der_constructed t (concat (map snd zs)) d
  | _ => False
  end.

(* A BER encoding: the members in any order, default values perhaps written out *)
Definition member_ber (f : fld * spec) (na : text * aval) (y : bytes) : Prop :=
  fst na = fname f /\
  ((y = [] /\ match fpres f with
              | Required => False
              | Optional => snd na = ANone
              | Default d => exists ad, denotes (snd f) d ad /\ sim (snd f) (snd na) ad
              end) \/
   ber_encodes (snd f) (ftags f) (snd na) y).
Definition some_octets (y : bytes) : bool := match y with [] => false | _ => true end.
Definition ber_set (fs : list (fld * spec)) (t : tagging) (a : aval) (d : bytes) : Prop :=
  match a with
  | ADict la =>
      one_of (within (rev (t_explicit t)) (ber_constructed t (fun x => exists ys zs, all3 member_ber fs la ys /\
        Permutation (filter some_octets ys) zs /\ x = concat zs))) d
  | _ => False
  end.

(* ---- which sets ---- *)
(* no member is a choice, none of a class with explicit tags of its own *)
Definition plain_members (fs : list (fld * spec)) : Prop :=
  Forall (fun f => is_choice (snd f) = false /\ class_explicit (snd f) = []) fs.
(* sorting by the number of the tag the class or an implicit tag gives the member puts the
   members in the order of their outermost tags *)
Definition orderly (fs : list (fld * spec)) : Prop :=
  forall f g, In f fs -> In g fs -> t_tag (ftags f) <= t_tag (ftags g) -> tag_le (lead f) (lead g).
(* no two members start with the same tag *)
Definition apart (fs : list (fld * spec)) : Prop := NoDup (map lead fs).

(* every member has a value *)
Definition full (a : aval) : Prop :=
  match a with ADict la => Forall (fun na : text * aval => snd na <> ANone) la | _ => False end.
(* and keeps having one while the operations are done *)
Fixpoint stays_full (s : spec) (h : list deed) (a : aval) : Prop :=
  full a /\ match h with
            | [] => True
            | (p, x) :: r => forall b, becomes p x s a b -> stays_full s r b
            end.

(* The object v of the class Set with members fs follows the value a: whatever the program
   does, if it can be done to a value and leaves every member with a value, is done, and
   what is read afterwards agrees with the value it leads to.  As [follows_from], which see
   for q, but for the encoding of the set itself. *)
Definition set_follows (c : pcls) (fs : list (fld * spec)) (q : trust) (t : tagging) (a : aval) (v : value) : Prop :=
  let s := SSeq c fs in let o := SSet c fs in
  forall h, safe s h a -> stays_full s h a -> exists b, leads s h a b /\
    (forall p x, reading x = false -> (exists c, becomes p x s b c) -> snd (through p x o (after o h v)) = Ok RNone) /\
    forall p s' t' c, sits p s t b s' t' c ->
      (exists x, snd (through p ARead o (after o h v)) = Ok (RNat x) /\ (stores_below h = false -> shows s' c x)) /\
      (forall f, exists d, snd (through p (ADump f) o (after o h v)) = Ok (RDump d) /\
         (f = true \/ trusted s h q <> Lost -> len d < 2 ^ 1008 ->
          match p with [] => der_set fs t c d | _ => der s' t' c d end)) /\
      match c with
      | AList l => snd (through p ALen o (after o h v)) = Ok (RLen (len l))
      | ADict l => snd (through p ALen o (after o h v)) = Ok (RLen (len l))
      | _ => True
      end /\
      (forall e l x, list_class s' e -> c = AList l -> past x (length l) -> snd (through p x o (after o h v)) = Err IndexError).

(* The object v, just loaded, shows the value a: it and all inside can be read, and what is
   inside can be encoded, in DER if [good] or if asked to encode anew *)
Definition set_shows (c : pcls) (fs : list (fld * spec)) (good : bool) (t : tagging) (a : aval) (v : value) : Prop :=
  let s := SSeq c fs in let o := SSet c fs in
  forall p s' t' b, sits p s t a s' t' b ->
    (exists x, snd (through p ARead o v) = Ok (RNat x) /\ shows s' b x) /\
    (forall f, p <> [] -> exists d, snd (through p (ADump f) o v) = Ok (RDump d) /\ (good || f = true -> len d < 2 ^ 1008 -> der s' t' b d)) /\
    match b with
    | AList l => snd (through p ALen o v) = Ok (RLen (len l))
    | ADict l => snd (through p ALen o v) = Ok (RLen (len l))
    | _ => True
    end.
