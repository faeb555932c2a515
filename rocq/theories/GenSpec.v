(* Values of the universal types and of sequences of them, and their DER encodings (X.680
   8.6, X.690 8.9, 10), stated without reference to the library's table of classes. *)
Require Import Verif.Base Verif.Text Verif.TagSpec Verif.CodecModel Verif.PrimModel Verif.PrimSpec Verif.ContModel Verif.ContSpec
  Verif.ParserSpec Verif.ParserModel Verif.ParserProofs Verif.BerSpec Verif.GenModel.

(* the types with a value of their own, by tag number.  Enumerated has no values without
   names; object descriptors, reals, external types, relative object identifiers and sets
   are left out *)
Definition simple_type (pad : bool) (tag : Z) (k : kind) : Prop :=
  In (tag, k)
    [(1, KBool); (2, KInt []); (3, KBits None); (4, KOctets); (5, KNull); (6, KOid []);
     (12, KStr Utf8); (18, KStr Latin1); (19, KStr Latin1); (20, KStr Teletex); (21, KOctets);
     (22, KStr Ascii); (23, KUtcTime); (24, KGenTime pad); (25, KStr Latin1); (26, KStr Latin1);
     (27, KStr Latin1); (28, KStr Utf32be); (29, KStr Latin1); (30, KStr Utf16be)].

Inductive uval := USimple (tag : Z) (k : kind) (v : native) | USeq (l : list uval).

Fixpoint uder (pad : bool) (u : uval) (d : bytes) {struct u} : Prop :=
  match u with
  | USimple tag k v =>
      simple_type pad tag k /\ holds k None v /\
      exists x, der_value k None v x /\ der_tlv 0 0 tag x d
  | USeq l => exists ds, all2 (uder pad) l ds /\ der_tlv 0 1 16 (concat ds) d
  end.

(* and in BER, cut into parts: see BerSpec.v *)
Fixpoint uber (pad : bool) (u : uval) (i : info) {struct u} : Prop :=
  match u with
  | USimple tag k v =>
      simple_type pad tag k /\ ber_of (SPrim k (Cls 0 tag [] [])) (Tagging 0 tag false []) (APrim v) i
  | USeq l => i_class i = 0 /\ i_method i = 1 /\ i_tag i = 16 /\
      exists ds, i_contents i = concat ds /\ all2 (fun u y => one_of (uber pad u) y) l ds
  end.

(* the native: sequences are dicts whose keys are the positions in decimal *)
Section Numbered.
  Variable R : uval -> aval -> Prop.
  Fixpoint numbered (n : Z) (l : list uval) (m : list (text * aval)) : Prop :=
    match l, m with
    | [], [] => True
    | u :: l', (key, v) :: m' => key = dec n /\ R u v /\ numbered (n + 1) l' m'
    | _, _ => False
    end.
End Numbered.
Fixpoint unative (u : uval) (a : aval) {struct u} : Prop :=
  match u, a with
  | USimple _ k v, a => exists v', same_value k v v' /\ a = match v' with NNone => ANone | _ => APrim v' end
  | USeq l, ADict m => numbered unative 0 l m
  | _, _ => False
  end.

(* the element at a position; negative positions count from the end *)
Definition element (l : list uval) (i : Z) : option uval :=
  nth_error l (Z.to_nat (if i <? 0 then i + Z.of_nat (length l) else i)).
Fixpoint found (u : uval) (path : list Z) : option uval :=
  match path, u with
  | [], _ => Some u
  | i :: r, USeq l =>
      if (- Z.of_nat (length l) <=? i) && (i <? Z.of_nat (length l))
      then match element l i with Some u' => found u' r | None => None end
      else None
  | _, _ => None
  end.

(* the answer a value demands; st: also that what is dumped is its DER encoding.  Items of a
   sequence cannot be assigned; nothing is said of the length of a primitive *)
Definition expected (pad st : bool) (u : uval) (q : ask) (r : res answer) : Prop :=
  match q with
  | QNative => exists a, r = Ok (ANative a) /\ unative u a
  | QDump _ => exists d, r = Ok (ABytes d) /\ (st = true -> uder pad u d)
  | QLen => forall l, u = USeq l -> r = Ok (ALen (Z.of_nat (length l)))
  | QAssign => forall l, u = USeq l -> r = Err IndexError
  end.
