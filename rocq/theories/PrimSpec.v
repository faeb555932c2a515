(* What a primitive value is and which contents octets encode it in DER, stated
   without reference to how the library computes them (X.690 8.1-8.23, 11). *)
Require Import Verif.Base Verif.IntSpec Verif.ParserSpec Verif.Text Verif.OidSpec Verif.BitModel Verif.BitSpec
  Verif.CodecModel Verif.CodecSpec Verif.Calendar Verif.TimeModel Verif.TimeSpec Verif.TagSpec Verif.PrimModel.

(* X.690 8.3.2: the first nine bits are not all equal *)
Definition der_int (z : Z) (c : bytes) : Prop :=
  bytes_ok c /\ c <> [] /\ twos_value c = z /\
  match c with
  | a :: b :: _ => ~ (a = 0 /\ b < 128) /\ ~ (a = 255 /\ 128 <= b)
  | _ => True
  end.

(* unsigned, no leading zero octet *)
Definition der_nat (z : Z) (c : bytes) : Prop :=
  bytes_ok c /\ c <> [] /\ be_value c = z /\ match c with a :: _ :: _ => a <> 0 | _ => True end.

(* two decimal digits *)
Definition dd (n : Z) : text := [48 + n / 10 mod 10; 48 + n mod 10].
Definition time_text (f : fields) : text :=
  dd (f_month f) ++ dd (f_day f) ++ dd (f_hour f) ++ dd (f_minute f) ++ dd (f_second f).
(* X.690 11.7.3: ".fff" without trailing zeros, absent for a whole second *)
Definition fraction_text (us : Z) (s : text) : Prop :=
  (us = 0 /\ s = []) \/
  (us <> 0 /\ exists fs, s = 46 :: fs /\ digits fs /\ 1 <= len fs <= 6 /\ last fs 0 <> 48 /\
     dec_value fs * 10 ^ (6 - len fs) = us).
Definition utc_text (f : fields) (s : text) : Prop := s = dd (f_year f mod 100) ++ time_text f ++ [90].
Definition gen_text (f : fields) (s : text) : Prop := exists fr, fraction_text (f_micro f) fr /\
  s = dd (f_year f / 100) ++ dd (f_year f mod 100) ++ time_text f ++ fr ++ [90].

(* classes whose tables make sense: keys and names are unique *)
Definition kind_ok (k : kind) : Prop :=
  match k with
  | KInt m | KEnum (Some m) => NoDup (map fst m) /\ NoDup (map snd m)
  | KBits (Some m) => NoDup (map fst m) /\ Forall (fun p => 0 <= fst p) m
  | KOid m => NoDup (map fst m) /\ NoDup (map snd m) /\ (forall n, In n (map snd m) -> ~ In n (map fst m))
  | KRaw => False
  | _ => True
  end.

(* the native values of a class *)
Definition holds (k : kind) (w : option Z) (v : native) : Prop :=
  match k, v with
  | KBool, NBool _ => True
  | KInt m, NInt z => ~ In z (map fst m)
  | KInt m, NText s => In s (map snd m)
  | KEnum (Some m), NText s => In s (map snd m)
  | KBits None, NBits _ => True
  | KBits (Some m), NSet s => forall x, In x s -> exists i n, In (i, n) m /\ x = LName n
  | KOctetBits, NBytes b => bytes_ok b
  | KOctets, NBytes b => bytes_ok b
  | KIntBits, NInt z => 0 <= z
  | KIntOctets, NInt z => 0 <= z /\ match w with Some n => 0 <= n /\ z < 256 ^ n | None => True end
  | KNull, NNone => True
  | KOid m, NText s =>
      (exists arcs, legal_oid arcs /\ In (dotted_text arcs, s) m) \/
      (exists arcs, legal_oid arcs /\ s = dotted_text arcs /\ ~ In s (map fst m) /\ ~ In s (map snd m))
  | KStr e, NText s => text_ok s /\ Forall (representable e) s
  | KUtcTime, NTime x => dt_ok x /\ 1 <= d_year x /\ exists t, instant x = Some t /\ 1950 <= utc_year t <= 2049
  | KGenTime pad, NTime x => dt_ok x /\ exists t, instant x = Some t /\
      (d_year x = 0 -> 0 <= utc_year t) /\ (1 <= d_year x -> 1 <= utc_year t <= 9999) /\
      (pad = true \/ utc_year t = 0 \/ 1000 <= utc_year t)
  | _, _ => False
  end.

(* the DER contents octets of a value; w is the width asked for of an integer octet string *)
Definition der_value (k : kind) (w : option Z) (v : native) (c : bytes) : Prop :=
  match k, v with
  | KBool, NBool b => c = [if b then 255 else 0]
  | KInt m, NInt z => der_int z c
  | KInt m, NText s | KEnum (Some m), NText s => exists z, In (z, s) m /\ der_int z c
  | KBits None, NBits l => der_bits l c
  | KBits (Some m), NSet s => exists bits, der_bits bits c /\ no_trailing_zero bits /\
      forall i, nth i bits false = true <-> exists n, In (Z.of_nat i, n) m /\ In (LName n) s
  | KOctetBits, NBytes b => der_bits (octets_bits b) c
  | KOctets, NBytes b => c = b
  | KIntBits, NInt z => exists b, c = 0 :: b /\ der_int z b
  | KIntOctets, NInt z =>
      match w with Some n => bytes_ok c /\ len c = n /\ be_value c = z | None => der_nat z c end
  | KNull, NNone => c = []
  | KOid m, NText s => exists arcs, legal_oid arcs /\ oid_octets (subidentifiers arcs) c /\
      (In (dotted_text arcs, s) m \/ (s = dotted_text arcs /\ ~ In s (map snd m)))
  | KStr e, NText s => encode e s = Ok c
  | KUtcTime, NTime x => exists t, instant x = Some t /\ utc_text (fields_of t) c
  | KGenTime _, NTime x => exists t, instant x = Some t /\ gen_text (fields_of t) c
  | _, _ => False
  end.

(* when two native values stand for the same abstract value *)
Definition same_value (k : kind) (v v' : native) : Prop :=
  match v, v' with
  | NSet s, NSet s' => forall x, In x s <-> In x s'
  | NTime x, NTime x' => exists t t', instant x = Some t /\ instant x' = Some t' /\
      match k with KUtcTime => t - t mod 1000000 = t' - t' mod 1000000 | _ => t = t' end
  | _, _ => v = v'
  end.

(* contents that hold more than the value: class and tagging of an object *)
Definition tagging_ok (t : tagging) : Prop :=
  0 <= t_class t <= 3 /\ 0 <= t_tag t /\ Forall (fun ct => 0 <= fst ct <= 3 /\ 0 <= snd ct) (t_explicit t).

(* the encoding of contents c under a tagging *)
Definition der_object (t : tagging) (c d : bytes) : Prop := der_tagged (t_class t) (t_tag t) (t_explicit t) c d.
