(* What counts as a BER encoding of a structured value (X.690 8), stated without reference
   to how the library reads it: lengths in any form, indefinite lengths, strings in
   segments, integers with superfluous octets, any non-zero octet for true, any padding
   of bit strings, times with offsets or without seconds, default values written out,
   the elements of a SetOf in any order.  An encoding is given cut into its parts, as an
   [info]; [ber_info] says that the parts make an encoding.

   Not covered, because the library does not read them: a choice directly holding an
   encoding of indefinite length, strings in segments of definite total length, segments
   in classes with explicit tags of their own.  Null is required to be in DER. *)
Require Import Verif.Base Verif.IntSpec Verif.ParserModel Verif.ParserSpec Verif.ParserProofs Verif.Text Verif.BitModel Verif.BitSpec
  Verif.TagSpec Verif.Calendar Verif.TimeModel Verif.TimeSpec Verif.TimeText Verif.ChunkSpec Verif.ChunkProofs
  Verif.PrimModel Verif.PrimSpec Verif.ContModel Verif.ContSpec Verif.ContPath Verif.ContHistSpec.
Require Import Sorting.Permutation.

(* bits with any padding (X.690 8.6.2) *)
Definition ber_bits (l : list bool) (c : bytes) : Prop :=
  exists u body pad, c = u :: body /\ 0 <= u <= 7 /\ octets_bits body = l ++ pad /\ len pad = u.

(* contents octets of a value *)
Definition ber_form (k : kind) (v : native) (c : bytes) : Prop :=
  match k, v with
  | KBool, NBool b => exists z, c = [z] /\ (b = true <-> z <> 0)
  | KInt m, NInt z => c <> [] /\ twos_value c = z
  | KInt m, NText s | KEnum (Some m), NText s => exists z, In (z, s) m /\ c <> [] /\ twos_value c = z
  | KBits None, NBits l => ber_bits l c
  | KBits (Some m), NSet s => exists bits, ber_bits bits c /\
      forall i, nth i bits false = true <-> exists n, In (Z.of_nat i, n) m /\ In (LName n) s
  | KIntBits, NInt z => exists u body, c = u :: body /\ 0 <= u <= 7 /\ (u = 0 \/ body <> []) /\ z = be_value body / 2 ^ u
  | KIntOctets, NInt z => be_value c = z
  | KUtcTime, NTime x => utc_reads c x
  | KGenTime _, NTime x => gen_reads c x
  | _, _ => False
  end.
Definition ber_value (k : kind) (v : native) (c : bytes) : Prop :=
  bytes_ok c /\ (der_value k None v c \/ ber_form k v c).

(* a primitive value under a tag, in one piece or in segments *)
Definition ber_prim (k : kind) (c : pcls) (t : tagging) (v : native) (i : info) : Prop :=
  i_class i = t_class t /\ i_tag i = t_tag t /\
  ((i_method i = 0 /\ ber_value k v (i_contents i)) \/
   (i_method i = 1 /\ i_trailer i = [0; 0] /\ constructable k = true /\ k_explicit c = [] /\
    exists n xs y, segments (k_class c) (own_tag c) (tolerant k) n (i_contents i) xs /\ (n < 10)%nat /\
      (tolerant k = false -> xs <> []) /\ joined k xs y /\ ber_value k v y)).

(* explicit tags, the outermost first *)
Fixpoint within (ex : list (Z * Z)) (Q : info -> Prop) (i : info) : Prop :=
  match ex with
  | [] => Q i
  | (c, t) :: r => i_class i = c /\ i_method i = 1 /\ i_tag i = t /\
      exists j, ber_info max_budget j /\ i_contents i = encoding_of j /\ within r Q j
  end.

(* a constructed encoding under a tag *)
Definition ber_constructed (t : tagging) (X : bytes -> Prop) (i : info) : Prop :=
  i_class i = t_class t /\ i_method i = 1 /\ i_tag i = t_tag t /\ X (i_contents i).

(* the octets y are one encoding, of this kind *)
Definition one_of (Q : info -> Prop) (y : bytes) : Prop := exists i, ber_info max_budget i /\ y = encoding_of i /\ Q i.

Fixpoint ber_of (s : spec) (t : tagging) (a : aval) (i : info) {struct s} : Prop :=
  match s, a with
  | SPrim KNull c, APrim NNone => der s t a (encoding_of i)
  | SPrim k c, APrim v => k <> KNull /\ holds k None v /\ within (rev (t_explicit t)) (ber_prim k c t v) i
  | SSeq c fs, ADict la =>
      within (rev (t_explicit t)) (ber_constructed t (fun x => exists ys, x = concat ys /\
        all3 (fun f na y =>
                fst na = fname f /\
                ((y = [] /\ match fpres f with
                            | Required => False
                            | Optional => snd na = ANone
                            | Default d => exists ad, denotes (snd f) d ad /\ sim (snd f) (snd na) ad
                            end) \/
                 one_of (ber_of (snd f) (ftags f) (snd na)) y)) fs la ys)) i
  | SSeqOf c s', AList la =>
      within (rev (t_explicit t)) (ber_constructed t (fun x => exists ys, x = concat ys /\
        all2 (fun a y => one_of (ber_of s' (stags s' no_params) a) y) la ys)) i
  | SSetOf c s', AList la =>
      within (rev (t_explicit t)) (ber_constructed t (fun x => exists ys lb, x = concat ys /\ Permutation la lb /\
        all2 (fun a y => one_of (ber_of s' (stags s' no_params) a) y) lb ys)) i
  | SChoice ex alts, AChoice n b =>
      within (rev (t_explicit t)) (fun j => i_trailer j = [] /\ some (fun f => fname f = n /\ ber_of (snd f) (ftags f) b j) alts) i
  | _, _ => False
  end.

(* d is a BER encoding of the value a *)
Definition ber_encodes (s : spec) (t : tagging) (a : aval) (d : bytes) : Prop := one_of (ber_of s t a) d.
