(* Value maps as sets of pairs, independent of how the code stores them. *)
Require Import Verif.Base Verif.Text Verif.OidSpec.
Require Coq.Strings.String.

(* a dict has at most one value for a key *)
Definition is_dict {K} (m : list (K * text)) : Prop := NoDup (map fst m).
(* no two keys share a name *)
Definition one_key_per_name {K} (m : list (K * text)) : Prop :=
  forall k k' n, In (k, n) m -> In (k', n) m -> k = k'.
(* the entry a later one with the same name does not replace *)
Definition last_with_name {K} (m : list (K * text)) (k : K) (n : text) : Prop :=
  exists a b, m = a ++ (k, n) :: b /\ ~ In n (map snd b).
Definition is_key {K} (m : list (K * text)) (k : K) : Prop := exists n, In (k, n) m.
Definition is_name {K} (m : list (K * text)) (n : text) : Prop := exists k, In (k, n) m.

(* an object identifier in dotted notation *)
Definition is_oid (s : text) : Prop := exists arcs, legal_oid arcs /\ s = dotted_text arcs.
(* digits separated by single dots, perhaps with a newline at the end; [nd] says which
   characters are digits *)
Definition dotted_digits (nd : Z -> bool) (s : text) : Prop := exists ws e, ws <> [] /\
  Forall (fun w => w <> [] /\ Forall (fun c => nd c = true) w) ws /\ (e = [] \/ e = [10]) /\ s = join_with 46 ws ++ e.
(* all keys are object identifiers and no name is one *)
Definition oid_keys (m : list (text * text)) : Prop := forall k n, In (k, n) m -> is_oid k /\ ~ is_oid n.

(* the octets of the identifier with a dotted notation, X.690 8.19 *)
Definition encodes (s : text) (c : bytes) : Prop :=
  exists arcs, legal_oid arcs /\ s = dotted_text arcs /\ oid_octets (subidentifiers arcs) c.

(* identifiers the library reads under the name of another one: for a name given to
   several identifiers, all but the one written (algos.py:233-336) *)
Definition aliases : list (String.string * String.string) :=
  [("algos.SignedDigestAlgorithmId", "1.3.14.3.2.3");      (* md5_rsa *)
   ("algos.SignedDigestAlgorithmId", "1.3.14.3.2.29");     (* sha1_rsa *)
   ("algos.SignedDigestAlgorithmId", "1.3.14.7.2.3.1");    (* md2_rsa *)
   ("algos.SignedDigestAlgorithmId", "1.3.14.3.2.13");     (* sha1_dsa *)
   ("algos.SignedDigestAlgorithmId", "1.3.14.3.2.27")]%string.
