(* What host name matching should be: RFC 6125 section 6.4, on labels. *)
Require Import Verif.Base Verif.Text Verif.NameModel Verif.InetSpec Verif.DomainModel.

(* a label with one star, outside A-labels, and what it covers *)
Definition star_label (w a b : text) : Prop :=
  w = a ++ 42 :: b /\ ~ In 42 a /\ ~ In 42 b /\ firstn 4 w <> tx "xn--".
(* a listed name is a wildcard for a host: the star is in the first label of
   the name and nowhere else, all other labels are equal *)
Definition wildcard_for (valid host : list text) (a b h : text) : Prop :=
  exists w rest, valid = w :: rest /\ host = h :: rest /\ star_label w a b /\ Forall (fun l => ~ In 42 l) rest.
Definition covers (valid host : list text) : Prop :=
  valid = host \/ exists a b h m, wildcard_for valid host a b h /\ h = a ++ m ++ b.

(* letters, digits, hyphen, underscore and the star *)
Definition plain_char (c : Z) : Prop :=
  48 <= c <= 57 \/ 65 <= c <= 90 \/ 97 <= c <= 122 \/ c = 45 \/ c = 95 \/ c = 42.
(* the labels of a name as they are compared *)
Definition labels_of (encoded : text) : list text := split_on 46 (map lower_char encoded).
(* a name whose first label has no character that means something in a regular expression *)
Definition plain_name (encoded : text) : Prop := Forall plain_char (hd [] (labels_of encoded)).

(* texts taken for addresses *)
Definition digits_only (w : text) : Prop := w <> [] /\ Forall (fun c => 48 <= c <= 57) w.
Definition dotted_quad (s : text) : Prop :=
  exists a b c d, s = a ++ 46 :: b ++ 46 :: c ++ 46 :: d /\ digits_only a /\ digits_only b /\ digits_only c /\ digits_only d.

(* common names taken for domains *)
Definition letter (c : Z) : Prop := 65 <= c <= 90 \/ 97 <= c <= 122.
Definition letter_digit (c : Z) : Prop := letter c \/ 48 <= c <= 57.
Definition ldh_label (w : text) : Prop :=
  Forall (fun c => letter_digit c \/ c = 45) w /\
  (exists c r, w = c :: r /\ letter_digit c) /\ (exists r c, w = r ++ [c] /\ letter_digit c).
Definition host_name (s : text) : Prop :=
  exists ls tld, ls <> [] /\ Forall ldh_label ls /\ 2 <= len tld /\ Forall letter tld /\ s = join_with 46 (ls ++ [tld]).
Definition host_pattern (s : text) : Prop := host_name s \/ exists r, s = 42 :: 46 :: r /\ host_name r.

(* texts that are checked as addresses; the pattern for IPv4 allows a line feed at the end *)
Definition address_like (s : text) : Prop :=
  In 58 s \/ dotted_quad s \/ exists r, s = r ++ [10] /\ dotted_quad r.
(* the platform writes dots in IPv4 addresses and only there *)
Definition dots_in_v4 (ntop : bool -> bytes -> res text) : Prop :=
  forall v6 p s, bytes_ok p -> len p = size_of v6 -> ntop v6 p = Ok s -> (In 46 s <-> v6 = false).
Definition address_size (p : bytes) : Prop := len p = 4 \/ len p = 16.
