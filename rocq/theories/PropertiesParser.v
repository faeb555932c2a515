(* C03 - C09: asn1crypto.parser. *)
Require Import Verif.Base Verif.IntModel Verif.IntSpec.
Require Import Verif.ParserModel Verif.ParserSpec Verif.ParserProofs Verif.ParserFacts.

(* C03.  The length hypothesis is the limit of the BER length octets themselves
   (at most 126 octets of length): no such byte string exists in a computer. *)
Theorem C03_emit_parse_roundtrip (c m t : Z) (x : bytes) :
  0 <= c <= 3 -> 0 <= m <= 1 -> 0 <= t -> bytes_ok x -> len x < 2 ^ 1008 ->
  exists h, emit c m t x = Ok (h ++ x) /\ parse (h ++ x) true = Ok (mkInfo c m t h x []) /\
            peek (h ++ x) = Ok (len (h ++ x)).
Proof. exact (emit_parse c m t x). Qed.
Print Assumptions C03_emit_parse_roundtrip.

Theorem C03_emit_rejects_bad_arguments (c m t : Z) (x : bytes) :
  ~ (0 <= c <= 3 /\ 0 <= m <= 1 /\ 0 <= t) -> emit c m t x = Err ValueError.
Proof. exact (emit_bad c m t x). Qed.
Print Assumptions C03_emit_rejects_bad_arguments.

Example C03_ex : emit 2 1 300 [1; 2; 3] = Ok [191; 130; 44; 3; 1; 2; 3]
  /\ parse [191; 130; 44; 3; 1; 2; 3] true = Ok (mkInfo 2 1 300 [191; 130; 44; 3] [1; 2; 3] []).
Proof. vm_compute. auto. Qed.

(* C04 *)
Theorem C04_parse_returns_consumed_bytes (d : bytes) (i : info) : bytes_ok d -> parse d false = Ok i ->
  (exists rest, d = (i_header i ++ i_contents i ++ i_trailer i) ++ rest) /\
  peek d = Ok (len (i_header i ++ i_contents i ++ i_trailer i)) /\
  (i_trailer i = [] \/ i_trailer i = [0; 0]) /\
  0 <= i_class i <= 3 /\ 0 <= i_method i <= 1 /\ 0 <= i_tag i.
Proof. exact (parse_parts d i). Qed.
Print Assumptions C04_parse_returns_consumed_bytes.

Example C04_ex : parse [48; 128; 2; 1; 5; 0; 0; 99] false = Ok (mkInfo 0 1 16 [48; 128] [2; 1; 5] [0; 0])
  /\ peek [48; 128; 2; 1; 5; 0; 0; 99] = Ok 7.
Proof. vm_compute. auto. Qed.

(* C05 *)
Theorem C05_self_delimiting (x y : bytes) (i : info) : bytes_ok x -> parse x false = Ok i ->
  parse (x ++ y) false = Ok i /\ peek (x ++ y) = peek x.
Proof. exact (parse_extend x y i). Qed.
Print Assumptions C05_self_delimiting.

Theorem C05_strict_iff_no_trailing_data (x : bytes) : bytes_ok x ->
  ((exists i, parse x true = Ok i) <-> (exists i, parse x false = Ok i) /\ peek x = Ok (len x)) /\
  (forall i, parse x true = Ok i -> parse x false = Ok i) /\
  (~ (exists i, parse x true = Ok i) -> parse x true = Err ValueError).
Proof. exact (strict_iff_total x). Qed.
Print Assumptions C05_strict_iff_no_trailing_data.

Example C05_ex : parse [5; 0; 7] true = Err ValueError /\ parse [5; 0; 7] false = parse [5; 0] true
  /\ is_ok (parse [5; 0] true) = true.
Proof. vm_compute. auto. Qed.

(* C06 *)
Theorem C06_parse_total (d : bytes) (s : bool) : bytes_ok d ->
  (exists i, parse d s = Ok i) \/ parse d s = Err ValueError.
Proof. exact (parse_total d s). Qed.
Print Assumptions C06_parse_total.

Theorem C06_peek_total (d : bytes) : bytes_ok d -> (exists n, peek d = Ok n) \/ peek d = Err ValueError.
Proof. exact (peek_total d). Qed.
Print Assumptions C06_peek_total.

(* parse accepts exactly the prefixes generated by the X.690 grammar of
   ParserSpec, with at most 11 encodings nested through indefinite lengths *)
Theorem C06_parse_accepts_exactly_ber (d : bytes) (i : info) : bytes_ok d ->
  (parse d false = Ok i <->
   ber 11 (i_class i) (i_method i) (i_tag i) (i_header i) (i_contents i) (i_trailer i) /\
   exists r, d = (i_header i ++ i_contents i ++ i_trailer i) ++ r).
Proof. exact (parse_iff d i). Qed.
Print Assumptions C06_parse_accepts_exactly_ber.

Theorem C06_nesting_limit (hs : list bytes) (rest : bytes) (s : bool) :
  Forall (fun h => exists c t i, ident c 1 t i /\ h = i ++ [128]) hs ->
  (11 < length hs)%nat -> bytes_ok (concat hs ++ rest) ->
  parse (concat hs ++ rest) s = Err ValueError /\ peek (concat hs ++ rest) = Err ValueError.
Proof. exact (depth_limit hs rest s). Qed.
Print Assumptions C06_nesting_limit.

(* the limit is tight: 11 nested indefinite lengths are accepted, 12 are not *)
Example C06_ex :
  is_ok (parse (concat (repeat [48; 128] 11) ++ concat (repeat [0; 0] 11)) true) = true /\
  parse (concat (repeat [48; 128] 12) ++ concat (repeat [0; 0] 12)) true = Err ValueError.
Proof. vm_compute. auto. Qed.

Example C06_ex_header : ident 0 1 16 [48].
Proof. apply (ident_low 0 1 16); lia. Qed.

(* C07 *)
Theorem C07_emitted_header_minimal (c m t : Z) (x d : bytes) (i : info) :
  0 <= c <= 3 -> 0 <= m <= 1 -> 0 <= t -> bytes_ok x -> len x < 2 ^ 1008 ->
  bytes_ok d -> parse d false = Ok i ->
  i_class i = c -> i_method i = m -> i_tag i = t -> i_contents i = x -> i_trailer i = [] ->
  exists h, emit c m t x = Ok (h ++ x) /\
    (length h <= length (i_header i))%nat /\
    (length (i_header i) = length h -> i_header i = h).
Proof. exact (emit_minimal c m t x d i). Qed.
Print Assumptions C07_emitted_header_minimal.

Example C07_ex : parse [4; 130; 0; 1; 9] true = Ok (mkInfo 0 0 4 [4; 130; 0; 1] [9] [])
  /\ emit 0 0 4 [9] = Ok [4; 1; 9].
Proof. vm_compute. auto. Qed.

(* C08 *)
Theorem C08_truncation_detected (y z : bytes) : z <> [] -> bytes_ok (y ++ z) ->
  peek (y ++ z) = Ok (len (y ++ z)) -> forall s, parse y s = Err ValueError.
Proof. exact (truncation y z). Qed.
Print Assumptions C08_truncation_detected.

Example C08_ex : peek ([48; 128; 2; 1] ++ [5; 0; 0]) = Ok (len ([48; 128; 2; 1] ++ [5; 0; 0]))
  /\ parse [48; 128; 2; 1] false = Err ValueError.
Proof. vm_compute. auto. Qed.

(* C09 *)
Theorem C09_stream_splits (l : list info) :
  Forall (fun i => bytes_ok (encoding_of i) /\ parse (encoding_of i) true = Ok i) l ->
  split_all (length l) (concat (map encoding_of l)) = Ok l.
Proof. exact (split_all_values l). Qed.
Print Assumptions C09_stream_splits.

Theorem C09_emitted_stream_splits (vs : list (Z * Z * Z * bytes)) (es : list bytes) :
  Forall2 (fun v e => let '(c, m, t, x) := v in
     0 <= c <= 3 /\ 0 <= m <= 1 /\ 0 <= t /\ bytes_ok x /\ len x < 2 ^ 1008 /\ emit c m t x = Ok e) vs es ->
  exists is_, split_all (length vs) (concat es) = Ok is_ /\
    map (fun i => (i_class i, i_method i, i_tag i, i_contents i)) is_ = vs.
Proof. exact (split_emitted vs es). Qed.
Print Assumptions C09_emitted_stream_splits.

Example C09_ex : split_all 3 ([5; 0] ++ [48; 128; 5; 0; 0; 0] ++ [4; 129; 1; 7]) =
  Ok [mkInfo 0 0 5 [5; 0] [] []; mkInfo 0 1 16 [48; 128] [5; 0] [0; 0]; mkInfo 0 0 4 [4; 129; 1] [7] []].
Proof. vm_compute. auto. Qed.
