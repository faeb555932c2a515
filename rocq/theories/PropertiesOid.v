(* C11, C12, C13: object identifiers. *)
Require Import Verif.Base Verif.BaseFacts Verif.Text Verif.ParserSpec Verif.OidModel Verif.OidSpec Verif.OidProofs.

(* C11 *)
Theorem C11_oid_roundtrip (arcs : list Z) : legal_oid arcs -> exists c,
  oid_encode (dotted_text arcs) = Ok c /\ oid_octets (subidentifiers arcs) c /\
  oid_dotted c = dotted_text arcs.
Proof. exact (oid_roundtrip arcs). Qed.
Print Assumptions C11_oid_roundtrip.

Theorem C11_oid_encoding_injective (a b : list Z) (c : bytes) : legal_oid a -> legal_oid b ->
  oid_encode (dotted_text a) = Ok c -> oid_encode (dotted_text b) = Ok c -> a = b.
Proof. exact (oid_encode_inj a b c). Qed.
Print Assumptions C11_oid_encoding_injective.

Example C11_ex : legal_oid [1; 2; 840; 113549] /\
  dotted_text [1; 2; 840; 113549] = tx "1.2.840.113549" /\
  oid_encode (tx "1.2.840.113549") = Ok [42; 134; 72; 134; 247; 13] /\
  oid_dotted [42; 134; 72; 134; 247; 13] = tx "1.2.840.113549".
Proof. split; [cbn; repeat split; try lia; repeat constructor; lia|]. vm_compute. auto. Qed.
Example C11_ex_big_second_arc : legal_oid [2; 999; 0] /\
  oid_encode (tx "2.999.0") = Ok [136; 55; 0] /\ oid_dotted [136; 55; 0] = tx "2.999.0".
Proof. split; [cbn; repeat split; try lia; repeat constructor; lia|]. vm_compute. auto. Qed.

(* C12: false, a single arc yields the empty contents and negative arcs are encoded *)
Theorem C12_invalid_oid_accepted_refuted : exists t1 t2 c1 c2,
  t1 = tx "1" /\ oid_encode t1 = Ok c1 /\ c1 = [] /\
  t2 = tx "1.2.-3" /\ oid_encode t2 = Ok c2 /\ oid_dotted c2 = tx "1.2.125".
Proof.
  exists (tx "1"), (tx "1.2.-3"), [], [42; 125]. vm_compute. repeat split.
Qed.
Print Assumptions C12_invalid_oid_accepted_refuted.

(* what does hold: two or more non-negative arcs are accepted iff legal, and the only
   exception is ValueError *)
Theorem C12_illegal_first_arcs_rejected_partial (a0 a1 : Z) (rest : list Z) :
  0 <= a0 -> 0 <= a1 -> Forall (fun a => 0 <= a) rest ->
  ~ legal_oid (a0 :: a1 :: rest) -> oid_encode (dotted_text (a0 :: a1 :: rest)) = Err ValueError.
Proof. exact (oid_parts_err_illegal a0 a1 rest). Qed.
Print Assumptions C12_illegal_first_arcs_rejected_partial.

Theorem C12_only_value_error_partial (t : text) (e : exn) : oid_encode t = Err e -> e = ValueError.
Proof. exact (oid_encode_exn t e). Qed.
Print Assumptions C12_only_value_error_partial.

Theorem C12_non_numeric_arc_rejected_partial (t : text) :
  Exists (fun p => py_int p = Err ValueError) (split_on 46 t) -> oid_encode t = Err ValueError.
Proof. exact (oid_encode_non_numeric t). Qed.
Print Assumptions C12_non_numeric_arc_rejected_partial.

Example C12_ex : ~ legal_oid [1; 40; 3] /\ ~ legal_oid [3; 1] /\
  dotted_text [1; 40; 3] = tx "1.40.3" /\ oid_encode (tx "1.40.3") = Err ValueError /\
  oid_encode (tx "3.1") = Err ValueError /\ oid_encode (tx "1.2.x") = Err ValueError /\
  split_on 46 (tx "1.2.x") = [tx "1"; tx "2"; tx "x"] /\ py_int (tx "x") = Err ValueError.
Proof. split; [cbn; lia|]. split; [cbn; lia|]. vm_compute. repeat split. Qed.

(* C13: false, padded and truncated sub-identifiers are accepted and collide *)
Theorem C13_oid_contents_not_injective_refuted : exists c1 c2 c3 c4,
  bytes_ok c1 /\ bytes_ok c2 /\ bytes_ok c3 /\ bytes_ok c4 /\
  c1 <> c2 /\ oid_dotted c1 = oid_dotted c2 /\ c3 <> c4 /\ oid_dotted c3 = oid_dotted c4.
Proof.
  exists [42; 128; 1], [42; 1], [42; 134], [42].
  repeat apply conj; try (repeat constructor; lia); try discriminate; vm_compute; reflexivity.
Qed.
Print Assumptions C13_oid_contents_not_injective_refuted.

(* on well-formed contents decoding is injective and re-encoding gives the contents back *)
Theorem C13_well_formed_injective_partial (s1 s2 : list Z) (c1 c2 : bytes) :
  s1 <> [] -> s2 <> [] -> oid_octets s1 c1 -> oid_octets s2 c2 ->
  oid_dotted c1 = oid_dotted c2 -> c1 = c2.
Proof. exact (oid_decode_inj s1 s2 c1 c2). Qed.
Print Assumptions C13_well_formed_injective_partial.

Theorem C13_well_formed_reencodes_partial (s : list Z) (c : bytes) : s <> [] -> oid_octets s c ->
  exists arcs, legal_oid arcs /\ subidentifiers arcs = s /\ oid_dotted c = dotted_text arcs /\
    oid_encode (dotted_text arcs) = Ok c.
Proof. exact (oid_decode_canonical s c). Qed.
Print Assumptions C13_well_formed_reencodes_partial.

Example C13_ex : oid_octets [42; 840] [42; 134; 72] /\ oid_dotted [42; 134; 72] = tx "1.2.840".
Proof.
  split; [|vm_compute; reflexivity].
  destruct (oid_roundtrip [1; 2; 840]) as (c & E & O & _); [cbn; repeat split; try lia; repeat constructor; lia|].
  vm_compute in E. injection E as <-. exact O.
Qed.
