(* C34, C35, C63: IP addresses. *)
Require Import Verif.Base Verif.BaseFacts Verif.Text Verif.IntModel Verif.IntSpec Verif.InetModel Verif.InetSpec.
Require Import Verif.InetProofs Verif.InetAddr Verif.InetPlat Verif.InetMore.

(* ---- C35: _inet.py ---- *)
Theorem C35_ipv4_round_trip : forall p, bytes_ok p -> len p = 4 ->
  exists s, ntop4 p = Ok s /\ ipv4_text s p /\ pton4 s = Ok p.
Proof. exact ntop4_round_trip. Qed.
Print Assumptions C35_ipv4_round_trip.
Example C35_ipv4_example : ntop4 [192; 168; 0; 255] = Ok (tx "192.168.0.255") /\ pton4 (tx "192.168.0.255") = Ok [192; 168; 0; 255].
Proof. split; vm_compute; reflexivity. Qed.

(* the text is the one RFC 5952 recommends *)
Theorem C35_ipv6_canonical : forall p, bytes_ok p -> len p = 16 ->
  exists s, ntop6 p = Ok s /\ ipv6_canonical s (groups_of p).
Proof. exact ntop6_canonical. Qed.
Print Assumptions C35_ipv6_canonical.
Definition addr1 : bytes := [32; 1; 13; 184; 0; 0; 0; 0; 0; 1; 0; 0; 0; 0; 0; 1].
Example C35_canonical_example :
  ntop6 addr1 = Ok (tx "2001:db8::1:0:0:1") /\ groups_of addr1 = [8193; 3512; 0; 0; 1; 0; 0; 1].
Proof. split; vm_compute; reflexivity. Qed.

Theorem C35_ntop_injective : forall v6 p q, bytes_ok p -> bytes_ok q -> len p = size_of v6 -> len q = size_of v6 ->
  shim_ntop v6 p = shim_ntop v6 q -> p = q.
Proof. exact shim_ntop_inj. Qed.
Print Assumptions C35_ntop_injective.
Example C35_injective_example : shim_ntop true addr1 <> shim_ntop true (be_digits 16 1).
Proof. vm_compute. congruence. Qed.

(* a text denotes at most one address *)
Theorem C35_text_denotes_one : forall s g g', ipv6_text s g -> ipv6_text s g' -> g = g'.
Proof. exact ipv6_text_fun. Qed.
Print Assumptions C35_text_denotes_one.
Example C35_denotes_example : ipv6_text (tx "2001:db8::1:0:0:1") [8193; 3512; 0; 0; 1; 0; 0; 1].
Proof.
  destruct C35_canonical_example as [E G]. destruct (ntop6_canonical addr1) as (s & E' & C); [apply bytes_okb_spec; reflexivity|reflexivity|].
  rewrite G in C. assert (s = tx "2001:db8::1:0:0:1") as <- by congruence. now apply canonical_text.
Qed.

(* Missing: addresses whose text starts or ends in ::, which are refused (see the refutation). *)
Theorem C35_ipv6_round_trip_partial : forall p, bytes_ok p -> len p = 16 ->
  exists s, ntop6 p = Ok s /\ ipv6_canonical s (groups_of p)
    /\ (inner_double s -> pton6 s = Ok p)
    /\ (~ inner_double s -> pton6 s = Err ValueError).
Proof. exact ntop6_round_trip. Qed.
Print Assumptions C35_ipv6_round_trip_partial.
Example C35_round_trip_example : pton6 (tx "2001:db8::1:0:0:1") = Ok addr1.
Proof. vm_compute. reflexivity. Qed.

(* every text form is read, with the run of zeros left out anywhere inside *)
Theorem C35_pton_reads_text : forall s g, ipv6_text s g -> Forall (fun n => 0 <= n < 65536) g -> inner_double s ->
  pton6 s = Ok (ungroups g).
Proof. exact pton6_text. Qed.
Print Assumptions C35_pton_reads_text.
Example C35_reads_example : pton6 (tx "1:2::3:4:5:6:7") = Ok (ungroups [1; 2; 0; 3; 4; 5; 6; 7]) /\ pton6 (tx "2001:DB8:0:0:1::1") = Ok addr1.
Proof. split; vm_compute; reflexivity. Qed.

(* letters of both cases are the same *)
Theorem C35_letter_case : forall s t, lower_text s = lower_text t -> pton6 s = pton6 t.
Proof. exact same_letters. Qed.
Print Assumptions C35_letter_case.
Example C35_case_ex : lower_text (tx "2001:DB8::AbCd") = lower_text (tx "2001:db8::abcd") /\
  pton6 (tx "2001:DB8::AbCd") = Ok (ungroups [8193; 3512; 0; 0; 0; 0; 0; 43981]).
Proof. split; vm_compute; reflexivity. Qed.
Theorem C35_ntop_sizes : forall v6 p, len p <> size_of v6 -> shim_ntop v6 p = Err ValueError.
Proof. exact ntop_sizes. Qed.
Print Assumptions C35_ntop_sizes.
Example C35_sizes_ex : shim_ntop false [1; 2; 3] = Err ValueError /\ shim_ntop true [1; 2; 3; 4] = Err ValueError.
Proof. split; vm_compute; reflexivity. Qed.

Theorem C35_pton_size : forall v6 s p, shim_pton v6 s = Ok p -> bytes_ok p /\ len p = size_of v6.
Proof. exact shim_pton_range. Qed.
Print Assumptions C35_pton_size.

(* ::1 *)
Theorem C35_ipv6_round_trip_refuted : exists p s, bytes_ok p /\ len p = 16 /\ ntop6 p = Ok s /\ pton6 s = Err ValueError.
Proof.
  exists (be_digits 16 1), (tx "::1"). split; [apply bytes_okb_spec; vm_compute; reflexivity|]. repeat split; vm_compute; reflexivity.
Qed.
Print Assumptions C35_ipv6_round_trip_refuted.
(* the same for a network such as 2001:db8:: *)
Theorem C35_network_refuted : exists p s, bytes_ok p /\ len p = 16 /\ hd 0 p = 32 /\ ntop6 p = Ok s /\ pton6 s = Err ValueError.
Proof.
  exists [32; 1; 13; 184; 0; 0; 0; 0; 0; 0; 0; 0; 0; 0; 0; 0], (tx "2001:db8::"). split; [apply bytes_okb_spec; vm_compute; reflexivity|].
  repeat split; vm_compute; reflexivity.
Qed.
Print Assumptions C35_network_refuted.

(* ---- C34: x509.IPAddress ---- *)
(* on a platform whose inet_pton reads what its inet_ntop writes *)
Theorem C34_round_trip : forall pton ntop v6 a prefix,
  platform pton ntop -> bytes_ok a -> len a = size_of v6 ->
  (forall n, prefix = Some n -> 0 <= n <= 8 * size_of v6) ->
  exists s c, ntop v6 a = Ok s /\ ip_set pton (with_prefix s prefix) = Ok c /\ address_octets a prefix c
    /\ ip_native ntop c = Ok (Some (with_prefix s prefix)).
Proof. exact ip_round_trip. Qed.
Print Assumptions C34_round_trip.
Example C34_platform_example : platform full_pton shim_ntop.
Proof. exact full_platform. Qed.
Example C34_round_trip_example :
  ip_set full_pton (tx "10.1.0.0/20") = Ok [10; 1; 0; 0; 255; 255; 240; 0]
  /\ ip_native shim_ntop [10; 1; 0; 0; 255; 255; 240; 0] = Ok (Some (tx "10.1.0.0/20"))
  /\ ip_set full_pton (tx "::1") = Ok (be_digits 16 1).
Proof. repeat split; vm_compute; reflexivity. Qed.
(* a mask of no bits too *)
Example C34_zero_example :
  ip_set full_pton (tx "0.0.0.0/0") = Ok [0; 0; 0; 0; 0; 0; 0; 0]
  /\ ip_native shim_ntop [0; 0; 0; 0; 0; 0; 0; 0] = Ok (Some (tx "0.0.0.0/0")).
Proof. split; vm_compute; reflexivity. Qed.

(* exactly the texts that are accepted, and the octets they give *)
Theorem C34_set_exact : forall pton value c,
  (forall v6 s p, pton v6 s = Ok p -> len p = size_of v6) ->
  (ip_set pton value = Ok c <->
   exists addr prefix v6 a, address_text value addr prefix /\ (In 58 addr <-> v6 = true) /\
     match prefix with None => True | Some n => 0 <= n <= 8 * size_of v6 end /\
     pton v6 addr = Ok a /\ address_octets a prefix c).
Proof. exact ip_set_iff. Qed.
Print Assumptions C34_set_exact.
Example C34_set_exact_example : forall v6 s p, shim_pton v6 s = Ok p -> len p = size_of v6.
Proof. intros v6 s p H. now apply shim_pton_range in H. Qed.

(* what native shows for contents that have a mask: the bits from the first one to the last *)
Theorem C34_native_of_mask : forall ntop v6 a m s o k, len a = size_of v6 -> len m = size_of v6 -> ntop v6 a = Ok s ->
  0 <= o -> 0 <= k -> be_value m = (2 * o + 1) * 2 ^ k ->
  ip_native ntop (a ++ m) = Ok (Some (s ++ 47 :: dec (Z.log2 (2 * o + 1) + 1))).
Proof. exact ip_native_odd. Qed.
Print Assumptions C34_native_of_mask.
Example C34_native_example : ip_native shim_ntop [10; 0; 0; 0; 255; 255; 255; 0] = Ok (Some (tx "10.0.0.0/24")) /\ be_value [255; 255; 255; 0] = (2 * 8388607 + 1) * 2 ^ 8.
Proof. split; vm_compute; reflexivity. Qed.
Theorem C34_native_of_other_sizes : forall ntop c, len c <> 4 -> len c <> 8 -> len c <> 16 -> len c <> 32 -> ip_native ntop c = Ok None.
Proof. exact (ip_native_other shim_pton). Qed.
Print Assumptions C34_native_of_other_sizes.

(* reading contents that were loaded, once and again; an object without contents *)
Theorem C34_read_loaded : forall ntop c t, ip_native ntop c = Ok t ->
  exists o, ip_read ntop (mk_ip (Some c) None) = (o, Ok t) /\ ip_contents o = Some c /\ snd (ip_read ntop o) = Ok t.
Proof. exact read_loaded. Qed.
Print Assumptions C34_read_loaded.
Theorem C34_read_empty : forall ntop t, ip_read ntop (mk_ip None t) = (mk_ip None t, Ok None).
Proof. exact read_empty. Qed.
Print Assumptions C34_read_empty.
Example C34_read_ex : snd (ip_read shim_ntop (mk_ip (Some [10; 0; 0; 0; 255; 0; 0; 0]) None)) = Ok (Some (tx "10.0.0.0/8")).
Proof. vm_compute. reflexivity. Qed.

(* a stored text is what native gives, and the contents are those of the text *)
Theorem C34_store_then_read : forall pton ntop o value o', ip_store pton o value = (o', Ok tt) ->
  snd (ip_read ntop o') = Ok (Some value) /\ exists c, ip_contents o' = Some c /\ ip_set pton value = Ok c.
Proof. exact ip_store_read. Qed.
Print Assumptions C34_store_then_read.
Example C34_store_example : ip_store shim_pton (mk_ip (Some [1; 2; 3; 4]) (Some (tx "1.2.3.4"))) (tx "10.0.0.1/08") =
  (mk_ip (Some [10; 0; 0; 1; 255; 0; 0; 0]) (Some (tx "10.0.0.1/08")), Ok tt).
Proof. vm_compute. reflexivity. Qed.

(* masks that are not a run of ones are shown as a prefix they are not, also on a good platform:
   255.0.255.0 as /24, 0.0.0.255 as /8 *)
Theorem C34_other_masks_refuted : exists pton ntop c t c', platform pton ntop /\ bytes_ok c /\ len c = 8 /\
  ip_native ntop c = Ok (Some t) /\ ip_set pton t = Ok c' /\ c' <> c.
Proof.
  exists full_pton, shim_ntop, [10; 0; 0; 0; 255; 0; 255; 0], (tx "10.0.0.0/24"), [10; 0; 0; 0; 255; 255; 255; 0].
  split; [exact full_platform|]. split; [apply bytes_okb_spec; reflexivity|]. repeat split; try (vm_compute; reflexivity). discriminate.
Qed.
Print Assumptions C34_other_masks_refuted.
Theorem C34_native_not_injective_refuted : exists ntop c c' t, bytes_ok c /\ bytes_ok c' /\ c <> c' /\
  ip_native ntop c = Ok (Some t) /\ ip_native ntop c' = Ok (Some t).
Proof.
  exists shim_ntop, [10; 0; 0; 0; 0; 0; 0; 255], [10; 0; 0; 0; 255; 0; 0; 0], (tx "10.0.0.0/8").
  split; [apply bytes_okb_spec; reflexivity|]. split; [apply bytes_okb_spec; reflexivity|]. split; [discriminate|]. split; vm_compute; reflexivity.
Qed.
Print Assumptions C34_native_not_injective_refuted.
(* with _inet.py a certificate's address cannot be stored from its own text *)
Theorem C34_with_shim_refuted : exists c t, bytes_ok c /\ len c = 16 /\ ip_native shim_ntop c = Ok (Some t) /\ ip_set shim_pton t = Err ValueError.
Proof.
  exists (be_digits 16 1), (tx "::1"). split; [apply bytes_okb_spec; vm_compute; reflexivity|]. repeat split; vm_compute; reflexivity.
Qed.
Print Assumptions C34_with_shim_refuted.

(* ---- C63: addresses that are refused ---- *)
Theorem C63_ipv4_errors : forall s e, pton4 s = Err e -> e = ValueError.
Proof. exact pton4_errors. Qed.
Print Assumptions C63_ipv4_errors.
Example C63_ipv4_example : pton4 (tx "10.0.0.256") = Err ValueError /\ pton4 (tx "10.0.0") = Err ValueError /\ pton4 (tx "a.b.c.d") = Err ValueError.
Proof. repeat split; vm_compute; reflexivity. Qed.
(* Missing: struct.error for IPv6, and _native, which keeps the text that was refused. *)
Theorem C63_set_errors_partial : forall value e, ip_set shim_pton value = Err e -> e = ValueError \/ e = StructError.
Proof. exact shim_set_errors. Qed.
Print Assumptions C63_set_errors_partial.
Theorem C63_set_errors_of_platform : forall pton value e, ip_set pton value = Err e ->
  e = ValueError \/ exists v6 addr, pton v6 addr = Err e /\ exists p, address_text value addr p.
Proof. exact ip_set_errors. Qed.
Print Assumptions C63_set_errors_of_platform.
Example C63_errors_example : ip_set shim_pton (tx "10.0.0.0/33") = Err ValueError /\ ip_set shim_pton (tx "10.0.0.0/-1") = Err ValueError
  /\ ip_set shim_pton (tx "1::2/129") = Err ValueError.
Proof. repeat split; vm_compute; reflexivity. Qed.
Theorem C63_contents_kept_partial : forall pton o value o' e, ip_store pton o value = (o', Err e) ->
  ip_contents o' = ip_contents o /\ ip_set pton value = Err e /\
  (ip_text o' = ip_text o \/ ip_text o' = Some value /\ exists v6 addr, pton v6 addr = Err e).
Proof. exact ip_store_failed. Qed.
Print Assumptions C63_contents_kept_partial.
Example C63_kept_example : ip_store shim_pton (mk_ip (Some [1; 2; 3; 4]) None) (tx "1.2.3.4/33") = (mk_ip (Some [1; 2; 3; 4]) None, Err ValueError).
Proof. vm_compute. reflexivity. Qed.
(* too many groups, a group of five digits *)
Theorem C63_struct_error_refuted : exists s t, pton6 s = Err StructError /\ pton6 t = Err StructError /\ count2 s = 0 /\ count2 t = 1.
Proof.
  exists (tx "1:2:3:4:5:6:7:12345"), (tx "1:2:3:4::5:6:7:8:9"). repeat split; vm_compute; reflexivity.
Qed.
Print Assumptions C63_struct_error_refuted.
(* after set() raised, native gives the refused text and not the address that is dumped *)
Theorem C63_refused_text_kept_refuted : exists o value e, ip_text o = None /\ ip_contents o = Some [10; 0; 0; 1] /\
  snd (ip_store shim_pton o value) = Err e /\
  ip_contents (fst (ip_store shim_pton o value)) = Some [10; 0; 0; 1] /\
  snd (ip_read shim_ntop (fst (ip_store shim_pton o value))) = Ok (Some value) /\ value <> tx "10.0.0.1".
Proof.
  exists (mk_ip (Some [10; 0; 0; 1]) None), (tx "10.0.0.256"), ValueError. repeat split; try (vm_compute; reflexivity). vm_compute. congruence.
Qed.
Print Assumptions C63_refused_text_kept_refuted.
(* texts that are no addresses are accepted *)
Theorem C63_lenient_refuted : exists s t, pton4 s = Ok [1; 2; 3; 4] /\ ~ ipv4_text s [1; 2; 3; 4] /\ pton6 t = Ok (be_digits 16 (2 ^ 112 + 1)) /\ hd 0 t = 43.
Proof.
  exists (tx " 1.02.+3.4"), (tx "+1::0x0_1"). split; [vm_compute; reflexivity|]. split; [intros [_ H]; vm_compute in H; congruence|].
  split; vm_compute; reflexivity.
Qed.
Print Assumptions C63_lenient_refuted.
