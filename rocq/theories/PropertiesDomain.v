(* C38, C69, C70: host names and addresses a certificate is valid for. *)
Require Import Verif.Base Verif.BaseFacts Verif.Text Verif.NameModel Verif.InetModel Verif.InetSpec Verif.InetPlat Verif.InetProofs
  Verif.DomainModel Verif.DomainSpec Verif.DomainProofs Verif.DomainMore.

(* ---- C38: a name matches itself, or a star in its first label ---- *)
(* whatever characters the names hold: the labels after the first are equal, a
   star stands only in the first label of the listed name, only once, and not
   in an A-label; in particular a star never covers a dot *)
Theorem C38_wildcard_shape : forall idna pton ntop c s e, idna s = Ok e -> ~ address_like (map lower_char e) ->
  is_valid_domain_ip idna pton ntop c s = Ok true ->
  exists ds v e', valid_domains c = Ok ds /\ In v ds /\ idna v = Ok e' /\
    (labels_of e' = labels_of e \/ exists a b h, wildcard_for (labels_of e') (labels_of e) a b h).
Proof. exact name_shape. Qed.
Print Assumptions C38_wildcard_shape.

(* listed names of letters, digits, hyphens, underscores and stars: exactly the
   rules of RFC 6125 *)
Theorem C38_names_exact_partial : forall idna pton ntop c s e ds, idna s = Ok e -> ~ address_like (map lower_char e) ->
  ~ In 10 (hd [] (labels_of e)) ->
  valid_domains c = Ok ds -> Forall (fun v => exists e', idna v = Ok e' /\ plain_name e') ds ->
  exists r, is_valid_domain_ip idna pton ntop c s = Ok r /\
    (r = true <-> exists v e', In v ds /\ idna v = Ok e' /\ covers (labels_of e') (labels_of e)).
Proof. exact name_exact. Qed.
Print Assumptions C38_names_exact_partial.
Definition listed (l : list text) : cert := {| c_san := Some (map GDns l); c_subject := [] |}.
Definition check (l : list text) (s : text) : res bool := is_valid_domain_ip idna_ascii full_pton shim_ntop (listed l) s.
Example C38_star_ex : check [tx "example.com"; tx "*.Example.com"; tx "f*o.example.org"] (tx "WWW.example.com") = Ok true.
Proof. vm_compute. reflexivity. Qed.
Example C38_part_ex : check [tx "f*o.example.org"] (tx "foo.example.org") = Ok true /\ check [tx "f*o.example.org"] (tx "fox.example.org") = Ok false.
Proof. split; vm_compute; reflexivity. Qed.
Example C38_dots_ex : check [tx "*.example.com"] (tx "a.b.example.com") = Ok false /\ check [tx "*.example.com"] (tx "example.com") = Ok false.
Proof. split; vm_compute; reflexivity. Qed.
Example C38_places_ex : check [tx "www.*.com"; tx "*.*.com"; tx "xn--*.example.com"] (tx "www.example.com") = Ok false /\
  check [tx "xn--*.example.com"] (tx "xn--a.example.com") = Ok false.
Proof. split; vm_compute; reflexivity. Qed.
Example C38_names_ex : ~ address_like (map lower_char (tx "WWW.example.com")) /\ ~ In 10 (hd [] (labels_of (tx "WWW.example.com"))) /\
  Forall (fun v => exists e', idna_ascii v = Ok e' /\ plain_name e') [tx "example.com"; tx "*.Example.com"; tx "f*o.example.org"].
Proof.
  split; [|split].
  - rewrite <- address_like_spec. vm_compute. discriminate.
  - vm_compute. intuition discriminate.
  - repeat (constructor; [eexists; split; [vm_compute; reflexivity|]; unfold plain_name, plain_char; vm_compute;
      repeat (constructor; [clear; first [left; split; discriminate | right; left; split; discriminate
        | right; right; left; split; discriminate | right; right; right; right; right; reflexivity]|]); constructor|]). constructor.
Qed.

(* a name stands for itself, however it is spelt *)
Theorem C38_listed_names_match : forall idna pton ntop c s e ds, idna s = Ok e -> ~ address_like (map lower_char e) ->
  valid_domains c = Ok ds -> Forall (fun v => exists e', idna v = Ok e' /\ plain_name e') ds ->
  ~ In 10 (hd [] (labels_of e)) ->
  (exists v e', In v ds /\ idna v = Ok e' /\ map lower_char e' = map lower_char e) ->
  is_valid_domain_ip idna pton ntop c s = Ok true.
Proof. exact listed_match. Qed.
Print Assumptions C38_listed_names_match.
Example C38_case_ex : check [tx "EXAMPLE.com"] (tx "example.COM") = Ok true.
Proof. vm_compute. reflexivity. Qed.
(* without names nothing matches *)
Theorem C38_no_names : forall idna pton ntop c s e, idna s = Ok e -> ~ address_like (map lower_char e) ->
  valid_domains c = Ok [] -> is_valid_domain_ip idna pton ntop c s = Ok false.
Proof. exact no_names. Qed.
Print Assumptions C38_no_names.
Example C38_no_names_ex : valid_domains (listed []) = Ok [] /\ check [] (tx "example.com") = Ok false.
Proof. split; vm_compute; reflexivity. Qed.

(* the first label is used as a regular expression: w?w*.example.com, a listed
   name that covers no name without a question mark, is taken for www *)
Theorem C38_pattern_characters_refuted : exists l s e,
  idna_ascii s = Ok e /\ check l s = Ok true /\
  forall v e', In v l -> idna_ascii v = Ok e' -> ~ covers (labels_of e') (labels_of e).
Proof.
  exists [tx "w?w*.example.com"], (tx "www.example.com"), (tx "www.example.com"). split; [reflexivity|]. split; [vm_compute; reflexivity|].
  intros v e' [<-|[]] E. vm_compute in E. injection E as <-.
  intros [C|(a & b & h & m & (w & rest & E1 & E2 & (Ew & Ha & Hb & _) & _) & Hh)]; [vm_compute in C; discriminate|].
  vm_compute in E1, E2. injection E1 as <- _. injection E2 as <- _.
  destruct a as [|a1 [|a2 a]]; cbn [app] in Ew, Hh; try discriminate.
  injection Ew as <- <- Ew. discriminate.
Qed.
Print Assumptions C38_pattern_characters_refuted.
(* and a name that is covered is not found *)
Theorem C38_covered_not_found_refuted : exists l s e v, In v l /\ idna_ascii s = Ok e /\ idna_ascii v = Ok v /\
  covers (labels_of v) (labels_of e) /\ check l s = Ok false.
Proof.
  exists [tx "a^*.example.com"], (tx "a^b.example.com"), (tx "a^b.example.com"), (tx "a^*.example.com").
  split; [left; reflexivity|]. split; [vm_compute; reflexivity|]. split; [vm_compute; reflexivity|].
  split; [|vm_compute; reflexivity]. right. exists (tx "a^"), [], (tx "a^b"), (tx "b"). split; [|reflexivity].
  exists (tx "a^*"), [tx "example"; tx "com"]. split; [reflexivity|]. split; [reflexivity|]. split.
  - split; [reflexivity|]. split; [vm_compute; intuition discriminate|]. split; [intros []|vm_compute; discriminate].
  - repeat (apply Forall_cons; [vm_compute; intuition discriminate|]). constructor.
Qed.
Print Assumptions C38_covered_not_found_refuted.
(* $ matches before a line feed *)
Theorem C38_line_feed_refuted : exists l s e, idna_ascii s = Ok e /\ check l s = Ok true /\
  (forall v e', In v l -> idna_ascii v = Ok e' -> plain_name e' /\ ~ covers (labels_of e') (labels_of e)).
Proof.
  exists [tx "f*o.example.com"], (tx "foo" ++ [10] ++ tx ".example.com"), (tx "foo" ++ [10] ++ tx ".example.com").
  split; [vm_compute; reflexivity|]. split; [vm_compute; reflexivity|].
  intros v e' [<-|[]] E. vm_compute in E. injection E as <-. split.
  - unfold plain_name, plain_char. vm_compute.
    constructor; [right; right; left; split; discriminate|]. constructor; [right; right; right; right; right; reflexivity|].
    constructor; [right; right; left; split; discriminate|constructor].
  - intros [C|(a & b & h & m & (w & rest & E1 & E2 & (Ew & Ha & Hb & _) & _) & Hh)]; [vm_compute in C; discriminate|].
    vm_compute in E1, E2. injection E1 as <- _. injection E2 as <- _.
    assert (L : last b 0 = 111 /\ b <> []).
    { destruct a as [|a1 [|a2 a]]; cbn [app] in Ew; try discriminate.
      - injection Ew as _ <-. split; [reflexivity|discriminate].
      - injection Ew as _ E42 _. exfalso. apply Ha. right. left. symmetry. exact E42. }
    destruct L as [L Nb]. apply (f_equal (fun x => last x 0)) in Hh. rewrite app_assoc, last_app_r in Hh by exact Nb.
    rewrite L in Hh. discriminate.
Qed.
Print Assumptions C38_line_feed_refuted.
(* one listed name that cannot be encoded makes the check of every name fail,
   those listed after it included *)
Theorem C38_unencodable_refuted : exists l s, In s l /\ idna_ascii s = Ok s /\ check l s = Err UnicodeError.
Proof.
  exists [tx ".example.com"; tx "www.example.com"], (tx "www.example.com"). split; [right; left; reflexivity|]. split; vm_compute; reflexivity.
Qed.
Print Assumptions C38_unencodable_refuted.

(* ---- C69: the names themselves ---- *)
Theorem C69_alternative_names : forall c l, c_san c = Some l -> l <> [] ->
  exists ds, valid_domains c = Ok ds /\ NoDup ds /\ forall s, In s ds <-> In (GDns s) l.
Proof. exact valid_domains_san. Qed.
Print Assumptions C69_alternative_names.
Theorem C69_order : forall l l', exists t, san_domains (l ++ l') = san_domains l ++ t.
Proof. exact valid_domains_order. Qed.
Print Assumptions C69_order.
Definition cn (s : text) : attr := {| a_type := tx "common_name"; a_value := RText s |}.
Example C69_san_ex : valid_domains {| c_san := Some [GDns (tx "b"); GOther; GDns (tx "a"); GIp [1; 2; 3; 4]; GDns (tx "b")]; c_subject := [[cn (tx "c.com")]] |}
  = Ok [tx "b"; tx "a"].
Proof. vm_compute. reflexivity. Qed.
(* without the extension: the common names that look like domains, or like a
   domain and a line feed *)
Theorem C69_common_names : forall c, c_san c = None ->
  (forall x, In x (concat (c_subject c)) -> a_type x = tx "common_name" -> exists s, a_value x = RText s) ->
  exists ds, valid_domains c = Ok ds /\ forall s, In s ds <->
    (exists x, In x (concat (c_subject c)) /\ a_type x = tx "common_name" /\ a_value x = RText s) /\
    (host_pattern s \/ exists r, s = r ++ [10] /\ host_pattern r).
Proof. exact valid_domains_cn. Qed.
Print Assumptions C69_common_names.
Example C69_cn_ex : valid_domains {| c_san := None; c_subject := [[cn (tx "*.x-1.example.com"); cn (tx "Will Bond")]; [cn (tx "a.b.c1")]; [cn (tx "-a.com")]; [cn (tx "b.org")]] |}
  = Ok [tx "*.x-1.example.com"; tx "b.org"].
Proof. vm_compute. reflexivity. Qed.
Theorem C69_line_feed_refuted : exists c s, valid_domains c = Ok [s] /\ ~ host_pattern s.
Proof.
  exists {| c_san := None; c_subject := [[cn (tx "a.com" ++ [10])]] |}, (tx "a.com" ++ [10]). split; [vm_compute; reflexivity|].
  intros H. apply host_pattern_last in H. vm_compute in H. congruence.
Qed.
Print Assumptions C69_line_feed_refuted.
(* RFC 6125 (6.4.4): no common name when the extension is there; one without
   names is treated as if it were not *)
Theorem C69_empty_extension_refuted : exists c s, c_san c = Some [] /\ valid_domains c = Ok [s].
Proof. exists {| c_san := Some []; c_subject := [[cn (tx "a.com")]] |}, (tx "a.com"). split; vm_compute; reflexivity. Qed.
Print Assumptions C69_empty_extension_refuted.

(* ---- C70: addresses ---- *)
(* on a platform that reads what it writes and writes dots in IPv4 addresses
   only, for certificates that list addresses without masks *)
Theorem C70_addresses_exact_partial : forall idna pton ntop c s e l v6 ip, platform pton ntop -> dots_in_v4 ntop ->
  idna s = Ok e -> address_like (map lower_char e) ->
  (In 58 (map lower_char e) <-> v6 = true) -> pton v6 (map lower_char e) = Ok ip ->
  c_san c = Some l -> (forall o, In (GIp o) l -> bytes_ok o /\ address_size o) ->
  exists r, is_valid_domain_ip idna pton ntop c s = Ok r /\ (r = true <-> In (GIp ip) l).
Proof. exact ip_exact. Qed.
Print Assumptions C70_addresses_exact_partial.
Example C70_platform_ex : platform full_pton shim_ntop /\ dots_in_v4 shim_ntop.
Proof. split; [exact full_platform|exact shim_dots]. Qed.
Definition listing (l : list bytes) : cert := {| c_san := Some (map GIp l); c_subject := [[cn (tx "a.com")]] |}.
Definition v6_one : bytes := [32; 1; 13; 184; 0; 0; 0; 0; 0; 0; 0; 0; 0; 0; 0; 1].
Example C70_addresses_ex :
  is_valid_domain_ip idna_ascii full_pton shim_ntop (listing [[10; 0; 0; 1]; v6_one]) (tx "2001:DB8:0::1") = Ok true /\
  is_valid_domain_ip idna_ascii full_pton shim_ntop (listing [[10; 0; 0; 1]; v6_one]) (tx "10.0.0.2") = Ok false.
Proof. split; vm_compute; reflexivity. Qed.
(* an address is never compared with a domain name *)
Theorem C70_names_do_not_matter : forall idna pton ntop c c' s e, idna s = Ok e -> address_like (map lower_char e) ->
  valid_ips ntop c = valid_ips ntop c' ->
  is_valid_domain_ip idna pton ntop c s = is_valid_domain_ip idna pton ntop c' s.
Proof. exact only_ips. Qed.
Print Assumptions C70_names_do_not_matter.
Example C70_names_ex : check [tx "10.0.0.1"; tx "*.0.0.1"] (tx "10.0.0.1") = Ok false.
Proof. vm_compute. reflexivity. Qed.

(* without listed addresses no address matches, whatever the platform *)
Theorem C70_no_addresses : forall idna pton ntop c s e, idna s = Ok e -> address_like (map lower_char e) ->
  (forall l o, c_san c = Some l -> ~ In (GIp o) l) -> is_valid_domain_ip idna pton ntop c s = Ok false.
Proof. exact no_addresses. Qed.
Print Assumptions C70_no_addresses.
Example C70_no_addresses_ex : check [tx "a.com"] (tx "10.0.0.1") = Ok false /\
  is_valid_domain_ip idna_ascii full_pton shim_ntop {| c_san := None; c_subject := [[cn (tx "10.0.0.1")]] |} (tx "10.0.0.1") = Ok false.
Proof. split; vm_compute; reflexivity. Qed.

(* platforms write addresses such as ::ffff:10.0.0.1 with dots: as soon as one
   is listed the check of every address listed after it fails *)
Definition mapped : bytes := [0; 0; 0; 0; 0; 0; 0; 0; 0; 0; 255; 255; 10; 0; 0; 1].
Definition mapped_ntop (v6 : bool) (p : bytes) : res text :=
  if v6 && eqb_bytes p mapped then Ok (tx "::ffff:10.0.0.1") else shim_ntop v6 p.
Definition mapped_pton (v6 : bool) (s : text) : res bytes :=
  if v6 && eqb_text s (tx "::ffff:10.0.0.1") then Ok mapped else full_pton v6 s.
Theorem C70_mapped_refuted : exists pton ntop l s ip, platform pton ntop /\ pton false s = Ok ip /\ In ip l /\
  (forall o, In o l -> bytes_ok o /\ address_size o) /\
  is_valid_domain_ip idna_ascii pton ntop (listing l) s = Err ValueError.
Proof.
  exists mapped_pton, mapped_ntop, [mapped; [10; 0; 0; 1]], (tx "10.0.0.1"), [10; 0; 0; 1].
  split; [|split; [vm_compute; reflexivity|split; [right; left; reflexivity|split; [|vm_compute; reflexivity]]]].
  - intros v6 p B L. unfold mapped_ntop. destruct (v6 && eqb_bytes p mapped) eqn:E.
    + apply andb_true_iff in E. destruct E as [-> E]. apply eqb_bytes_spec in E. subst p.
      exists (tx "::ffff:10.0.0.1"). split; [reflexivity|]. split; [vm_compute; reflexivity|]. split; [vm_compute; intuition discriminate|].
      split; [reflexivity|]. intros _. left. reflexivity.
    + destruct (full_platform v6 p B L) as (s & E1 & E2 & E3). exists s. split; [exact E1|]. split; [|exact E3].
      unfold mapped_pton. destruct (v6 && eqb_text s (tx "::ffff:10.0.0.1")) eqn:X; [|exact E2].
      apply andb_true_iff in X. destruct X as [-> X]. apply eqb_text_spec in X. subst s.
      exfalso. pose proof (shim_dots true p _ B L E1) as D. destruct D as [D _].
      assert (true = false); [|discriminate]. apply D. vm_compute. tauto.
  - intros o [<-|[<-|[]]]; (split; [apply bytes_okb_spec; reflexivity|]); [right|left]; reflexivity.
Qed.
Print Assumptions C70_mapped_refuted.
(* so does a listed network, or an entry of another size *)
Theorem C70_network_refuted : exists l s ip, full_pton false s = Ok ip /\ In ip l /\
  is_valid_domain_ip idna_ascii full_pton shim_ntop (listing l) s = Err ValueError.
Proof.
  exists [[192; 168; 0; 0; 255; 255; 0; 0]; [10; 0; 0; 1]], (tx "10.0.0.1"), [10; 0; 0; 1].
  split; [vm_compute; reflexivity|]. split; [right; left; reflexivity|]. vm_compute. reflexivity.
Qed.
Print Assumptions C70_network_refuted.
Theorem C70_other_size_refuted : exists l s ip, full_pton false s = Ok ip /\ In ip l /\
  is_valid_domain_ip idna_ascii full_pton shim_ntop (listing l) s = Err AttributeError.
Proof.
  exists [[1; 2; 3]; [10; 0; 0; 1]], (tx "10.0.0.1"), [10; 0; 0; 1].
  split; [vm_compute; reflexivity|]. split; [right; left; reflexivity|]. vm_compute. reflexivity.
Qed.
Print Assumptions C70_other_size_refuted.
(* texts of digits and dots that are no address raise instead of not matching,
   when the certificate lists an address *)
Theorem C70_bad_address_refuted : exists l s, idna_ascii s = Ok s /\ is_valid_domain_ip idna_ascii full_pton shim_ntop (listing l) s = Err ValueError.
Proof. exists [[10; 0; 0; 1]], (tx "1.2.3.400"). split; vm_compute; reflexivity. Qed.
Print Assumptions C70_bad_address_refuted.
