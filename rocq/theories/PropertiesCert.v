(* C82: general names are compared by kind and value.
   C83: the URLs of certificates and CRLs.
   C84: what a certificate says of itself. *)
Require Import Verif.Base Verif.BaseFacts Verif.Text Verif.DomainModel Verif.NameModel Verif.NameSpec Verif.NameProofs
  Verif.AddrModel Verif.AddrSpec Verif.AddrProofs Verif.PropertiesAddr
  Verif.UriModel Verif.UriSpec Verif.UriEqual Verif.PropertiesUri Verif.CertModel Verif.CertSpec Verif.CertProofs.

(* ---- C82 ---- *)
(* an object with the value v: loaded or set, whatever is read and compared before *)
Definition general_object to from low ipv6 nfkc (v : gvalue) (g : general) : Prop :=
  match v with
  | VMail s => exists o l, mail_object to s o /\ g = GMail (fold_left (email_use to from) l o)
  | VDns s => exists o l, dns_object to s o /\ g = GDns (fold_left (dns_use from low) l o)
  | VUri u => exists o l, uri_object to low ipv6 nfkc u o /\ g = GUri (fold_left (use_uri to from low ipv6 nfkc) l o)
  | VDir n => g = GDir n
  | VIp c => g = GIp c
  | VId c => g = GId c
  end.
Theorem C82_equal_partial : forall L to from low ipv6 nfkc v w a b, plain_value L v -> plain_value L w ->
  general_object to from low ipv6 nfkc v a -> general_object to from low ipv6 nfkc w b ->
  exists r, snd (general_eq L to from low ipv6 nfkc a b) = Ok r /\ (r = true <-> same_value L v w).
Proof.
  intros L to from low ipv6 nfkc v w a b V W A B.
  destruct v, w; cbn in A, B;
    repeat match goal with H : exists _, _ |- _ => destruct H | H : _ /\ _ |- _ => destruct H end; subst a b;
    try (exists false; split; [reflexivity|cbn; intuition discriminate]).
  - rewrite geq_same by exact Logic.I. cbn [chosen_eq]. match goal with |- context [email_eq _ _ ?x ?y] => remember (email_eq to from x y) as z eqn:Z end.
    destruct z as [[x' y'] r]. cbn [snd]. eassert (E := C80_equal_partial to from _ _ _ _ _ _ V W ltac:(eassumption) ltac:(eassumption)).
    destruct E as (q & E & F). exists q. split; [|exact F]. rewrite <- E. change r with (snd (x', y', r)). rewrite Z. reflexivity.
  - rewrite geq_same by exact Logic.I. cbn [chosen_eq]. match goal with |- context [dns_eq _ _ ?x ?y] => remember (dns_eq from low x y) as z eqn:Z end.
    destruct z as [[x' y'] r]. cbn [snd]. eassert (E := C79_equal_partial to from low _ _ _ _ _ _ V W ltac:(eassumption) ltac:(eassumption)).
    destruct E as (q & E & F). exists q. split; [|exact F]. rewrite <- E. change r with (snd (x', y', r)). rewrite Z. reflexivity.
  - rewrite geq_same by exact Logic.I. cbn [chosen_eq]. match goal with |- context [uri_eq _ _ _ _ _ ?x ?y] => remember (uri_eq to from low ipv6 nfkc x y) as z eqn:Z end.
    destruct z as [[x' y'] r]. cbn [snd]. eassert (E := C81_equal_partial to from low ipv6 nfkc _ _ _ _ _ _ V W ltac:(eassumption) ltac:(eassumption)).
    destruct E as (q & E & F). exists q. split; [|exact F]. rewrite <- E. change r with (snd (x', y', r)). rewrite Z. reflexivity.
  - rewrite geq_same by exact Logic.I. cbn [chosen_eq snd same_value]. destruct V as [V V'], W as [W W'].
    destruct (name_total L _ _ V W) as [r R]. exists r. split; [exact R|]. rewrite <- (name_attrs L _ _ V'), R. split; [now intros ->|congruence].
  - exists (eqb_bytes c c0). split; [reflexivity|apply eqb_bytes_spec].
  - exists (eqb_bytes c c0). split; [reflexivity|apply eqb_bytes_spec].
Qed.
Print Assumptions C82_equal_partial.
(* different kinds are unequal, whatever the values *)
Theorem C82_kinds : forall L to from low ipv6 nfkc a b, ~ not_compared a -> ~ not_compared b -> ~ same_kind a b ->
  general_eq L to from low ipv6 nfkc a b = (a, b, Ok false).
Proof. exact geq_kinds. Qed.
Print Assumptions C82_kinds.
(* for all values: symmetric, transitive, reflexive where it answers yes *)
Lemma snd3 {A B C} (x : A * B * C) : x = (fst (fst x), snd (fst x), snd x). Proof. now destruct x as [[a b] c]. Qed.
Theorem C82_equivalence : forall L to from low ipv6 nfkc a b c r,
  let eq x y := snd (general_eq L to from low ipv6 nfkc x y) in
  (eq a b = Ok r -> eq b a = Ok r) /\ (eq a b = Ok true -> eq b c = Ok true -> eq a c = Ok true) /\ (eq a b = Ok true -> eq a a = Ok true).
Proof.
  intros L to from low ipv6 nfkc a b c r eq.
  assert (Sy : forall x y q, eq x y = Ok q -> eq y x = Ok q).
  { intros x y q. unfold eq. destruct (kinds x) as [U|U]; [rewrite geq_unsupported by auto; discriminate|].
    destruct (kinds y) as [W|W]; [rewrite geq_unsupported by auto; discriminate|].
    destruct x, y; try contradiction; try (intro E; exact E); rewrite !geq_same by exact Logic.I; cbn [chosen_eq snd].
    - pose proof (C80_equivalence to from o o0 o q) as (_ & E & _). rewrite (snd3 (email_eq to from o o0)), (snd3 (email_eq to from o0 o)). exact E.
    - pose proof (C79_equivalence from low o o0 o q) as (_ & E & _). rewrite (snd3 (dns_eq from low o o0)), (snd3 (dns_eq from low o0 o)). exact E.
    - pose proof (C81_equivalence to from low ipv6 nfkc o o0 o q) as (_ & E & _).
      rewrite (snd3 (uri_eq to from low ipv6 nfkc o o0)), (snd3 (uri_eq to from low ipv6 nfkc o0 o)). exact E.
    - pose proof (name_sym L n n0) as E. intro Q. rewrite Q in E. destruct (eq_name L n0 n); [now subst|contradiction].
    - intro E. rewrite <- E. f_equal. apply eq_true_iff_eq. rewrite !eqb_bytes_spec. split; congruence.
    - intro E. rewrite <- E. f_equal. apply eq_true_iff_eq. rewrite !eqb_bytes_spec. split; congruence. }
  assert (Tr : forall x y z, eq x y = Ok true -> eq y z = Ok true -> eq x z = Ok true).
  { intros x y z. unfold eq. destruct (kinds x) as [U|U]; [rewrite geq_unsupported by auto; discriminate|].
    destruct (kinds y) as [W|W]; [rewrite geq_unsupported by auto; discriminate|].
    destruct (kinds z) as [Y|Y]; [rewrite (geq_unsupported L to from low ipv6 nfkc y z) by auto; discriminate|].
    destruct x, y; try contradiction; try (cbn; discriminate); destruct z; try contradiction; try (intros _; cbn; discriminate);
      rewrite !geq_same by exact Logic.I; cbn [chosen_eq snd].
    - pose proof (C80_equivalence to from o o0 o1 true) as (_ & _ & E).
      rewrite (snd3 (email_eq to from o o0)), (snd3 (email_eq to from o0 o1)), (snd3 (email_eq to from o o1)). exact E.
    - pose proof (C79_equivalence from low o o0 o1 true) as (_ & _ & E).
      rewrite (snd3 (dns_eq from low o o0)), (snd3 (dns_eq from low o0 o1)), (snd3 (dns_eq from low o o1)). exact E.
    - pose proof (C81_equivalence to from low ipv6 nfkc o o0 o1 true) as (_ & _ & E).
      rewrite (snd3 (uri_eq to from low ipv6 nfkc o o0)), (snd3 (uri_eq to from low ipv6 nfkc o0 o1)), (snd3 (uri_eq to from low ipv6 nfkc o o1)). exact E.
    - apply name_trans.
    - intros [= E] [= F]. apply eqb_bytes_spec in E, F. subst. f_equal. now apply eqb_bytes_spec.
    - intros [= E] [= F]. apply eqb_bytes_spec in E, F. subst. f_equal. now apply eqb_bytes_spec. }
  split; [apply Sy|]. split; [apply Tr|]. intro E. apply (Tr a b a E). now apply Sy.
Qed.
Print Assumptions C82_equivalence.
Example C82_ex : forall L to from low ipv6 nfkc e,
  snd (general_eq L to from low ipv6 nfkc (GDns (load_addr e (tx "a.B"))) (GDns (load_addr e (tx "A.b")))) = Ok true /\
  snd (general_eq L to from low ipv6 nfkc (GDns (load_addr e (tx "a.b"))) (GUri (load_addr e (tx "a.b")))) = Ok false /\
  snd (general_eq L to from low ipv6 nfkc (GUri (load_addr e (tx "http://a.b:80/"))) (GUri (load_addr e (tx "http://A.b/")))) = Ok true /\
  snd (general_eq L to from low ipv6 nfkc (GMail (load_addr e (tx "A@b"))) (GMail (load_addr e (tx "a@b")))) = Ok false /\
  plain_value L (VDns (tx "a.B")) /\ general_object to from low ipv6 nfkc (VDns (tx "a.B")) (GDns (load_addr e (tx "a.B"))) /\
  same_value L (VDns (tx "a.B")) (VDns (tx "A.b")).
Proof.
  intros. repeat (split; [vm_compute; reflexivity|]). split.
  { split; [apply is_ascii_iff; vm_compute; reflexivity|apply no_ace_iff; vm_compute; reflexivity]. }
  split; [exists (load_addr e (tx "a.B")), []; split; [left; eauto|reflexivity]|apply name_iff; vm_compute; reflexivity].
Qed.
(* names of other kinds raise, even against names that cannot be equal, so searching a list
   of general names for a DNS name may raise *)
Theorem C82_other_kinds_refuted : exists a b, ~ same_kind a b /\ a <> b /\ forall L to from low ipv6 nfkc,
  snd (general_eq L to from low ipv6 nfkc a b) = Err ValueError /\ snd (general_eq L to from low ipv6 nfkc b a) = Err ValueError.
Proof. exists (GDns (load_addr [] (tx "a"))), GOther. split; [cbn; tauto|]. split; [discriminate|]. intros. split; reflexivity. Qed.
Print Assumptions C82_other_kinds_refuted.

(* ---- C83 ---- *)
(* url: the first URI of the full name that begins with http://, https://, ldap:// or ldaps://,
   however often it is read *)
Theorem C83_url_partial : forall (N : Type) low (l : list (@gen N)) v n, letterwise low -> first_of (begins url_prefixes) l v ->
  snd (read_url low (Some (Full l)) (Nat.iter n (fun c => fst (read_url low (Some (Full l)) c)) None)) = Ok v.
Proof.
  intros N low l v n H F. apply (first_url_ok low H) in F. pose proof (url_reads low (Some (Full l)) n) as U. cbv zeta beta iota in U. rewrite F in U. exact U.
Qed.
Print Assumptions C83_url_partial.
(* the lists of distribution points: each point once per URI of its full name *)
Theorem C83_points_partial : forall (N : Type) (c : @cert N) x, ct_exts c = Ok x ->
  snd (crl_distribution_points c new_caches) = Ok (match x_points x with Some l => once_per_uri l | None => [] end) /\
  snd (delta_crl_distribution_points c new_caches) = Ok (match x_fresh x with Some l => once_per_uri l | None => [] end).
Proof.
  intros N c x E. unfold crl_distribution_points, delta_crl_distribution_points. cbn. rewrite E. unfold points_of. cbn [snd].
  split; [destruct (x_points x)|destruct (x_fresh x)]; rewrite ?url_points_once; reflexivity.
Qed.
Print Assumptions C83_points_partial.
Theorem C83_ocsp : forall (N : Type) low (c : @cert N) x o, letterwise low -> ct_exts c = Ok x ->
  (ocsp_urls low c = Ok o <-> listed (tx "ocsp") (begins url_prefixes) (match x_access x with Some l => l | None => [] end) o).
Proof.
  intros N low c x o H E. unfold ocsp_urls. rewrite E. cbn [bind]. destruct (x_access x) as [l|]; [now apply listed_ocsp|].
  rewrite <- (listed_ocsp low H). reflexivity.
Qed.
Print Assumptions C83_ocsp.
(* issuer_cert_urls, when all can be read, however often it is read; delta CRLs of a CRL, when
   no distribution point lacks its name; issuer_name *)
Theorem C83_crl_partial : forall (N : Type) low, letterwise low ->
  (forall (l : option (list (text * @gen N))) o n, listed (tx "ca_issuers") (begins http_prefix) (match l with Some l => l | None => [] end) o ->
     snd (issuer_cert_urls low (Ok l) (Nat.iter n (fun c => fst (issuer_cert_urls low (Ok l) c)) None)) = Ok o) /\
  (forall (l : option (list (@point N))) n, ~ In None (match l with Some l => l | None => [] end) ->
     snd (crl_delta_points (Ok l) (Nat.iter n (fun c => fst (crl_delta_points (Ok l) c)) None)) = Ok (once_per_uri (match l with Some l => l | None => [] end))) /\
  (forall (l : list (@gen N)) n, exists v, snd (issuer_name (Ok (Some l)) (Nat.iter n (fun c => fst (issuer_name (Ok (Some l)) c)) None)) = Ok v /\
     match v with Some d => exists a b e, l = a ++ Dir d e :: b /\ forall d' e', ~ In (Dir d' e') a | None => forall d e, ~ In (Dir d e) l end).
Proof.
  intros N low H. split; [|split].
  - intros l o n F. destruct n as [|n].
    + cbn. destruct l as [l|]; cbn; [|apply (listed_ca low H) in F; cbn in F; congruence]. apply (listed_ca low H) in F. now rewrite F.
    + assert (E : Nat.iter (S n) (fun c => fst (issuer_cert_urls low (Ok l) c)) None = Some o); [|rewrite E; reflexivity].
      induction n as [|n IH].
      * cbn. destruct l as [l|]; cbn; [|apply (listed_ca low H) in F; cbn in F; congruence]. apply (listed_ca low H) in F. now rewrite F.
      * set (f := fun c => fst (issuer_cert_urls low (Ok l) c)) in *. change (Nat.iter (S (S n)) f None) with (f (Nat.iter (S n) f None)). rewrite IH. reflexivity.
  - intros l n F. assert (R : crl_delta_points (Ok l) None = (Some (once_per_uri (match l with Some l => l | None => [] end)), Ok (once_per_uri (match l with Some l => l | None => [] end)))).
    { unfold crl_delta_points. destruct l as [l|]; [|reflexivity]. now rewrite crl_points_once. }
    destruct n as [|n]; [cbn [Nat.iter nat_rect]; now rewrite R|].
    assert (E : Nat.iter (S n) (fun c => fst (crl_delta_points (Ok l) c)) None = Some (once_per_uri (match l with Some l => l | None => [] end))); [|rewrite E; reflexivity].
    induction n as [|n IH]; [cbn [Nat.iter nat_rect]; now rewrite R|].
    set (f := fun c => fst (crl_delta_points (Ok l) c)) in *. change (Nat.iter (S (S n)) f None) with (f (Nat.iter (S n) f None)). rewrite IH. reflexivity.
  - intros l n. exists (first_dir l). split.
    + destruct n as [|n]; [reflexivity|].
      assert (E : Nat.iter (S n) (fun c => fst (issuer_name (Ok (Some l)) c)) None = Some (first_dir l)); [|rewrite E; reflexivity].
      induction n as [|n IH]; [reflexivity|].
      set (f := fun c => fst (issuer_name (Ok (Some l)) c)) in *. change (Nat.iter (S (S n)) f None) with (f (Nat.iter (S n) f None)). rewrite IH. reflexivity.
    + induction l as [|g l IH]; cbn [first_dir]; [intros d e []|].
      destruct g as [v|d e|v].
      * destruct (first_dir l) as [d|].
        -- destruct IH as (a & b & e & -> & F). exists (Url v :: a), b, e. split; [reflexivity|]. intros d' e' [[=]|X]. now apply (F d' e').
        -- intros d e [[=]|X]. now apply (IH d e).
      * exists [], l, e. split; [reflexivity|]. intros d' e' [].
      * destruct (first_dir l) as [d|].
        -- destruct IH as (a & b & e & -> & F). exists (Plain v :: a), b, e. split; [reflexivity|]. intros d' e' [[=]|X]. now apply (F d' e').
        -- intros d e [[=]|X]. now apply (IH d e).
Qed.
Print Assumptions C83_crl_partial.
(* lower of ASCII letters only *)
Lemma letterwise_ascii : letterwise lower_ascii.
Proof.
  intro s. exists (map (fun c => [lower_char c]) s). split; [unfold lower_ascii; induction s; cbn; [reflexivity|now rewrite IHs]|].
  induction s as [|c s IH]; [constructor|]. cbn [map]. constructor; [|exact IH]. unfold lower_char. destruct (c <? 128) eqn:C; [reflexivity|].
  replace ((65 <=? c) && (c <=? 90)) with false by lia. exists c, []. split; [reflexivity|]. cbn. lia.
Qed.
Definition some_names : list (@gen unit) := [Plain (Ok tt); Url (Ok (tx "ftp://a")); Url (Ok (tx "HTTP://b")); Url (Ok (tx "http://c"))].
Example C83_ex : letterwise lower_ascii /\ first_of (begins url_prefixes) some_names (Some (tx "HTTP://b")) /\
  snd (read_url lower_ascii (Some (Full some_names)) None) = Ok (Some (tx "HTTP://b")) /\
  ocsp_loop (N := unit) lower_ascii [(tx "ca_issuers", Url (Ok (tx "http://a"))); (tx "ocsp", Url (Ok (tx "ftp://a"))); (tx "ocsp", Url (Ok (tx "Http://o")))] = Ok [tx "Http://o"] /\
  ca_loop (N := unit) lower_ascii [(tx "ca_issuers", Url (Ok (tx "http://a"))); (tx "ca_issuers", Url (Ok (tx "https://a"))); (tx "ocsp", Url (Err ValueError))] = ([tx "http://a"], Ok tt).
Proof.
  split; [apply letterwise_ascii|]. split; [apply (first_url_ok lower_ascii letterwise_ascii); vm_compute; reflexivity|]. repeat split; vm_compute; reflexivity.
Qed.
(* where the answer changes: the first access to url raises, later ones say that there is none:
   relative names, absent names, URIs that cannot be read though a good one follows *)
Theorem C83_url_changes_refuted : forall (N : Type) low e, exists l,
  (forall p, In p [None; Some Relative; Some (Full l)] ->
     exists x, snd (read_url (N := N) low p None) = Err x /\ snd (read_url low p (fst (read_url low p None))) = Ok None) /\
  l = [Url (Err e); Url (Ok (tx "http://a/"))].
Proof.
  intros N low e. exists [Url (Err e); Url (Ok (tx "http://a/"))]. split; [|reflexivity].
  intros p [<-|[<-|[<-|[]]]]; cbn; eexists; split; reflexivity.
Qed.
Print Assumptions C83_url_changes_refuted.
(* a point with two URIs is listed twice, and so are points whose URIs are not of HTTP *)
Theorem C83_twice_refuted : exists l : list (@point unit), NoDup l /\ ~ NoDup (url_points l) /\
  exists p, In p (url_points l) /\ forall s, In (Ok s) (uris p) -> ~ begins url_prefixes s.
Proof.
  set (p := Some (Full [Url (N := unit) (Ok (tx "ftp://a")); Url (Ok (tx "ftp://b"))])). exists [p]. split; [constructor; [intros []|constructor]|].
  split; [cbn; intro H; inversion H as [|? ? A B]; apply A; now left|]. exists p. split; [now left|].
  intros s I W. apply (wanted_iff lower_ascii s letterwise_ascii) in W. cbn in I. destruct I as [[= <-]|[[= <-]|[]]]; vm_compute in W; discriminate.
Qed.
Print Assumptions C83_twice_refuted.
(* CRLs: a distribution point without a name raises, then the points before it are all there
   are; a location that cannot be read likewise; an entry whose extensions cannot be read has no
   issuer of its own when asked again *)
Theorem C83_crl_changes_refuted : forall (N : Type) low (p : @point N) e,
  (let r := crl_delta_points (Ok (Some [None; p])) None in snd r = Err AttributeError /\ snd (crl_delta_points (Ok (Some [None; p])) (fst r)) = Ok []) /\
  (let l := Ok (Some [(tx "ca_issuers", Url (N := N) (Err e)); (tx "ca_issuers", Url (Ok (tx "http://a")))]) in
   let r := issuer_cert_urls low l None in snd r = Err e /\ snd (issuer_cert_urls low l (fst r)) = Ok []) /\
  (let r := issuer_name (N := N) (Err e) None in snd r = Err e /\ snd (issuer_name (Err e) (fst r)) = Ok None).
Proof. intros N low p e. split; [split; reflexivity|]. split; [split; reflexivity|split; reflexivity]. Qed.
Print Assumptions C83_crl_changes_refuted.

(* ---- C84 ---- *)
(* whatever is read before; self_signed only if it did not raise *)
Theorem C84_reads_agree_partial : forall (N : Type) name_eq name_dump sha256 low (c : @cert N) l a,
  (a = SelfSigned -> In SelfSigned l -> exists v, snd (read name_eq name_dump sha256 low c new_caches SelfSigned) = Ok v) ->
  snd (read name_eq name_dump sha256 low c (reads name_eq name_dump sha256 low c l) a) = snd (read name_eq name_dump sha256 low c new_caches a).
Proof.
  intros N name_eq name_dump sha256 low c l a H.
  destruct a; try (apply other_reads; discriminate).
  pose proof (signed_reads name_eq name_dump sha256 low c l) as A. pose proof (signed_reads name_eq name_dump sha256 low c []) as B.
  cbv zeta in A, B. change (reads name_eq name_dump sha256 low c []) with (@new_caches N) in B. cbn [c_signed new_caches] in B. rewrite A, B.
  destruct (c_signed (reads name_eq name_dump sha256 low c l)) as [s|] eqn:E; [|reflexivity].
  destruct (signed_value name_eq c) as [v|e] eqn:V; cbn [bind] in *; [reflexivity|].
  exfalso. destruct H as [v H]; [reflexivity| |congruence].
  assert (D : In SelfSigned l \/ ~ In SelfSigned l).
  { clear. induction l as [|[] l [IH|IH]]; cbn; auto; try (right; intros [X|X]; [discriminate|auto]). }
  destruct D as [D|D]; [exact D|]. apply (reads_unsigned name_eq name_dump sha256 low c) in D. congruence.
Qed.
Print Assumptions C84_reads_agree_partial.
(* what they say, when the extensions can be read *)
Theorem C84_meaning : forall (N : Type) name_eq name_dump sha256 low (c : @cert N) x, ct_exts c = Ok x ->
  let says a v := snd (read name_eq name_dump sha256 low c new_caches a) = Ok v in
  says KeyIdentifier (ABytes (x_key_id x)) /\
  (forall k, x_aki x = Some k -> says AuthorityKeyIdentifier (ABytes (k_id k))) /\ (x_aki x = None -> says AuthorityKeyIdentifier (ABytes None)) /\
  (forall b n, x_basic x = Some (b, n) -> says CaFlag (ABool (Some b)) /\ says MaxPathLength (AInt (if b then n else None))) /\
  (x_basic x = None -> says CaFlag (ABool None) /\ says MaxPathLength (AInt None)) /\
  (forall b, says SelfIssued (ABool (Some b)) <-> name_eq (ct_subject c) (ct_issuer c) = Ok b) /\
  says IssuerSerial (ABytes (Some (sha256 (name_dump (ct_issuer c)) ++ 58 :: dec (ct_serial c)))).
Proof.
  intros N name_eq name_dump sha256 low c x E says. unfold says. cbn [read into].
  split; [unfold key_identifier; rewrite E; reflexivity|].
  split; [intros k K; unfold authority_key_identifier; rewrite E; cbn; rewrite K; reflexivity|].
  split; [intros K; unfold authority_key_identifier; rewrite E; cbn; rewrite K; reflexivity|].
  split; [intros b n B; unfold max_path_length, ca; rewrite E; cbn; rewrite B; destruct b; split; reflexivity|].
  split; [intros B; unfold max_path_length, ca; rewrite E; cbn; rewrite B; split; reflexivity|].
  split; [|reflexivity]. intro b. unfold self_issued. cbn [c_issued new_caches].
  destruct (name_eq (ct_subject c) (ct_issuer c)) as [v|e]; cbn; split; congruence.
Qed.
Print Assumptions C84_meaning.
(* maybe: issued by itself and not known to be signed with another key *)
Theorem C84_self_signed_partial : forall (N : Type) name_eq name_dump sha256 low (c : @cert N) x r, ct_exts c = Ok x ->
  name_eq (ct_subject c) (ct_issuer c) = Ok r -> absent_or_filled (x_key_id x) ->
  absent_or_filled (match x_aki x with Some k => k_id k | None => None end) ->
  exists m : bool, snd (read name_eq name_dump sha256 low c new_caches SelfSigned) = Ok (AText (if m then tx "maybe" else tx "no")) /\
  (m = true <-> r = true /\ forall i k a, x_key_id x = Some i -> x_aki x = Some k -> k_id k = Some a -> i = a).
Proof.
  intros N name_eq name_dump sha256 low c x r E R I A.
  pose proof (signed_reads name_eq name_dump sha256 low c []) as B. cbv zeta in B. change (reads name_eq name_dump sha256 low c []) with (@new_caches N) in B.
  cbn [c_signed new_caches] in B. rewrite B. unfold signed_value. rewrite R. cbn [bind]. clear B. destruct r; [|exists false; split; [reflexivity|split; [discriminate|intros [[=] _]]]].
  unfold keys_agree, key_identifier, authority_key_identifier. rewrite E. cbn [bind]. unfold absent_or_filled in *.
  destruct (x_key_id x) as [[|y i]|]; [now destruct I| |].
  - cbn [filled bind]. destruct (x_aki x) as [k|].
    + destruct (k_id k) as [[|z a]|] eqn:K; [now destruct A| |].
      * cbn [filled negb]. exists (eqb_bytes (z :: a) (y :: i)). split; [reflexivity|]. rewrite eqb_bytes_spec. split.
        -- intro Q. split; [reflexivity|]. intros i' k' a' [= <-] [= <-] K'. congruence.
        -- intros [_ Q]. symmetry. now apply (Q _ k).
      * cbn [filled negb]. exists true. split; [reflexivity|]. split; [|reflexivity]. intros _. split; [reflexivity|]. intros i' k' a' _ [= <-] K'. congruence.
    + exists true. split; [reflexivity|]. split; [|reflexivity]. intros _. split; [reflexivity|]. intros i' k' a' _ [=].
  - cbn [filled bind]. exists true. split; [reflexivity|]. split; [|reflexivity]. intros _. split; [reflexivity|]. intros i' k' a' [=].
Qed.
Print Assumptions C84_self_signed_partial.
(* issuer_serial tells certificates apart, and finds the certificate that is named by
   authority_issuer_serial *)
Theorem C84_serial : forall (N : Type) name_dump sha256 (c d : @cert N), tells sha256 (name_dump (ct_issuer c)) (name_dump (ct_issuer d)) ->
  0 <= ct_serial c -> 0 <= ct_serial d ->
  (snd (issuer_serial name_dump sha256 c new_caches) = snd (issuer_serial name_dump sha256 d new_caches) <->
   name_dump (ct_issuer c) = name_dump (ct_issuer d) /\ ct_serial c = ct_serial d).
Proof.
  intros N name_dump sha256 c d (T & L1 & L2) C D. cbn. split; [|intros [-> ->]; reflexivity].
  intros [= E]. apply hash_split in E; [|congruence]. destruct E as [E F]. split; [now apply T|now apply dec_inj].
Qed.
Print Assumptions C84_serial.
Theorem C84_authority_partial : forall (N : Type) name_dump sha256 (c d : @cert N) x k n e l z, ct_exts c = Ok x -> x_aki x = Some k ->
  k_issuer k = Some (Dir n e :: l) -> k_serial k = Some z -> Forall (fun g => gen_native g = Ok tt) (Dir n e :: l) ->
  tells sha256 (name_dump n) (name_dump (ct_issuer d)) -> 0 <= z -> 0 <= ct_serial d ->
  (snd (authority_issuer_serial name_dump sha256 c new_caches) = snd (issuer_serial name_dump sha256 d new_caches) <->
   name_dump n = name_dump (ct_issuer d) /\ z = ct_serial d).
Proof.
  intros N name_dump sha256 c d x k n e l z E K I Z F (T & L1 & L2) P Q.
  assert (A : snd (authority_issuer_serial name_dump sha256 c new_caches) = Ok (Some (sha256 (name_dump n) ++ 58 :: dec z))).
  { unfold authority_issuer_serial. cbn [c_authority new_caches]. rewrite E. cbn [bind]. unfold authority_value. rewrite K, I, Z.
    assert (G : forall g, Forall (fun g => gen_native g = Ok tt) g -> all_native (N := N) g = Ok tt).
    { intros g X. induction X as [|y r X Y IH]; [reflexivity|]. cbn [all_native]. rewrite X. exact IH. }
    rewrite (G _ F). reflexivity. }
  rewrite A. cbn. split; [|intros [-> ->]; reflexivity].
  intros [= X]. apply hash_split in X; [|congruence]. destruct X as [X Y]. split; [now apply T|now apply dec_inj].
Qed.
Print Assumptions C84_authority_partial.
Definition toy_hash (b : bytes) : bytes := firstn 32 (b ++ repeat 0 32).
Definition toy_exts (i a : option bytes) : @exts Z := Exts i (Some (Aki a (Some [Dir 5 (Ok tt)]) (Some 7))) (Some (true, Some 3)) None None None.
Definition toy_cert (i a : option bytes) : @cert Z := Cert (Ok (toy_exts i a)) 5 5 7.
Example C84_ex : forall low, let r c a := snd (read (fun x y => Ok (x =? y)) (fun n => [n]) toy_hash low c new_caches a) in
  let c := toy_cert (Some [1]) (Some [1]) in
  r c CaFlag = Ok (ABool (Some true)) /\ r c MaxPathLength = Ok (AInt (Some 3)) /\ r c SelfSigned = Ok (AText (tx "maybe")) /\
  r (toy_cert (Some [1]) (Some [2])) SelfSigned = Ok (AText (tx "no")) /\
  r c AuthorityIssuerSerial = r c IssuerSerial /\ absent_or_filled (x_key_id (toy_exts (Some [1]) (Some [1]))) /\ tells toy_hash [5] [5].
Proof. intros low r c. repeat (split; [vm_compute; reflexivity|]). split; [discriminate|]. repeat split; vm_compute; reflexivity. Qed.
(* an empty key identifier counts as none, though both are present and differ *)
Theorem C84_empty_key_refuted : exists c : @cert Z, forall low, exists x k i a, ct_exts c = Ok x /\ x_key_id x = Some i /\ x_aki x = Some k /\ k_id k = Some a /\ i <> a /\
  snd (read (fun x y => Ok (x =? y)) (fun n => [n]) toy_hash low c new_caches SelfSigned) = Ok (AText (tx "maybe")).
Proof.
  exists (toy_cert (Some []) (Some [1])). intro low. exists (toy_exts (Some []) (Some [1])), (Aki (Some [1]) (Some [Dir 5 (Ok tt)]) (Some 7)), [], [1].
  repeat split; try reflexivity; discriminate.
Qed.
Print Assumptions C84_empty_key_refuted.
(* self_signed says no after it raised *)
Theorem C84_signed_changes_refuted : forall (N : Type) name_dump sha256 low (c : @cert N) e,
  let r := read (fun _ _ => Err e) name_dump sha256 low c new_caches SelfSigned in
  snd r = Err e /\ snd (read (fun _ _ => Err e) name_dump sha256 low c (fst r) SelfSigned) = Ok (AText (tx "no")).
Proof. intros. split; reflexivity. Qed.
Print Assumptions C84_signed_changes_refuted.
(* the authority: a name that is not the first raises, an absent serial number is written as None *)
Theorem C84_authority_refuted : exists l (c d : @cert Z) v, l = [Plain (Ok tt); Dir 5 (Ok tt)] /\
  ct_exts c = Ok (Exts None (Some (Aki None (Some l) (Some 7))) None None None None) /\
  ct_exts d = Ok (Exts None (Some (Aki None (Some [Dir 5 (Ok tt)]) None)) None None None None) /\ forall sha256,
  snd (authority_issuer_serial (fun n => [n]) sha256 c new_caches) = Err AttributeError /\
  snd (authority_issuer_serial (fun n => [n]) sha256 d new_caches) = Ok (Some (sha256 [5] ++ v)) /\ v = tx ":None".
Proof.
  eexists _, (Cert _ 5 5 7), (Cert _ 5 5 7), _. split; [reflexivity|]. split; [reflexivity|]. split; [reflexivity|]. intro sha256. repeat split; reflexivity.
Qed.
Print Assumptions C84_authority_refuted.
(* without basic constraints ca is None, no boolean *)
Theorem C84_ca_refuted : exists c : @cert Z, forall b, ca c <> Ok (Some b).
Proof. exists (Cert (Ok (Exts None None None None None None)) 5 5 7). intro b. cbn. discriminate. Qed.
Print Assumptions C84_ca_refuted.
