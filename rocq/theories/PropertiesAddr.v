(* C79 and C80: domain names and mail addresses compare as RFC 5280 says. *)
Require Import Verif.Base Verif.BaseFacts Verif.Text Verif.ParserModel Verif.PrimModel Verif.DomainModel
  Verif.AddrModel Verif.AddrSpec Verif.AddrProofs.

(* ---- C79 ---- *)
(* an object with the name s: loaded, or set to it *)
Definition dns_object (to : text -> res bytes) (s : text) (o : aobj) : Prop :=
  (exists e, o = load_addr e s) \/ dns_set to s = Ok o.
Lemma dns_object_is to s o : ascii_text s -> dns_object to s o -> dns_is s o.
Proof.
  intros A [[e ->]|H]; [split; auto|]. unfold dns_set in H. rewrite encode_dot_ascii in H by exact A.
  match type of H with context [if ?x then _ else _] => destruct x end; [|discriminate]. injection H as <-. split; auto.
Qed.
(* whatever is read and compared before *)
Theorem C79_equal_partial : forall to from low s t a b la lb, plain_name s -> plain_name t ->
  dns_object to s a -> dns_object to t b ->
  exists r, snd (dns_eq from low (fold_left (dns_use from low) la a) (fold_left (dns_use from low) lb b)) = Ok r /\
            (r = true <-> same_name s t).
Proof.
  intros to from low s t a b la lb P Q A B. apply dns_equal; [exact P|exact Q| |]; apply dns_uses; auto.
  - apply (dns_object_is to); [apply P|exact A].
  - apply (dns_object_is to); [apply Q|exact B].
Qed.
Print Assumptions C79_equal_partial.
(* for all names: an equivalence on the objects that can be read *)
Theorem C79_equivalence : forall from low a b c r,
  (snd (dns_eq from low a b) = Ok r -> snd (dns_eq from low a a) = Ok true) /\
  (snd (dns_eq from low a b) = Ok r -> snd (dns_eq from low b a) = Ok r) /\
  (snd (dns_eq from low a b) = Ok true -> snd (dns_eq from low b c) = Ok true -> snd (dns_eq from low a c) = Ok true).
Proof.
  intros from low a b c r. split; [|split].
  - rewrite !dns_eq_key. intros (s & t & A & B & _). exists s, s. split; [exact A|]. split; [exact A|]. symmetry. now apply eqb_text_iff.
  - rewrite !dns_eq_key. intros (s & t & A & B & ->). exists t, s. split; [exact B|]. split; [exact A|].
    apply eq_true_iff_eq. rewrite !eqb_text_iff. split; congruence.
  - rewrite !dns_eq_key. intros (s & t & A & B & E) (t' & u & B' & C & F). symmetry in E, F. rewrite eqb_text_iff in E, F.
    exists s, u. split; [exact A|]. split; [exact C|]. symmetry. apply eqb_text_iff. congruence.
Qed.
Print Assumptions C79_equivalence.
(* ASCII names that set accepts, with or without a leading dot; they are written as they are *)
Theorem C79_set : forall to s, ascii_text s ->
  let h := match s with 46 :: r => r | _ => s end in
  (host h -> exists o, dns_set to s = Ok o /\ a_contents o = Some s) /\ (~ host h -> dns_set to s = Err UnicodeError).
Proof.
  intros to s A h. unfold dns_set. rewrite encode_dot_ascii by exact A. fold h. split; intro H.
  - apply host_iff in H. rewrite H. cbn. eexists. split; reflexivity.
  - destruct (idna_labels (split_on 46 h)) eqn:E; [|reflexivity]. apply host_iff in E. contradiction.
Qed.
Print Assumptions C79_set.

Definition example_com : text := tx "www.Example.COM".
Lemma asciib s : is_ascii s = true -> ascii_text s. Proof. apply is_ascii_iff. Qed.
Lemma plainb s : is_ascii s && negb (infix ace s) = true -> plain_name s.
Proof. rewrite andb_true_iff, negb_true_iff. intros [A N]. split; [now apply is_ascii_iff|now apply no_ace_iff]. Qed.
Example C79_equal_ex : plain_name example_com /\ plain_name (tx "WWW.example.com") /\ same_name example_com (tx "WWW.example.com") /\
  ~ same_name example_com (tx "www.example.org") /\ host example_com.
Proof.
  split; [apply plainb; vm_compute; reflexivity|]. split; [apply plainb; vm_compute; reflexivity|].
  split; [apply name_iff; vm_compute; reflexivity|]. split; [rewrite <- name_iff; vm_compute; discriminate|apply host_iff; vm_compute; reflexivity].
Qed.
Definition no_to : text -> res bytes := fun _ => Err UnicodeError.
Definition no_from : bytes -> res text := fun _ => Err UnicodeError.
Example C79_set_ex : dns_set no_to (tx ".example.com") = Ok (Addr (Some (tx ".example.com")) None (Some (tx ".example.com"))) /\
  ~ host (tx "a..b") /\ dns_set no_to (tx "a..b") = Err UnicodeError.
Proof. split; [vm_compute; reflexivity|]. split; [rewrite <- host_iff; vm_compute; discriminate|vm_compute; reflexivity]. Qed.

(* the prefix of A-labels in capitals is not seen: names that differ in case only are unequal
   (bcher-kva is b U+00FC cher) *)
Definition buecher : text := [98; 252; 99; 104; 101; 114].
Theorem C79_case_refuted : exists s t, ascii_text s /\ ascii_text t /\ same_name s t /\ forall from low e e',
  from t = Ok buecher -> low buecher = buecher ->
  snd (dns_eq from low (load_addr e s) (load_addr e' t)) = Ok false.
Proof.
  exists (tx "XN--BCHER-KVA"), (tx "xn--bcher-kva"). split; [apply asciib; vm_compute; reflexivity|].
  split; [apply asciib; vm_compute; reflexivity|]. split; [apply name_iff; vm_compute; reflexivity|]. intros from low e e' F L.
  cbv [dns_eq dns_text text_of load_addr a_contents a_text a_kept idna_decode].
  replace (is_ascii (tx "XN--BCHER-KVA") && negb (infix ace (tx "XN--BCHER-KVA"))) with true by (vm_compute; reflexivity).
  replace (is_ascii (tx "xn--bcher-kva") && negb (infix ace (tx "xn--bcher-kva"))) with false by (vm_compute; reflexivity).
  rewrite F. cbn [snd]. unfold lower. replace (is_ascii buecher) with false by (vm_compute; reflexivity). rewrite L. vm_compute. reflexivity.
Qed.
Print Assumptions C79_case_refuted.
(* a name that was set is compared as it was given, so two objects with the same octets
   may be unequal (stra U+00DF e is written strasse) *)
Definition strasse : text := [115; 116; 114; 97; 223; 101].
Theorem C79_same_octets_refuted : exists v b, forall to from low e o, to v = Ok b -> low v = v ->
  dns_set to v = Ok o -> a_contents o = Some b /\ snd (dns_eq from low o (load_addr e b)) = Ok false.
Proof.
  exists strasse, (tx "strasse"). intros to from low e o T L S. unfold dns_set, dns_encode in S.
  change (idna_encode to strasse) with (to strasse) in S. cbn in S. rewrite T in S. injection S as <-. split; [reflexivity|].
  cbv [dns_eq dns_text text_of load_addr a_contents a_text a_kept idna_decode].
  replace (is_ascii (tx "strasse") && negb (infix ace (tx "strasse"))) with true by (vm_compute; reflexivity). cbn [snd].
  unfold lower. replace (is_ascii strasse) with false by (vm_compute; reflexivity). rewrite L. vm_compute. reflexivity.
Qed.
Print Assumptions C79_same_octets_refuted.

(* ---- C80 ---- *)
Definition mail_object (to : text -> res bytes) (s : text) (o : aobj) : Prop :=
  (exists e, o = load_addr e s) \/ email_set to s = Ok o.
Lemma mail_object_is to s o : plain_mail s -> mail_object to s o -> mail_is s o.
Proof.
  intros P [[e ->]|H]; [split; auto|]. unfold email_set in H. rewrite mail_encode in H by exact P. injection H as <-. split; auto.
Qed.
Theorem C80_equal_partial : forall to from s t a b la lb, plain_mail s -> plain_mail t ->
  mail_object to s a -> mail_object to t b ->
  exists r, snd (email_eq to from (fold_left (email_use to from) la a) (fold_left (email_use to from) lb b)) = Ok r /\
            (r = true <-> same_mailbox s t).
Proof.
  intros to from s t a b la lb P Q A B. apply mail_equal; [exact P|exact Q| |]; apply mail_uses; auto; now apply (mail_object_is to).
Qed.
Print Assumptions C80_equal_partial.
Theorem C80_equivalence : forall to from a b c r,
  (snd (email_eq to from a b) = Ok r -> snd (email_eq to from a a) = Ok true) /\
  (snd (email_eq to from a b) = Ok r -> snd (email_eq to from b a) = Ok r) /\
  (snd (email_eq to from a b) = Ok true -> snd (email_eq to from b c) = Ok true -> snd (email_eq to from a c) = Ok true).
Proof.
  intros to from a b c r. split; [|split].
  - rewrite !mail_eq_key. intros (s & t & A & B & _). exists s, s. split; [exact A|]. split; [exact A|]. symmetry. apply octets_eq_refl.
  - rewrite !mail_eq_key. intros (s & t & A & B & ->). exists t, s. split; [exact B|]. split; [exact A|]. apply octets_eq_sym.
  - rewrite !mail_eq_key. intros (s & t & A & B & E) (t' & u & B' & C & F).
    exists s, u. split; [exact A|]. split; [exact C|]. symmetry. assert (t' = t) by congruence. subst. now apply (octets_eq_trans s t u).
Qed.
Print Assumptions C80_equivalence.
(* addresses are written and read as they are; the contents and the text stay whatever is
   read and compared *)
Theorem C80_round_trip_partial : forall to from s o l, plain_mail s -> mail_object to s o ->
  let o' := fold_left (email_use to from) l o in
  a_contents o' = Some s /\ snd (email_text from o') = Ok s /\ exists o2, email_set to s = Ok o2 /\ a_contents o2 = Some s.
Proof.
  intros to from s o l P M o'. assert (D : mail_is s o') by (apply mail_uses; [exact P|now apply (mail_object_is to)]).
  split; [apply D|]. split; [now apply mail_read|]. unfold email_set. rewrite mail_encode by exact P. eexists. split; reflexivity.
Qed.
Print Assumptions C80_round_trip_partial.
(* reading keeps the encoding *)
Theorem C80_read_keeps : forall from t o l,
  let o' := fold_left (fun o (_ : unit) => fst (email_text from o)) l o in dump_addr t o' = dump_addr t o.
Proof.
  intros from t o l. revert o. induction l as [|u l IH]; intro o; [reflexivity|]. cbn [fold_left]. rewrite IH.
  unfold email_text, text_of. destruct (a_contents o) as [c|] eqn:C; [|reflexivity]. destruct (a_text o); [reflexivity|].
  destruct (email_decode from c); [|reflexivity]. unfold dump_addr. cbn. now rewrite C.
Qed.
Print Assumptions C80_read_keeps.
(* the part of a loaded address before the host is Windows-1252 *)
Theorem C80_local_part : forall from e m h x, bytes_ok m -> plain_name h -> ~ In 64 h ->
  (snd (email_text from (load_addr e (m ++ 64 :: h))) = Ok x <-> exists t, Forall2 windows m t /\ x = t ++ 64 :: h) /\
  (~ In 64 m -> (snd (email_text from (load_addr e m)) = Ok x <-> Forall2 windows m x)).
Proof.
  intros from e m h x B P N. split.
  - unfold email_text, text_of, load_addr. cbn [a_contents a_text]. unfold email_decode.
    rewrite (proj2 (rsplit_some 64 _ m h) (conj eq_refl N)), (decode_plain from h P). destruct (cp1252 m) as [t|] eqn:C; cbn [bind snd].
    + split; [intros [= <-]; exists t; split; [now apply windows_text|reflexivity]|]. intros (t' & W & ->). apply windows_text in W; [|exact B]. congruence.
    + split; [discriminate|]. intros (t' & W & ->). apply windows_text in W; [|exact B]. congruence.
  - intro M. rewrite <- (windows_text m B). unfold email_text, text_of, load_addr. cbn [a_contents a_text]. unfold email_decode.
    rewrite (proj2 (rsplit_none 64 m) M). destruct (cp1252 m) as [t|]; cbn [snd]; reflexivity.
Qed.
Print Assumptions C80_local_part.
Example C80_local_part_ex : snd (email_text no_from (load_addr [] ([0x4a; 0x80; 0xe9] ++ 64 :: tx "b.c"))) = Ok ([0x4a; 0x20ac; 0xe9] ++ 64 :: tx "b.c") /\
  snd (email_text no_from (load_addr [] [0x81])) = Err UnicodeError.
Proof. split; vm_compute; reflexivity. Qed.

Lemma plain_mailb m h : is_ascii m && is_ascii h && negb (infix ace h) && idna_labels (split_on 46 h) && negb (existsb (Z.eqb 64) h) = true ->
  plain_mail (m ++ 64 :: h).
Proof.
  rewrite !andb_true_iff, !negb_true_iff. intros [[[[A B] C] D] E]. apply is_ascii_iff in A, B. split.
  - apply Forall_app. split; [exact A|]. constructor; [lia|exact B].
  - intros m' h' Q N. assert (NH : ~ In 64 h).
    { intro I. assert (existsb (Z.eqb 64) h = true) by (apply existsb_exists; exists 64; split; [exact I|reflexivity]). congruence. }
    assert (X := proj2 (rsplit_some 64 _ m h) (conj eq_refl NH)). assert (Y := proj2 (rsplit_some 64 _ m' h') (conj Q N)).
    rewrite X in Y. injection Y as <- <-. split; [split; [exact B|now apply no_ace_iff]|now apply host_iff].
Qed.
Example C80_ex : plain_mail (tx "Joe@Example.com") /\ same_mailbox (tx "Joe@Example.com") (tx "Joe@EXAMPLE.com") /\
  ~ same_mailbox (tx "Joe@Example.com") (tx "joe@Example.com") /\
  email_set no_to (tx "Joe@Example.com") = Ok (Addr (Some (tx "Joe@Example.com")) None (Some (tx "Joe@Example.com"))).
Proof.
  split; [exact (plain_mailb (tx "Joe") (tx "Example.com") eq_refl)|]. split; [apply mail_same; vm_compute; reflexivity|].
  split; [rewrite <- mail_same; vm_compute; discriminate|vm_compute; reflexivity].
Qed.

(* addresses that can be read but not compared, not even with themselves: letters beyond
   ASCII in a PrintableString, an empty label *)
Theorem C80_not_comparable_refuted : exists a b, forall to from e,
  (exists v, snd (email_text from (load_addr e a)) = Ok v) /\ snd (email_eq to from (load_addr e a) (load_addr e a)) = Err UnicodeError /\
  (exists v, snd (email_text from (load_addr e b)) = Ok v) /\ snd (email_eq to from (load_addr e b) (load_addr e b)) = Err UnicodeError.
Proof.
  exists (233 :: tx "@a.b"), (tx "a@b..c"). intros to from e. split; [|split; [|split]].
  - eexists. vm_compute. reflexivity.
  - vm_compute. reflexivity.
  - eexists. vm_compute. reflexivity.
  - vm_compute. reflexivity.
Qed.
Print Assumptions C80_not_comparable_refuted.
(* comparing writes an address anew: what was loaded with a long form of the length is
   dumped differently afterwards *)
Definition mail_tagging : tagging := Tagging 2 1 false [].
Theorem C80_compare_changes_refuted : exists e o, o = load_addr e (tx "a@b") /\ forall to from,
  dump_addr mail_tagging o = Ok e /\ dump_addr mail_tagging (email_use to from o (Compare o)) = Ok (0x81 :: 3 :: tx "a@b") /\
  e <> 0x81 :: 3 :: tx "a@b".
Proof.
  exists (0x81 :: 0x81 :: 3 :: tx "a@b"), (load_addr (0x81 :: 0x81 :: 3 :: tx "a@b") (tx "a@b")). split; [reflexivity|]. intros to from.
  split; [reflexivity|]. split; [vm_compute; reflexivity|discriminate].
Qed.
Print Assumptions C80_compare_changes_refuted.
(* and changes its contents if the host is an A-label in capitals *)
Theorem C80_compare_rewrites_refuted : exists h g s, forall to from, from h = Ok s -> to s = Ok g -> is_ascii s = false ->
  forall e, let o := load_addr e (tx "a@" ++ h) in
  a_contents (email_use to from o (Compare o)) = Some (tx "a@" ++ g) /\ g <> h /\ same_name g h.
Proof.
  exists (tx "xn--BCHER-KVA"), (tx "xn--bcher-kva"), buecher. intros to from F T N e o.
  split; [|split; [vm_compute; discriminate|apply name_iff; vm_compute; reflexivity]].
  assert (D : email_decode from (tx "a@" ++ tx "xn--BCHER-KVA") = Ok (97 :: 64 :: buecher)).
  { unfold email_decode. replace (rsplit 64 (tx "a@" ++ tx "xn--BCHER-KVA")) with (Some ([97], tx "xn--BCHER-KVA")) by (vm_compute; reflexivity).
    cbn [cp1252 cp1252_char bind]. replace (cp1252_char 97) with (Ok 97) by reflexivity. cbn [bind]. unfold idna_decode.
    replace (is_ascii (tx "xn--BCHER-KVA") && negb (infix ace (tx "xn--BCHER-KVA"))) with false by (vm_compute; reflexivity).
    rewrite F. reflexivity. }
  assert (E : email_encode to (97 :: 64 :: buecher) = Ok (97 :: 64 :: tx "xn--bcher-kva")).
  { unfold email_encode. replace (rsplit 64 (97 :: 64 :: buecher)) with (Some ([97], buecher)) by (vm_compute; reflexivity).
    replace (to_ascii [97]) with (Ok [97]) by reflexivity. cbn [bind]. unfold idna_encode. rewrite N, T. reflexivity. }
  assert (M : normalize to from o = (Addr (Some (97 :: 64 :: tx "xn--bcher-kva")) None (Some (97 :: 64 :: buecher)), Ok (97 :: 64 :: tx "xn--bcher-kva"))).
  { unfold normalize, native, text_of, o, load_addr. cbn [a_contents a_text]. rewrite D. cbn [bind]. rewrite E. reflexivity. }
  unfold email_use, email_eq. rewrite M. reflexivity.
Qed.
Print Assumptions C80_compare_rewrites_refuted.
(* a new object: str() raises AttributeError, a comparison TypeError, while DNSName and the
   other strings give an empty text *)
Theorem C80_new_refuted : forall to from low, snd (email_text from new_addr) = Err AttributeError /\
  snd (email_eq to from new_addr new_addr) = Err TypeError /\ snd (dns_text from new_addr) = Ok [] /\
  snd (dns_eq from low new_addr new_addr) = Ok true.
Proof. intros. repeat split. Qed.
Print Assumptions C80_new_refuted.
