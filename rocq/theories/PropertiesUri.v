(* C81: IRIs are written as URIs and URIs are shown as IRIs component by component, and URIs
   are compared as RFC 5280 section 7.4 says.
   In all theorems: to, from, low stand for IDNA and lower beyond ASCII, ipv6 and nfkc for what
   urllib accepts in brackets and beyond ASCII in an authority. *)
Require Import Verif.Base Verif.BaseFacts Verif.Text Verif.DomainModel Verif.InetModel Verif.CodecModel Verif.IriModel Verif.IriSpec Verif.IriProofs
  Verif.IriUnquote Verif.IriParts Verif.AddrModel Verif.AddrSpec Verif.AddrProofs Verif.UriModel Verif.UriSpec Verif.UriProofs Verif.UriQuote Verif.UriShow Verif.UriEqual.

(* every component keeps its meaning and is legal in a URI; with normalize the default port and
   a lone slash are left out.  Parts as in C49, no + in the scheme, no IPv6 address *)
Theorem C81_iri_to_uri_partial : forall to low ipv6 nfkc u n, form u -> ~ In 43 (r_scheme u) ->
  is_ascii (authority_text u) || nfkc (authority_text u) = true ->
  all_parts quotable u -> all_hosts (fun h => exists h', named to low h h') u ->
  exists v, iri_to_uri to low ipv6 nfkc (render u) n = Ok (render v) /\
            related quoted_as (named to low) (if n then normal u else u) v.
Proof.
  intros to low ipv6 nfkc u n F N K Q H. destruct (iri_to_uri_render to low ipv6 nfkc u n F N K Q H) as (v & E & A & B & C & D & G).
  exists v. split; [exact E|]. split; [exact A|]. split; [|split; [apply C|split; [apply D|apply G]]].
  destruct (r_auth (if n then normal u else u)) as [a|], (r_auth v) as [b|]; try exact B. destruct B as (BU & BR). split; [|exact BR].
  destruct (au_user a) as [[x [p|]]|], (au_user b) as [[y [q|]]|]; try exact BU; [destruct BU as [B1 B2]; split; [apply B1|apply B2]|apply BU].
Qed.
Print Assumptions C81_iri_to_uri_partial.
(* the other way: every component keeps its meaning as far as C49 tells separators apart, if
   no escape stands for a delimiter *)
Theorem C81_uri_to_iri_partial : forall from low ipv6 nfkc u, form u -> all_parts (fun p s => uri_text p s /\ no_delims s) u ->
  all_hosts (fun h => ascii_text h /\ exists h', shown_host from h h') u ->
  exists v, uri_to_iri from low ipv6 nfkc (render u) = Ok (render v) /\ related shown_as (shown_host from) u v /\ form v.
Proof. exact uri_to_iri_render. Qed.
Print Assumptions C81_uri_to_iri_partial.
(* IRIs without escapes, written and shown again *)
Theorem C81_round_trip_partial : forall to from low ipv6 nfkc u, form u -> ~ In 43 (r_scheme u) ->
  is_ascii (authority_text u) || nfkc (authority_text u) = true -> all_parts returns u -> all_hosts plain_host u ->
  exists b, iri_to_uri to low ipv6 nfkc (render u) false = Ok b /\ uri_to_iri from low ipv6 nfkc b = Ok (render u).
Proof. exact iri_round_trip. Qed.
Print Assumptions C81_round_trip_partial.
(* URIs that need no escapes stay as they are, both ways *)
Theorem C81_plain_partial : forall to from low ipv6 nfkc u, plain_uri u -> all_hosts small u ->
  iri_to_uri to low ipv6 nfkc (render u) false = Ok (render u) /\ uri_to_iri from low ipv6 nfkc (render u) = Ok (render u) /\
  iri_to_uri to low ipv6 nfkc (render u) true = Ok (render (normal u)).
Proof.
  intros to from low ipv6 nfkc u P S.
  assert (L : forall v, all_hosts small v -> lowered v = v).
  { intros [vs va vp vq vf] SV. unfold lowered. cbn [r_scheme r_auth r_path r_query r_fragment]. f_equal. destruct va as [a|]; [|reflexivity].
    rewrite lower_fixed by now apply (SV a). now destruct a. }
  rewrite !write_plain, show_plain by exact P. rewrite !L by (try exact S; now apply normal_hosts). auto.
Qed.
Print Assumptions C81_plain_partial.
(* the components can be told from what is written *)
Theorem C81_render_injective : forall u v, form u -> form v -> render u = render v -> u = v.
Proof. exact render_inj. Qed.
Print Assumptions C81_render_injective.

(* an object with the URI u: loaded, or set to it; whatever is read and compared before *)
Definition uri_object (to : text -> res bytes) low ipv6 nfkc (u : uri) (o : aobj) : Prop :=
  (exists e, o = load_addr e (render u)) \/ uri_set to low ipv6 nfkc (render u) = Ok o.
Lemma uri_object_is to low ipv6 nfkc u o : plain_uri u -> uri_object to low ipv6 nfkc u o -> uri_is u o.
Proof.
  intros P [[e ->]|H]; [split; left; reflexivity|]. unfold uri_set in H. rewrite write_plain in H by exact P. injection H as <-. split; cbn; auto.
Qed.
Theorem C81_equal_partial : forall to from low ipv6 nfkc u v a b la lb, plain_uri u -> plain_uri v ->
  uri_object to low ipv6 nfkc u a -> uri_object to low ipv6 nfkc v b ->
  exists r, snd (uri_eq to from low ipv6 nfkc (fold_left (use_uri to from low ipv6 nfkc) la a) (fold_left (use_uri to from low ipv6 nfkc) lb b)) = Ok r /\
            (r = true <-> same_uri u v).
Proof.
  intros to from low ipv6 nfkc u v a b la lb PU PV A B. apply uri_equal; try assumption; apply uses_is; try assumption; now apply (uri_object_is to low ipv6 nfkc).
Qed.
Print Assumptions C81_equal_partial.
(* for all URIs: an equivalence on those that can be compared *)
Theorem C81_equivalence : forall to from low ipv6 nfkc a b c r,
  (snd (uri_eq to from low ipv6 nfkc a b) = Ok r -> snd (uri_eq to from low ipv6 nfkc a a) = Ok true) /\
  (snd (uri_eq to from low ipv6 nfkc a b) = Ok r -> snd (uri_eq to from low ipv6 nfkc b a) = Ok r) /\
  (snd (uri_eq to from low ipv6 nfkc a b) = Ok true -> snd (uri_eq to from low ipv6 nfkc b c) = Ok true -> snd (uri_eq to from low ipv6 nfkc a c) = Ok true).
Proof.
  intros. split; [|split].
  - rewrite !uri_eq_key. intros (s & t & A & B & _). exists s, s. split; [exact A|]. split; [exact A|]. symmetry. now apply eqb_text_spec.
  - rewrite !uri_eq_key. intros (s & t & A & B & ->). exists t, s. split; [exact B|]. split; [exact A|].
    apply eq_true_iff_eq. rewrite !eqb_text_spec. split; congruence.
  - rewrite !uri_eq_key. intros (s & t & A & B & E) (t' & w & B' & C & F). symmetry in E, F. rewrite eqb_text_spec in E, F.
    exists s, w. split; [exact A|]. split; [exact C|]. symmetry. apply eqb_text_spec. congruence.
Qed.
Print Assumptions C81_equivalence.

(* ---- examples ---- *)
Definition no_to : text -> res bytes := fun _ => Err UnicodeError.
Definition no_from : bytes -> res text := fun _ => Err UnicodeError.
Definition same (s : text) : text := s.
Definition yes (_ : text) : bool := true.
Definition all_in (l s : text) : bool := forallb (fun c => char_in c l) s.
Lemma all_in_iff l s : all_in l s = true -> forall c, In c s -> In c l.
Proof. intros H c I. apply char_in_iff. now apply (in_all _ _ _ H). Qed.
Lemma lacksb l s : forallb (fun c => negb (existsb (Z.eqb c) (9 :: 10 :: 13 :: l))) s = true -> lacks l s.
Proof. apply lacks_chars. Qed.
(* http://Joe:p@www.Example.com:80/a/b?c=d&e#f *)
Definition u1 : uri := Uri (tx "http") (Some (Authority (Some (tx "Joe", Some (tx "p"))) (tx "www.Example.com") (Some 80))) (tx "/a/b") (tx "c=d&e") (tx "f").
Lemma u1_form : form u1.
Proof.
  split; [split; [exists 104, (tx "ttp"); split; [reflexivity|apply (all_in_iff _ [104]); [vm_compute; reflexivity|now left]]|apply all_in_iff; vm_compute; reflexivity]|].
  split; [|repeat split; apply lacksb; vm_compute; reflexivity]. cbn [u1 r_auth]. split; [|right; exists (tx "a/b"); reflexivity].
  split; [|split; [split; [left; discriminate|apply lacksb; vm_compute; reflexivity]|intros n [= <-]; lia]].
  intros u [= <-]. split; [split; [discriminate|apply lacksb; vm_compute; reflexivity]|]. intros p [= <-]. split; [discriminate|apply lacksb; vm_compute; reflexivity].
Qed.
Lemma any_case_plainb h : is_ascii h && idna_labels (split_on 46 h) && negb (infix ace (lower_ascii h)) = true -> any_case_plain h.
Proof.
  rewrite !andb_true_iff, negb_true_iff. intros [[A B] C]. apply is_ascii_iff in A. apply host_iff in B. split; [exact A|]. split; [exact B|].
  intros g G x y E. apply name_iff in G. subst g. apply no_ace_iff in C. apply (C (lower_ascii x) (lower_ascii y)). rewrite G. unfold lower_ascii. rewrite !map_app. reflexivity.
Qed.
Ltac plain_tac := let c := fresh in let i := fresh in intros c i; cbn in i; repeat (destruct i as [<-|i]; [first [left; apply char_in_iff; vm_compute; reflexivity|right; apply char_in_iff; vm_compute; reflexivity]|]); destruct i.
Lemma u1_plain : plain_uri u1.
Proof.
  split; [exact u1_form|]. split; [intro I; cbn in I; lia|]. split.
  - split; [|split; [|split]; plain_tac]. intros a n p [= <-] [= <- <-]. split; [plain_tac|]. intros w [= <-]. plain_tac.
  - intros a [= <-]. apply any_case_plainb. vm_compute. reflexivity.
Qed.
(* blanks in front and tabs and line ends anywhere do not count *)
Theorem C81_blanks : forall to from low ipv6 nfkc s c n a,
  (0 <= c <= 32 -> iri_to_uri to low ipv6 nfkc (c :: s) n = iri_to_uri to low ipv6 nfkc s n /\
                   uri_to_iri from low ipv6 nfkc (c :: s) = uri_to_iri from low ipv6 nfkc s) /\
  (c = 9 \/ c = 10 \/ c = 13 -> iri_to_uri to low ipv6 nfkc (a ++ c :: s) n = iri_to_uri to low ipv6 nfkc (a ++ s) n /\
                                uri_to_iri from low ipv6 nfkc (a ++ c :: s) = uri_to_iri from low ipv6 nfkc (a ++ s)).
Proof.
  intros to from low ipv6 nfkc s c n a. split; intros H.
  - assert (E : cleaned (c :: s) = cleaned s).
    { unfold cleaned. cbn [lstrip_by]. replace ((0 <=? c) && (c <=? 32)) with true; [reflexivity|]. symmetry. apply andb_true_iff. rewrite !Z.leb_le. lia. }
    assert (A : is_ascii (c :: s) = is_ascii s).
    { unfold is_ascii. cbn [forallb]. replace ((0 <=? c) && (c <? 128)) with true; [reflexivity|]. symmetry. apply andb_true_iff. rewrite Z.leb_le, Z.ltb_lt. lia. }
    unfold iri_to_uri, uri_to_iri, urlsplit. now rewrite E, A.
  - assert (E : cleaned (a ++ c :: s) = cleaned (a ++ s)).
    { unfold cleaned. induction a as [|x a IH]; cbn [app lstrip_by].
      - replace ((0 <=? c) && (c <=? 32)) with true; [reflexivity|]. symmetry. apply andb_true_iff. rewrite !Z.leb_le. lia.
      - destruct ((0 <=? x) && (x <=? 32)); [exact IH|]. rewrite !app_comm_cons, !filter_app. f_equal. cbn [filter]. now destruct H as [->|[->| ->]]. }
    assert (A : is_ascii (a ++ c :: s) = is_ascii (a ++ s)).
    { unfold is_ascii. rewrite !forallb_app. f_equal. cbn [forallb]. now destruct H as [->|[->| ->]]. }
    unfold iri_to_uri, uri_to_iri, urlsplit. now rewrite E, A.
Qed.
Print Assumptions C81_blanks.
Example C81_ex_blanks : forall to low ipv6 nfkc, iri_to_uri to low ipv6 nfkc ([32; 9] ++ tx "http://h" ++ [10] ++ tx "/a") false = Ok (tx "http://h/a").
Proof. intros. vm_compute. reflexivity. Qed.

Example C81_plain_ex : render u1 = tx "http://Joe:p@www.Example.com:80/a/b?c=d&e#f" /\ plain_uri u1 /\
  iri_to_uri no_to same yes yes (render u1) true = Ok (tx "http://Joe:p@www.example.com/a/b?c=d&e#f").
Proof. split; [vm_compute; reflexivity|]. split; [exact u1_plain|vm_compute; reflexivity]. Qed.
Definition u2 : uri := Uri (tx "http") (Some (Authority (Some (tx "Joe", Some (tx "p"))) (tx "WWW.example.com") None)) (tx "/a/b") (tx "c=d&e") (tx "f").
Definition u3 : uri := Uri (tx "http") (Some (Authority (Some (tx "joe", Some (tx "p"))) (tx "WWW.example.com") None)) (tx "/a/b") (tx "c=d&e") (tx "f").
Example C81_equal_ex : same_uri u1 u2 /\ ~ same_uri u1 u3 /\
  snd (uri_eq no_to no_from same yes yes (load_addr [] (render u1)) (load_addr [] (render u2))) = Ok true /\
  snd (uri_eq no_to no_from same yes yes (load_addr [] (render u1)) (load_addr [] (render u3))) = Ok false.
Proof.
  split; [apply same_uri_iff; vm_compute; reflexivity|]. split; [rewrite same_uri_iff; vm_compute; discriminate|]. split; vm_compute; reflexivity.
Qed.
(* an IRI beyond ASCII, with characters that are escaped: http://h/ U+00E9 %?x y *)
Definition u4 : uri := Uri (tx "http") (Some (Authority None (tx "h") None)) (47 :: 233 :: tx "%") (tx "x y") [].
Example C81_iri_ex : form u4 /\ all_parts quotable u4 /\ all_parts returns u4 /\ all_hosts plain_host u4 /\
  iri_to_uri no_to same yes yes (render u4) false = Ok (tx "http://h/%C3%A9%25?x%20y") /\
  uri_to_iri no_from same yes yes (tx "http://h/%C3%A9%25?x%20y") = Ok (render u4).
Proof.
  assert (R : all_parts returns u4).
  { split; [intros a n p [= <-] [=]|]. split; [|split].
    - split; [repeat (constructor; [vm_compute; reflexivity|]); constructor|]. split; [apply has_escape_spec; vm_compute; reflexivity|].
      repeat (constructor; [cbn; lia|]). constructor.
    - split; [repeat (constructor; [vm_compute; reflexivity|]); constructor|]. split; [apply has_escape_spec; vm_compute; reflexivity|].
      repeat (constructor; [cbn; lia|]). constructor.
    - split; [constructor|]. split; [apply has_escape_spec; vm_compute; reflexivity|]. constructor. }
  split; [|split; [|split; [exact R|split; [|split; vm_compute; reflexivity]]]].
  - split; [split; [exists 104, (tx "ttp"); split; [reflexivity|apply (all_in_iff _ [104]); [vm_compute; reflexivity|now left]]|apply all_in_iff; vm_compute; reflexivity]|].
    split; [|repeat split; apply lacksb; vm_compute; reflexivity]. cbn [u4 r_auth]. split; [|right; eexists; reflexivity].
    split; [discriminate|]. split; [split; [left; discriminate|apply lacksb; vm_compute; reflexivity]|discriminate].
  - revert R. apply all_parts_impl. apply returns_quotable.
  - intros a [= <-]. split; [split; [apply is_ascii_iff; vm_compute; reflexivity|apply no_ace_iff; vm_compute; reflexivity]|].
    split; [apply host_iff; vm_compute; reflexivity|]. intros c I T. cbn in I. lia.
Qed.
(* a URI without an authority, urn:a:b%c3%a9 *)
Definition u5 : uri := Uri (tx "urn") None (tx "a:b%c3%a9") [] [].
Ltac esc_tac :=
  match goal with
  | |- escaped _ _ [] => constructor
  | |- escaped _ _ (37 :: ?h :: ?l :: _) => eapply esc_pct; [vm_compute; reflexivity|cbn; intuition lia|esc_tac]
  | |- escaped _ _ (_ :: _) => apply esc_char; [lia|cbn; intuition lia|esc_tac]
  end.
Ltac plain_text := match goal with |- escaped _ _ ?t => let w := eval vm_compute in t in change t with w end.
Example C81_uri_ex : form u5 /\ all_parts (fun p s => uri_text p s /\ no_delims s) u5 /\
  uri_to_iri no_from same yes yes (render u5) = Ok (tx "urn:a:b" ++ [233]).
Proof.
  split; [|split; [|vm_compute; reflexivity]].
  - split; [split; [exists 117, (tx "rn"); split; [reflexivity|apply (all_in_iff _ [117]); [vm_compute; reflexivity|now left]]|apply all_in_iff; vm_compute; reflexivity]|].
    split; [|repeat split; apply lacksb; vm_compute; reflexivity]. cbn [u5 r_auth]. split.
    + rewrite <- in_list_iff. vm_compute. discriminate.
    + intros r [=].
  - split; [intros a n p [=]|]. split; [split; [unfold uri_text; cbn [u5 r_path]; plain_text; esc_tac|unfold no_delims; cbn [u5 r_path]; plain_text; esc_tac]|].
    split; split; constructor.
Qed.

(* ---- where it is lost ---- *)
(* an escaped delimiter becomes a delimiter: the host of the first URI is b, that of the second
   is a, and they are equal; so are a path with a number sign and one with a fragment *)
Theorem C81_delimiters_refuted : exists u v w x, u <> v /\ form v /\ forall to from low ipv6 nfkc e e',
  uri_to_iri from low ipv6 nfkc (render u) = Ok (render v) /\
  (exists a b, r_auth u = Some a /\ r_auth v = Some b /\ au_host a = tx "b" /\ au_host b = tx "a") /\
  snd (uri_eq to from low ipv6 nfkc (load_addr e (render u)) (load_addr e' (render v))) = Ok true /\
  r_fragment w = [] /\ r_fragment x = tx "c" /\
  snd (uri_eq to from low ipv6 nfkc (load_addr e (render w)) (load_addr e' (render x))) = Ok true.
Proof.
  exists (Uri (tx "http") (Some (Authority (Some (tx "a%2F", None)) (tx "b") None)) (tx "/") [] []),
         (Uri (tx "http") (Some (Authority None (tx "a") None)) (tx "/@b/") [] []),
         (Uri (tx "http") (Some (Authority None (tx "a") None)) (tx "/b%23c") [] []),
         (Uri (tx "http") (Some (Authority None (tx "a") None)) (tx "/b") [] (tx "c")).
  split; [discriminate|]. split.
  { split; [split; [exists 104, (tx "ttp"); split; [reflexivity|apply (all_in_iff _ [104]); [vm_compute; reflexivity|now left]]|apply all_in_iff; vm_compute; reflexivity]|].
    split; [|repeat split; apply lacksb; vm_compute; reflexivity]. cbn [r_auth]. split; [|right; eexists; reflexivity].
    split; [discriminate|]. split; [split; [left; discriminate|apply lacksb; vm_compute; reflexivity]|discriminate]. }
  intros. split; [vm_compute; reflexivity|]. split; [eexists; eexists; repeat split|]. repeat split; vm_compute; reflexivity.
Qed.
Print Assumptions C81_delimiters_refuted.
(* the brackets of an IPv6 address are lost; what is left cannot be read, nor compared *)
Theorem C81_ipv6_refuted : exists s t, s <> t /\ forall to from low ipv6 nfkc e, ipv6 (tx "2001:db8::1") = true ->
  iri_to_uri to low ipv6 nfkc s false = Ok t /\ uri_to_iri from low ipv6 nfkc s = Ok t /\
  uri_to_iri from low ipv6 nfkc t = Err ValueError /\
  snd (uri_eq to from low ipv6 nfkc (load_addr e s) (load_addr e s)) = Err ValueError.
Proof.
  exists (tx "http://[2001:db8::1]/"), (tx "http://2001:db8::1/"). split; [vm_compute; discriminate|]. intros to from low ipv6 nfkc e H.
  set (s := tx "http://[2001:db8::1]/").
  assert (U : urlsplit ipv6 nfkc s = Ok (Split (tx "http") (tx "[2001:db8::1]") (tx "/") [] [])).
  { unfold urlsplit. replace (split_scheme (cleaned s)) with (tx "http", tx "//[2001:db8::1]/") by (vm_compute; reflexivity).
    unfold split_netloc. replace (starts (tx "//") (tx "//[2001:db8::1]/")) with true by (vm_compute; reflexivity).
    replace (span (fun c => (c =? 47) || (c =? 63) || (c =? 35)) (skipn 2 (tx "//[2001:db8::1]/"))) with (tx "[2001:db8::1]", tx "/") by (vm_compute; reflexivity).
    replace (has 91 (tx "[2001:db8::1]")) with true by (vm_compute; reflexivity). replace (has 93 (tx "[2001:db8::1]")) with true by (vm_compute; reflexivity).
    cbn [xorb andb]. replace (partition 91 (tx "[2001:db8::1]")) with (@nil Z, true, tx "2001:db8::1]") by (vm_compute; reflexivity).
    replace (partition 93 (tx "2001:db8::1]")) with (tx "2001:db8::1", true, @nil Z) by (vm_compute; reflexivity). rewrite H. cbn [bind]. vm_compute. reflexivity. }
  assert (A : iri_to_uri to low ipv6 nfkc s false = Ok (tx "http://2001:db8::1/")).
  { unfold iri_to_uri. rewrite U. vm_compute. reflexivity. }
  assert (B : uri_to_iri from low ipv6 nfkc s = Ok (tx "http://2001:db8::1/")).
  { unfold uri_to_iri. replace (is_ascii s) with true by (vm_compute; reflexivity). rewrite U. vm_compute. reflexivity. }
  split; [exact A|]. split; [exact B|]. split; [vm_compute; reflexivity|].
  unfold uri_eq, uri_key, native, text_of, load_addr. cbn [a_contents a_text]. rewrite B. cbn [bind].
  replace (iri_to_uri to low ipv6 nfkc (tx "http://2001:db8::1/") true) with (@Err text ValueError) by (vm_compute; reflexivity). reflexivity.
Qed.
Print Assumptions C81_ipv6_refuted.
(* LDAP URLs without a host lose their slashes *)
Theorem C81_ldap_refuted : exists s t, s <> t /\ forall to from low ipv6 nfkc,
  iri_to_uri to low ipv6 nfkc s false = Ok t /\ uri_to_iri from low ipv6 nfkc s = Ok t.
Proof. exists (tx "ldap:///CN=x?certificateRevocationList"), (tx "ldap:/CN=x?certificateRevocationList"). split; [vm_compute; discriminate|]. intros. split; vm_compute; reflexivity. Qed.
Print Assumptions C81_ldap_refuted.
(* and a path without slashes gains them, in the schemes that urllib knows *)
Theorem C81_slashes_refuted : exists s t, s <> t /\ forall to from low ipv6 nfkc,
  iri_to_uri to low ipv6 nfkc s false = Ok t /\ uri_to_iri from low ipv6 nfkc s = Ok t.
Proof. exists (tx "file:a"), (tx "file:///a"). split; [vm_compute; discriminate|]. intros. split; vm_compute; reflexivity. Qed.
Print Assumptions C81_slashes_refuted.
(* a + in the scheme is escaped, which no scheme may hold *)
Theorem C81_scheme_refuted : exists s t, forall to from low ipv6 nfkc,
  iri_to_uri to low ipv6 nfkc s false = Ok t /\ s = tx "git+ssh://h/" /\ t = tx "git%2Bssh://h/" /\
  uri_to_iri from low ipv6 nfkc s = Ok s /\ urlsplit ipv6 nfkc t = Ok (Split [] [] (tx "git%2Bssh://h/") [] []).
Proof. exists (tx "git+ssh://h/"), (tx "git%2Bssh://h/"). intros. repeat split; vm_compute; reflexivity. Qed.
Print Assumptions C81_scheme_refuted.
(* an empty user name takes the password with it when an IRI is written; an empty password is lost *)
Theorem C81_password_refuted : exists s t, forall to from low ipv6 nfkc,
  iri_to_uri to low ipv6 nfkc s false = Ok t /\ s = tx "ftp://:pw@h/" /\ t = tx "ftp://h/" /\ uri_to_iri from low ipv6 nfkc s = Ok s /\
  iri_to_uri to low ipv6 nfkc (tx "ftp://u:@h/") false = Ok (tx "ftp://u@h/") /\ uri_to_iri from low ipv6 nfkc (tx "ftp://u:@h/") = Ok (tx "ftp://u@h/").
Proof. exists (tx "ftp://:pw@h/"), (tx "ftp://h/"). intros. repeat split; vm_compute; reflexivity. Qed.
Print Assumptions C81_password_refuted.
(* queries and fragments that are empty are lost; RFC 3986 6.2.3 tells http://h/? from http://h/ *)
Theorem C81_empty_refuted : exists s t, s <> t /\ forall to from low ipv6 nfkc,
  iri_to_uri to low ipv6 nfkc s false = Ok t /\ uri_to_iri from low ipv6 nfkc s = Ok t.
Proof. exists (tx "http://h/?"), (tx "http://h/"). split; [vm_compute; discriminate|]. intros. split; vm_compute; reflexivity. Qed.
Print Assumptions C81_empty_refuted.
(* octets beyond ASCII cannot be read; a new object cannot be compared *)
Theorem C81_errors_refuted : forall to from low ipv6 nfkc e, uri_to_iri from low ipv6 nfkc (tx "http://h/" ++ [233]) = Err UnicodeError /\
  snd (uri_eq to from low ipv6 nfkc (load_addr e (tx "http://h:x/")) (load_addr e (tx "http://h:x/"))) = Err ValueError /\
  snd (uri_eq to from low ipv6 nfkc new_addr new_addr) = Err TypeError /\ snd (uri_str from low ipv6 nfkc new_addr) = Ok [].
Proof. intros. repeat split; vm_compute; reflexivity. Qed.
Print Assumptions C81_errors_refuted.
