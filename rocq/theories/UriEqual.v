(* Proofs about UriModel.v: URIs of plain parts, and comparison. *)
Require Import Verif.Base Verif.BaseFacts Verif.Text Verif.DomainModel Verif.InetModel Verif.CodecModel Verif.IriModel Verif.IriSpec Verif.IriProofs
  Verif.IriUnquote Verif.IriParts Verif.AddrModel Verif.AddrSpec Verif.AddrProofs Verif.UriModel Verif.UriSpec Verif.UriProofs Verif.UriQuote Verif.UriShow.

Lemma plain_chars p s : plain p s -> forall c, In c s -> 0 <= c < 128 /\ c <> 37 /\ unreserved c || char_in c (safe_of p) = true.
Proof.
  intros P c I. assert (D := P c I). assert (V := legal_visible p c D). unfold visible in V. split; [lia|]. split; [lia|].
  apply orb_true_iff. destruct D as [D|D]; [left|right].
  - apply (in_all unreserved unreserved_set); [vm_compute; reflexivity|exact D].
  - apply char_in_iff, allowed_safe, D.
Qed.
Lemma plain_returns p s : plain p s -> returns p s.
Proof.
  intro P. assert (C := plain_chars p s P). split; [|split].
  - apply ascii_scalars, Forall_forall. intros c I. now apply C.
  - intros a b h l ->. exfalso. destruct (C 37) as (_ & N & _); [apply in_or_app; right; now left|easy].
  - apply Forall_forall. intros c I R. assert (V := legal_visible p c (P c I)). unfold visible in V.
    destruct p; cbn [reserved_code] in R; try (cbn in R; lia). destruct (P c I) as [D|D].
    + assert (unreserved c = true) by (apply (in_all unreserved unreserved_set); [vm_compute; reflexivity|exact D]). cbn in R. destruct R as [<-|[<-|[]]]; discriminate.
    + cbn in R. destruct R as [<-|[<-|[]]]; cbn in D; lia.
Qed.
Lemma plain_quote p s q : plain p s -> quote_to p s q -> q = s.
Proof.
  intros P (E & N & _). destruct s as [|c s]; [now apply N|]. rewrite (quote_same _ _ (plain_chars _ _ P)) in E by discriminate. now injection E.
Qed.
Lemma plain_unquote p s : plain p s -> unquote_part p s = s.
Proof.
  intro P. destruct (quote_to_ex p s (returns_quotable _ _ (plain_returns _ _ P))) as [q Q]. assert (q = s) by now apply (plain_quote p). subst q.
  now apply (returns_back p s s (plain_returns _ _ P)).
Qed.
Definition lowered (u : uri) : uri :=
  Uri (r_scheme u) (match r_auth u with Some a => Some (Authority (au_user a) (lower_ascii (au_host a)) (au_port a)) | None => None end)
      (r_path u) (r_query u) (r_fragment u).
Lemma related_lowered R (H : text -> text -> Prop) u v : related R H u v -> all_parts (fun p s => forall q, R p s q -> q = s) u ->
  (forall a h, r_auth u = Some a -> H (au_host a) h -> h = lower_ascii (au_host a)) -> v = lowered u.
Proof.
  intros (A & B & C & D & E) (PU & PP & PQ & PF) HH. destruct v as [vs va vp vq vf]. unfold lowered. cbn [r_scheme r_auth r_path r_query r_fragment] in *.
  rewrite <- A, (PP _ C), (PQ _ D), (PF _ E). f_equal. destruct (r_auth u) as [a|], va as [b|]; [|destruct B|destruct B|reflexivity]. destruct B as (BU & BH & BP).
  destruct b as [bu bh bp]. cbn [au_user au_host au_port] in *. rewrite <- BP, (HH a bh eq_refl BH). do 2 f_equal.
  specialize (PU a). destruct (au_user a) as [[n p]|], bu as [[m q]|]; try (destruct p; destruct BU; fail); try (destruct BU; fail); [|reflexivity].
  destruct (PU n p eq_refl eq_refl) as [PN PW]. destruct p as [p|], q as [q|]; try (destruct BU; fail).
  - destruct BU as [B1 B2]. now rewrite (PN _ B1), (PW p eq_refl _ B2).
  - now rewrite (PN _ BU).
Qed.
Lemma normal_parts (P : part -> text -> Prop) u : P Path [] -> all_parts P u -> all_parts P (normal u).
Proof.
  intros N (PU & PP & PQ & PF). split; [|split; [|split; assumption]].
  - intros a n p EA EU. unfold normal in EA. cbn [r_auth] in EA. destruct (r_auth u) as [b|] eqn:EB; [|discriminate]. injection EA as <-. cbn [au_user] in EU. now apply (PU b).
  - rewrite normal_path. now destruct (_ && _ && _).
Qed.
Lemma normal_hosts P u : all_hosts P u -> all_hosts P (normal u).
Proof.
  intros H a EA. unfold normal in EA. cbn [r_auth] in EA. destruct (r_auth u) as [b|] eqn:EB; [|discriminate]. injection EA as <-. cbn [au_host]. now apply H.
Qed.
Lemma normal_form u : form u -> form (normal u).
Proof.
  intros (S & A & LP & LQ & LF). unfold form. rewrite normal_path. cbn [normal r_scheme r_auth r_query r_fragment]. split; [exact S|].
  assert (LN : lacks (tx "?#") (if eqb_text (r_query u) [] && eqb_text (r_fragment u) [] && eqb_text (r_path u) [47] then [] else r_path u))
    by (destruct (_ && _ && _); [apply lacks_nil|exact LP]).
  split; [|split; [exact LN|split; [exact LQ|exact LF]]]. destruct (r_auth u) as [a|].
  - destruct A as [(UF & HF & PO) PS]. split; [|destruct (_ && _ && _); [now left|exact PS]]. split; [exact UF|]. split; [exact HF|]. cbn [au_port].
    intros n. unfold default_port. destruct (au_port a) as [k|] eqn:EP; [|discriminate]. intro X. apply PO. rewrite <- X.
    repeat match type of X with context [if ?b then _ else _] => destruct b end; congruence.
  - destruct A as [NI PS]. split; [exact NI|]. destruct (_ && _ && _); [discriminate|exact PS].
Qed.
Lemma lowered_parts P u : all_parts P u -> all_parts P (lowered u).
Proof.
  intros (PU & PP & PQ & PF). split; [|split; [|split]]; try assumption. intros a n p EA EU. unfold lowered in EA. cbn [r_auth] in EA.
  destruct (r_auth u) as [b|] eqn:EB; [|discriminate]. injection EA as <-. now apply (PU b).
Qed.
Lemma lowered_form u : form u -> form (lowered u).
Proof.
  intros (S & A & L). split; [exact S|]. split; [|exact L]. cbn [lowered r_auth r_scheme r_path]. destruct (r_auth u) as [a|]; [|exact A].
  destruct A as [(UF & [HF HL] & PO) PS]. split; [|exact PS]. split; [exact UF|]. split; [|exact PO]. cbn [au_host]. split.
  - destruct HF as [HF|HF]; [left|now right]. destruct (au_host a); [easy|discriminate].
  - intros c I J. apply lower_in in I. destruct I as [I|I]; [now apply (HL c)|]. cbn in J. lia.
Qed.
Lemma lowered_twice u : lowered (lowered u) = lowered u.
Proof. unfold lowered. cbn [r_scheme r_auth r_path r_query r_fragment]. destruct (r_auth u) as [a|]; [|reflexivity]. cbn [au_user au_host au_port]. now rewrite lower_twice. Qed.
Lemma lowered_normal u : lowered (normal (lowered u)) = lowered (normal u).
Proof. unfold lowered, normal. cbn [r_scheme r_auth r_path r_query r_fragment]. destruct (r_auth u) as [a|]; [|reflexivity]. cbn [au_user au_host au_port]. now rewrite lower_twice. Qed.
Lemma any_case_lower h : any_case_plain h -> plain_host (lower_ascii h).
Proof.
  intros (A & H & N). split; [split; [now apply lower_ascii_text|]|split; [now apply lower_host|apply lower_small]].
  apply N. now apply lower_same.
Qed.
Lemma plain_lowered u : plain_uri u -> plain_uri (lowered u).
Proof.
  intros (F & N & P & H). split; [now apply lowered_form|]. split; [exact N|]. split; [now apply lowered_parts|].
  intros a EA. unfold lowered in EA. cbn [r_auth] in EA. destruct (r_auth u) as [b|] eqn:EB; [|discriminate]. injection EA as <-. cbn [au_host].
  destruct (H b EB) as (A & B & C). split; [now apply lower_ascii_text|]. split; [now apply lower_host|]. intros g G. apply C.
  apply name_iff in G. apply name_iff. now rewrite lower_twice in G.
Qed.
Lemma same_uri_iff u v : same_uri u v <-> lowered (normal u) = lowered (normal v).
Proof.
  unfold same_uri. generalize (normal u) (normal v). clear u v. intros x y. split.
  - intro R. destruct R as (A & B & C & D & E). unfold lowered. rewrite A, C, D, E. f_equal. destruct (r_auth x) as [a|], (r_auth y) as [b|]; [|destruct B|destruct B|reflexivity].
    destruct B as (BU & BH & BP). rewrite BP. apply name_iff in BH. rewrite BH. do 2 f_equal.
    destruct (au_user a) as [[n [p|]]|], (au_user b) as [[m [q|]]|]; try (destruct BU; fail); try reflexivity; [destruct BU; congruence|congruence].
  - intro E. unfold lowered in E. injection E as A B C D E. split; [exact A|]. split; [|auto]. destruct (r_auth x) as [a|], (r_auth y) as [b|]; try discriminate; [|exact I].
    injection B as BU BH BP. rewrite BU. split; [destruct (au_user b) as [[n [p|]]|]; auto|]. split; [now apply name_iff|exact BP].
Qed.

(* what is written tells the components *)
Lemma render_inj u v : form u -> form v -> render u = render v -> u = v.
Proof.
  intros F G E.
  assert (X := urlsplit_render (fun _ => true) (fun _ => true) u F ltac:(now rewrite orb_true_r)).
  assert (Y := urlsplit_render (fun _ => true) (fun _ => true) v G ltac:(now rewrite orb_true_r)).
  rewrite E, Y in X. injection X as A B C D H.
  assert (EU := userinfo_render u (Split [] (authority_text u) [] [] []) F eq_refl). rewrite <- B in EU. rewrite (userinfo_render v (Split [] (authority_text v) [] [] []) G eq_refl) in EU.
  assert (EH := hostinfo_render u (Split [] (authority_text u) [] [] []) F eq_refl). rewrite <- B in EH. rewrite (hostinfo_render v (Split [] (authority_text v) [] [] []) G eq_refl) in EH.
  injection EU as EU EW. injection EH as EH EP.
  destruct u as [us ua up uq uf], v as [vs va vp vq vf]. cbn [r_scheme r_path r_query r_fragment] in *. subst. f_equal.
  destruct F as (_ & FA & _). destruct G as (_ & GA & _). unfold user_of, pw_of, host_of, port_of, authority_text in *. cbn [r_auth r_scheme] in *.
  destruct ua as [[au ah ap]|], va as [[bu bh bp]|]; [| | |reflexivity]; cbn [au_user au_host au_port] in *.
  - assert (ap = bp).
    { destruct FA as [(_ & _ & FP) _], GA as [(_ & _ & GP) _]. unfold port_form in FP, GP. cbn [au_port] in FP, GP. destruct ap as [i|], bp as [j|]; try discriminate; [|reflexivity].
      cbn [option_map] in EP. injection EP as EP. f_equal. specialize (FP i eq_refl). specialize (GP j eq_refl). apply dec_inj in EP; [congruence|lia|lia]. }
    subst. do 2 f_equal. destruct au as [[n p]|], bu as [[m q]|]; cbn [option_map fst] in *; congruence.
  - subst ah. destruct FA as [(_ & [[X|X] _] & _) _]; [now destruct X|now destruct GA].
  - subst bh. destruct GA as [(_ & [[X|X] _] & _) _]; [now destruct X|now destruct FA].
Qed.

Section Equal.
  Variable to : text -> res bytes.
  Variable from : bytes -> res text.
  Variable low : text -> text.
  Variable bracket_ok netloc_ok : text -> bool.
  Notation write := (iri_to_uri to low bracket_ok netloc_ok).
  Notation show := (uri_to_iri from low bracket_ok netloc_ok).

  Lemma plain_ascii u : plain_uri u -> ascii_text (render u).
  Proof.
    intros (F & _ & P & H). apply render_ascii; [exact F| |intros a EA; now apply H]. revert P. apply all_parts_impl.
    intros p s X. apply Forall_forall. intros c I. now apply (plain_chars p s X).
  Qed.
  Lemma authority_ascii u : ascii_text (render u) -> is_ascii (authority_text u) = true.
  Proof.
    intro A. apply is_ascii_iff. unfold render in A. rewrite !ascii_app in A. unfold authority_text. destruct (r_auth u); [|constructor].
    destruct A as (_ & _ & A & _). now apply ascii_app in A.
  Qed.
  Theorem write_plain u n : plain_uri u -> write (render u) n = Ok (render (lowered (if n then normal u else u))).
  Proof.
    intros PL. assert (PL2 := PL). destruct PL2 as (F & N & P & H).
    destruct (iri_to_uri_render to low bracket_ok netloc_ok u n F N) as (v & E & R).
    - now rewrite (authority_ascii u (plain_ascii u PL)).
    - revert P. apply all_parts_impl. intros p s X. now apply returns_quotable, plain_returns.
    - intros a EA. destruct (H a EA) as (A & B & C). exists (lower_ascii (au_host a)). left. split; [exact A|]. split; [exact B|]. now apply lower_same.
    - rewrite E. do 2 f_equal. apply (related_lowered quote_to (named to low)); [exact R| |].
      + assert (Q : all_parts (fun p s => forall q, quote_to p s q -> q = s) u) by (revert P; apply all_parts_impl; intros p s X q; now apply plain_quote).
        destruct n; [|exact Q]. apply normal_parts; [|exact Q]. intros q (_ & X & _). now apply X.
      + intros a h EA NM. assert (ascii_text (au_host a)).
        { assert (HN : all_hosts any_case_plain (if n then normal u else u)) by (destruct n; [now apply normal_hosts|exact H]). now apply HN. }
        destruct NM as [(_ & _ & X)|(X & _)]; [now apply lower_same|easy].
  Qed.
  Theorem show_plain u : plain_uri u -> show (render u) = Ok (render (lowered u)).
  Proof.
    intros PL. assert (PL2 := PL). destruct PL2 as (F & N & P & H). assert (PP := P). destruct PP as (PU & PP & PQ & PF).
    assert (E : unquoted u (lower_ascii (host_of u)) = lowered u).
    { unfold unquoted, lowered, host_of. rewrite !plain_unquote by assumption. f_equal. destruct (r_auth u) as [a|]; [|reflexivity]. do 2 f_equal.
      specialize (PU a). destruct (au_user a) as [[n p]|]; [|reflexivity]. destruct (PU _ _ eq_refl eq_refl) as [PN PW]. unfold option_map at 1, unquote_user. cbn [fst snd].
      rewrite (plain_unquote User n PN). destruct p as [p|]; [|reflexivity]. cbn [option_map]. now rewrite (plain_unquote User p (PW p eq_refl)). }
    rewrite <- E. apply show_raw.
    - exact F.
    - now apply plain_ascii.
    - intro X. unfold host_of. destruct (r_auth u) as [a|] eqn:EA; [|easy]. destruct (H a EA) as (A & B & C). apply shown_decode; [exact A|].
      exists (lower_ascii (au_host a)). assert (L := proj2 (lower_same (au_host a) _) eq_refl). destruct L as [L1 L2]. split; [exact L1|]. split; [exact L2|]. left. split; [now apply C|reflexivity].
    - rewrite E. apply writable_of. now apply lowered_form.
    - intros a x EA EX. destruct F as (_ & A & _). rewrite EA in A. destruct A as [(UF & _) _]. destruct (UF _ EX) as [[NN _] Q]. destruct x as [n p]. cbn [fst snd] in *.
      destruct (PU _ _ _ EA EX) as [PN PW]. rewrite (plain_unquote User n PN). split; [exact NN|]. destruct p as [p|]; [|discriminate]. cbn [option_map].
      rewrite (plain_unquote User p (PW p eq_refl)). intros [= ->]. now destruct (Q [] eq_refl).
  Qed.

  (* objects that hold the URI u *)
  Definition uri_is (u : uri) (o : aobj) : Prop :=
    (a_contents o = Some (render u) \/ a_contents o = Some (render (lowered u))) /\
    (a_text o = None \/ a_text o = Some (render u) \/ a_text o = Some (render (lowered u))).
  Notation key := (uri_key to from low bracket_ok netloc_ok).
  Notation eq := (uri_eq to from low bracket_ok netloc_ok).
  Lemma key_plain u o : plain_uri u -> uri_is u o -> uri_is u (fst (key o)) /\ snd (key o) = Ok (render (lowered (normal u))).
  Proof.
    intros PL [C T].
    assert (N : exists t, native show o = (Addr (a_contents o) (a_kept o) (Some t), Ok (Some t)) /\ (t = render u \/ t = render (lowered u))).
    { unfold native, text_of. destruct T as [T|[T|T]]; rewrite T; destruct o as [oc ok ot]; cbn [a_contents a_text a_kept] in *; subst ot.
      - destruct C as [-> | ->]; cbn [bind].
        + rewrite (show_plain u PL). exists (render (lowered u)). split; [reflexivity|now right].
        + rewrite (show_plain _ (plain_lowered _ PL)), lowered_twice. exists (render (lowered u)). split; [reflexivity|now right].
      - destruct C as [-> | ->]; (eexists; split; [reflexivity|now left]).
      - destruct C as [-> | ->]; (eexists; split; [reflexivity|now right]). }
    destruct N as (t & N & D). unfold uri_key. rewrite N. cbn [fst snd]. split; [split; [exact C|right; cbn; destruct D as [-> | ->]; auto]|].
    destruct D as [-> | ->]; [now rewrite write_plain|]. rewrite write_plain by now apply plain_lowered. do 2 f_equal. apply lowered_normal.
  Qed.
  Inductive uri_use := URead | UCompare (x : aobj) | UCompareRight (x : aobj).
  Definition use_uri (o : aobj) (x : uri_use) : aobj :=
    match x with
    | URead => fst (uri_str from low bracket_ok netloc_ok o)
    | UCompare y => fst (fst (eq o y))
    | UCompareRight y => snd (fst (eq y o))
    end.
  Lemma read_is u o : plain_uri u -> uri_is u o -> uri_is u (fst (uri_str from low bracket_ok netloc_ok o)) /\
    exists t, snd (uri_str from low bracket_ok netloc_ok o) = Ok t /\ (t = render u \/ t = render (lowered u)).
  Proof.
    intros PL [C T]. unfold uri_str, text_of. destruct o as [oc ok ot]. cbn [a_contents a_text a_kept] in *.
    destruct T as [->|[->| ->]]; destruct C as [-> | ->]; cbn [fst snd].
    - rewrite (show_plain u PL). cbn [fst snd]. split; [split; cbn; auto|eauto].
    - rewrite (show_plain _ (plain_lowered _ PL)), lowered_twice. cbn [fst snd]. split; [split; cbn; auto|eauto].
    - split; [split; cbn; auto|eauto].
    - split; [split; cbn; auto|eauto].
    - split; [split; cbn; auto|eauto].
    - split; [split; cbn; auto|eauto].
  Qed.
  Lemma use_is u o x : plain_uri u -> uri_is u o -> uri_is u (use_uri o x).
  Proof.
    intros PL U. destruct x as [|y|y]; cbn [use_uri].
    - now apply read_is.
    - unfold uri_eq. destruct (key_plain u o PL U) as [A B]. destruct (key o) as [o' [k|e]]; cbn [fst snd] in *; [|exact A].
      destruct (key y) as [y' [k'|e']]; exact A.
    - unfold uri_eq. destruct (key y) as [y' [k'|e']]; [|exact U]. destruct (key_plain u o PL U) as [A B]. destruct (key o) as [o' [k|e]]; exact A.
  Qed.
  Lemma uses_is u l : plain_uri u -> forall o, uri_is u o -> uri_is u (fold_left use_uri l o).
  Proof. intro PL. induction l as [|x l IH]; intros o U; [exact U|]. cbn. apply IH. now apply use_is. Qed.
  Lemma uri_equal u v a b : plain_uri u -> plain_uri v -> uri_is u a -> uri_is v b ->
    exists r, snd (eq a b) = Ok r /\ (r = true <-> same_uri u v).
  Proof.
    intros PU PV A B. unfold uri_eq. destruct (key_plain u a PU A) as [_ KA]. destruct (key_plain v b PV B) as [_ KB].
    destruct (key a) as [a' ka]. destruct (key b) as [b' kb]. cbn [snd] in KA, KB. subst ka kb. cbn [snd]. eexists. split; [reflexivity|].
    rewrite eqb_text_spec, same_uri_iff. split; [|intros ->; reflexivity]. apply render_inj; apply lowered_form, normal_form; [apply PU|apply PV].
  Qed.
  (* comparison is that of keys *)
  Lemma uri_eq_key a b r : snd (eq a b) = Ok r <-> exists s t, snd (key a) = Ok s /\ snd (key b) = Ok t /\ r = eqb_text s t.
  Proof.
    unfold uri_eq. destruct (key a) as [a' [s|e]]; cbn [snd].
    - destruct (key b) as [b' [t|e]]; cbn [snd].
      + split; [intros [= <-]; eauto|intros (s' & t' & [= <-] & [= <-] & ->); reflexivity].
      + split; [discriminate|intros (s' & t' & _ & X & _); discriminate].
    - split; [discriminate|intros (s' & t' & X & _); discriminate].
  Qed.
End Equal.
