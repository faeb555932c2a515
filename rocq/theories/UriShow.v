(* Proofs about UriModel.v: showing a URI as an IRI, and back; comparison. *)
Require Import Verif.Base Verif.BaseFacts Verif.Text Verif.DomainModel Verif.InetModel Verif.CodecModel Verif.IriModel Verif.IriSpec Verif.IriProofs
  Verif.IriUnquote Verif.IriParts Verif.AddrModel Verif.AddrSpec Verif.AddrProofs Verif.UriModel Verif.UriSpec Verif.UriProofs Verif.UriQuote.

Definition unquote_user (x : text * option text) : text * option text := (unquote_part User (fst x), option_map (unquote_part User) (snd x)).
Definition unquoted (u : uri) (h : text) : uri :=
  Uri (r_scheme u) (match r_auth u with Some a => Some (Authority (option_map unquote_user (au_user a)) h (au_port a)) | None => None end)
      (unquote_part Path (r_path u)) (unquote_part Query (r_query u)) (unquote_part Fragment (r_fragment u)).

Lemma is_ascii_app a b : is_ascii (a ++ b) = is_ascii a && is_ascii b. Proof. apply forallb_app. Qed.
Lemma ascii_app a b : ascii_text (a ++ b) <-> ascii_text a /\ ascii_text b. Proof. apply Forall_app. Qed.

Section Show.
  Variable from : bytes -> res text.
  Variable low : text -> text.
  Variable bracket_ok netloc_ok : text -> bool.
  Notation show := (uri_to_iri from low bracket_ok netloc_ok).

  Definition host_decode (h h' : text) : Prop := idna_decode from (lower_ascii h) = Ok h' /\ (h = [] <-> h' = []).
  Lemma shown_decode h h' : ascii_text h -> shown_host from h h' -> host_decode h h'.
  Proof.
    intros A (g & N & S & D). assert (g = lower_ascii h) by now apply lower_same. subst g. unfold host_decode, idna_decode.
    rewrite (proj2 (is_ascii_iff _) (lower_ascii_text _ A)). cbn [andb]. destruct D as [[C ->]|(C & F & L & _)].
    - rewrite (proj2 (no_ace_iff _) C). split; [reflexivity|]. destruct h; split; easy.
    - destruct (infix ace (lower_ascii h)) eqn:E; [|destruct C; now apply no_ace_iff]. cbn [negb]. split; [exact F|].
      split; [|easy]. intros ->. cbn in E. discriminate.
  Qed.
  Lemma show_raw u h' : form u -> ascii_text (render u) -> (r_auth u <> None -> host_decode (host_of u) h') -> writable (unquoted u h') ->
    (forall a x, r_auth u = Some a -> au_user a = Some x -> unquote_part User (fst x) <> [] /\ option_map (unquote_part User) (snd x) <> Some []) ->
    show (render u) = Ok (render (unquoted u h')).
  Proof.
    intros F A H W U. unfold uri_to_iri. rewrite (proj2 (is_ascii_iff _) A).
    assert (AN : is_ascii (authority_text u) = true).
    { apply is_ascii_iff. unfold render in A. rewrite !ascii_app in A. unfold authority_text. destruct (r_auth u); [|constructor].
      destruct A as (_ & _ & A & _). now apply ascii_app in A. }
    rewrite urlsplit_render by (try exact F; now rewrite AN). cbn [bind]. set (sp := Split _ _ _ _ _).
    cbn [u_scheme u_path u_query u_fragment sp].
    rewrite (hostname_render low u sp F eq_refl), (userinfo_render u sp F eq_refl), (port_render u sp F eq_refl). cbn [fst snd].
    assert (HH : exists oh, match (match host_of u with [] => None | h => Some (lower low h) end) with Some h => do t <- idna_decode from h; Ok (Some t) | None => Ok None end = Ok oh /\
                 (r_auth u <> None -> joined oh = h') /\ (r_auth u = None -> oh = None)).
    { unfold host_of in *. destruct (r_auth u) as [a|] eqn:E; [|exists None; repeat split; congruence]. destruct (H ltac:(discriminate)) as [D N].
      destruct (au_host a) as [|c h] eqn:EH.
      - exists None. split; [reflexivity|]. split; [|discriminate]. intros _. symmetry. now apply N.
      - assert (is_ascii (c :: h) = true).
        { unfold authority_text in AN. rewrite E in AN. unfold render_auth in AN. rewrite !is_ascii_app, !andb_true_iff, EH in AN. apply AN. }
        unfold lower. rewrite H0, D. exists (Some h'). split; [reflexivity|]. split; [reflexivity|discriminate]. }
    destruct HH as (oh & -> & HJ & HO). cbn [bind].
    change (urlunquote (remap_of User) false) with (unquote_part User).
    assert (NL : netloc_of (option_map (unquote_part User) (user_of u)) (option_map (unquote_part User) (pw_of u)) oh (option_map dec (port_of u)) = authority_text (unquoted u h')).
    { unfold authority_text, unquoted, user_of, pw_of, port_of. cbn [r_auth]. destruct (r_auth u) as [a|] eqn:E.
      - rewrite <- (netloc_render (Authority (option_map unquote_user (au_user a)) h' (au_port a)) oh).
        + cbn [au_user au_port]. destruct (au_user a) as [[n [p|]]|]; reflexivity.
        + cbn [au_user]. intros x. specialize (U a). destruct (au_user a) as [y|]; [|discriminate]. intros [= <-]. now apply (U y).
        + cbn [au_host]. apply HJ. discriminate.
      - rewrite (HO eq_refl). reflexivity. }
    rewrite NL. f_equal. exact (urlunsplit_render (unquoted u h') W).
  Qed.
End Show.

(* ---- what unquoting brings about ---- *)
Lemma uri_ascii p b : uri_text p b -> ascii_text b.
Proof.
  intro U. induction U as [|c r N [Q _] U IH|h l v r X _ U IH]; [constructor|constructor; assumption|].
  apply hex2_visible in X. repeat (constructor; [lia|]). exact IH.
Qed.
Lemma clean_scalars s : clean s -> scalars s.
Proof.
  intro C. induction C as [|c r N [_ Q] C IH|h l v r X _ C IH]; [constructor|constructor; assumption|].
  apply hex2_visible in X. repeat (constructor; [apply ascii_scalar; lia|]). exact IH.
Qed.
Lemma unquote_is_clean p b : uri_text p b -> escaped (fun v => v <> 0) (fun c => c <> 0) b -> clean (unquote_part p b).
Proof. intros U N. apply unquote_clean; [apply remap_punct|apply repl_remap|apply remap_pairs|apply uri_readable, U|exact N]. Qed.
Lemma no_delims_nonzero b : no_delims b -> escaped (fun v => v <> 0) (fun c => c <> 0) b.
Proof. apply escaped_mono; [intros v _ [_ L]; lia|auto]. Qed.
(* a character that is neither a percent sign nor unreserved shows in the meaning *)
Definition delim (c : Z) : Prop := 0 <= c < 128 /\ c <> 37 /\ unreserved c = false.
Definition token_of (c : Z) (t : token) : Prop := t = Sep c \/ t = Oct c.
Lemma in_meaning (P Q : Z -> Prop) R s c : escaped P Q s -> delim c -> In c s -> exists t, In t (meaning R s) /\ token_of c t.
Proof.
  intros E (A & N & U) I. induction E as [|x r NX _ E IH|h l v r X _ E IH]; [destruct I| |].
  - rewrite meaning_char by exact NX. destruct I as [->|I].
    + unfold char_tokens. destruct (char_in c R); [exists (Sep c); split; [now left|now left]|]. rewrite utf8_ascii by exact A.
      exists (Oct c). split; [now left|now right].
    + destruct (IH I) as (t & T & D). exists t. split; [apply in_or_app; now right|exact D].
  - rewrite (meaning_pct R h l v) by exact X. destruct (hex2_chars _ _ _ X) as (UH & UL & _).
    destruct I as [I|[I|[I|I]]]; [congruence|congruence|congruence|]. destruct (IH I) as (t & T & D). exists t. split; [now right|exact D].
Qed.
Lemma meaning_in (P Q : Z -> Prop) R s c t : escaped P Q s -> ascii_text s -> In t (meaning R s) -> token_of c t -> In c s \/ P c.
Proof.
  intros E A I D. induction E as [|x r NX _ E IH|h l v r X PV E IH]; [destruct I| |].
  - inversion A; subst. rewrite meaning_char in I by exact NX. apply in_app_or in I. destruct I as [I|I].
    + left. left. unfold char_tokens in I. destruct (char_in x R); [destruct I as [<-|[]]; destruct D; congruence|].
      rewrite utf8_ascii in I by assumption. destruct I as [<-|[]]. destruct D; congruence.
    + destruct (IH H2 I) as [J|J]; [left; now right|now right].
  - assert (ascii_text r) by (inversion A; subst; inversion H2; subst; now inversion H4). rewrite (meaning_pct R h l v) in I by exact X.
    destruct I as [<-|I]; [destruct D as [D|D]; [discriminate|injection D as ->; now right]|].
    destruct (IH H I) as [J|J]; [left; right; right; now right|now right].
Qed.
Lemma shown_lacks p b l : uri_text p b -> no_delims b -> inclb l gen_delims = true -> lacks l b -> lacks l (unquote_part p b).
Proof.
  intros U N S L c I J. assert (C := unquote_is_clean p b U (no_delims_nonzero _ N)). assert (M := unquote_keeps p b U).
  assert (D : delim c /\ (In c gen_delims \/ c < 32)).
  { cbn in J. destruct J as [<-|[<-|[<-|J]]]; [split; [unfold delim; repeat split; try lia|right; lia]..|]. apply (inclb_in _ _ _ S) in J. split; [|now left].
    assert (K : (0 <=? c) && (c <? 128) && negb (c =? 37) && negb (unreserved c) = true).
    { apply (in_all (fun c => (0 <=? c) && (c <? 128) && negb (c =? 37) && negb (unreserved c)) gen_delims); [vm_compute; reflexivity|exact J]. }
    rewrite !andb_true_iff, !negb_true_iff in K. unfold delim. repeat split; try lia. apply K. }
  destruct D as [D G]. destruct (in_meaning _ _ (separators p) _ c C D I) as (t & T & TC). rewrite M in T.
  destruct (meaning_in _ _ (separators p) _ c t N (uri_ascii _ _ U) T TC) as [K|[K1 K2]]; [now apply (L c K)|].
  destruct G as [G|G]; [easy|lia].
Qed.
Lemma shown_nil p b : uri_text p b -> unquote_part p b = [] <-> b = [].
Proof.
  intro U. split; [|intros ->; reflexivity]. intro E. assert (M := unquote_keeps p b U). rewrite E in M. symmetry in M.
  exact (meaning_nil _ _ (ascii_scalars _ (uri_ascii _ _ U)) M).
Qed.
Lemma sep_slash r : meaning (separators Path) (47 :: r) = Sep 47 :: meaning (separators Path) r. Proof. reflexivity. Qed.
Lemma shown_slash b : uri_text Path b -> no_delims b -> (exists r, b = 47 :: r) -> exists r, unquote_part Path b = 47 :: r.
Proof.
  intros U N [r ->]. assert (M := unquote_keeps Path _ U). rewrite sep_slash in M.
  destruct (meaning_sep _ _ _ _ (clean_scalars _ (unquote_is_clean _ _ U (no_delims_nonzero _ N))) M) as (r' & E & _). eauto.
Qed.
Lemma shown_slashes b : uri_text Path b -> (exists r, unquote_part Path b = tx "//" ++ r) -> exists r, b = tx "//" ++ r.
Proof.
  intros U [r E]. assert (M := unquote_keeps Path _ U). rewrite E in M. change (tx "//" ++ r) with (47 :: 47 :: r) in M. rewrite !sep_slash in M. symmetry in M.
  assert (S := ascii_scalars _ (uri_ascii _ _ U)).
  destruct (meaning_sep _ _ _ _ S M) as (r' & -> & M'). inversion S; subst. destruct (meaning_sep _ _ _ _ H2 M') as (r2 & -> & _). exists r2. reflexivity.
Qed.
Lemma dec_ascii n : 0 <= n -> ascii_text (dec n).
Proof. intro H. eapply Forall_impl; [|apply dec_digits; exact H]. cbn. intros; lia. Qed.
Lemma const_ascii s : is_ascii s = true -> ascii_text s. Proof. apply is_ascii_iff. Qed.
Lemma scheme_ascii s : scheme_form s -> ascii_text s.
Proof.
  intros [_ F]. apply Forall_forall. intros c I. apply F in I.
  assert (K : (0 <=? c) && (c <? 128) = true) by (apply (in_all (fun c => (0 <=? c) && (c <? 128)) scheme_set); [vm_compute; reflexivity|exact I]). lia.
Qed.
Lemma after_ascii c s : ascii_text c -> ascii_text s -> ascii_text (after c s).
Proof. intros A B. destruct s; [constructor|]. now apply ascii_app. Qed.
Ltac const := apply const_ascii; vm_compute; reflexivity.
Lemma render_ascii u : form u -> all_parts (fun _ => ascii_text) u -> all_hosts ascii_text u -> ascii_text (render u).
Proof.
  intros (S & A & _) (PU & PP & PQ & PF) H. unfold render. repeat (apply ascii_app; split); try const; try (apply after_ascii; [const|assumption]); try assumption.
  - now apply scheme_ascii.
  - destruct (r_auth u) as [a|] eqn:E; [|constructor]. apply ascii_app. split; [const|]. unfold render_auth. repeat (apply ascii_app; split).
    + specialize (PU a). destruct (au_user a) as [[n [p|]]|]; cbn [render_user]; [| |constructor]; destruct (PU _ _ eq_refl eq_refl) as [N P];
      repeat (apply ascii_app; split); try const; try assumption. now apply P.
    + now apply H.
    + destruct (au_port a) as [n|] eqn:EP; [|constructor]. apply ascii_app. split; [const|]. apply dec_ascii. destruct A as [(_ & _ & P) _]. apply P in EP. lia.
Qed.

Section Show2.
  Variable from : bytes -> res text.
  Variable low : text -> text.
  Variable bracket_ok netloc_ok : text -> bool.
  Theorem uri_to_iri_render u : form u -> all_parts (fun p s => uri_text p s /\ no_delims s) u ->
    all_hosts (fun h => ascii_text h /\ exists h', shown_host from h h') u ->
    exists v, uri_to_iri from low bracket_ok netloc_ok (render u) = Ok (render v) /\ related shown_as (shown_host from) u v /\ form v.
  Proof.
    intros F PA H. assert (P := PA). destruct P as (PU & PP & PQ & PF).
    assert (HH : exists h', r_auth u <> None -> ascii_text (host_of u) /\ shown_host from (host_of u) h').
    { unfold host_of. destruct (r_auth u) as [a|] eqn:E; [|exists []; congruence]. destruct (H a E) as (A & h' & S). exists h'. intros _. now split. }
    destruct HH as [h' HH]. exists (unquoted u h').
    assert (NH : r_auth u <> None -> host_decode from (host_of u) h') by (intro X; destruct (HH X); now apply shown_decode).
    assert (UN : forall a x, r_auth u = Some a -> au_user a = Some x -> unquote_part User (fst x) <> [] /\ option_map (unquote_part User) (snd x) <> Some []).
    { intros a [n p] EA EU. destruct F as (_ & A & _). rewrite EA in A. destruct A as [(UF & _) _]. destruct (UF _ EU) as [[N _] Q]. destruct (PU _ _ _ EA EU) as [[TN _] TP]. cbn [fst snd] in *.
      split; [now rewrite (shown_nil User n TN)|]. destruct p as [p|]; [|discriminate]. cbn. destruct (TP p eq_refl) as [TPP _]. intros [= X].
      apply (shown_nil User p TPP) in X. destruct (Q p eq_refl). easy. }
    assert (PATH : match r_auth u with Some _ => unquote_part Path (r_path u) = [] \/ (exists r, unquote_part Path (r_path u) = 47 :: r) | None => forall r, unquote_part Path (r_path u) <> tx "//" ++ r end).
    { destruct F as (_ & A & _). destruct PP as [UP NP]. destruct (r_auth u) as [a|].
      - destruct A as [_ [A|A]]; [left; now apply shown_nil|right; now apply shown_slash].
      - intros r X. destruct (shown_slashes _ UP) as [r' Y]; [eauto|]. now apply (proj2 A r'). }
    split; [|split].
    - apply show_raw; try assumption.
      + apply render_ascii; [exact F| |intros a E; now apply (H a)]. split; [|split; [|split]]; [|apply (uri_ascii Path), PP|apply (uri_ascii Query), PQ|apply (uri_ascii Fragment), PF].
        intros a n p EA EU. destruct (PU _ _ _ EA EU) as [N Q]. split; [apply (uri_ascii User), N|]. intros w ->. apply (uri_ascii User). now apply Q.
      + destruct F as (S & A & _). unfold writable, unquoted. cbn [r_scheme r_auth r_path]. split; [destruct S as [(c & r & -> & _) _]; discriminate|].
        destruct (r_auth u) as [a|] eqn:E.
        * split; [|exact PATH]. destruct A as [(_ & [HF _] & _) _]. destruct HF as [HF|HF]; [left|now right]. unfold render_auth. cbn [au_host]. intro X.
          apply app_eq_nil in X. destruct X as [_ X]. apply app_eq_nil in X. destruct X as [X _]. subst h'. destruct (NH ltac:(discriminate)) as [_ N]. unfold host_of in N. rewrite E in N. now apply HF, N.
        * split; [apply A|exact PATH].
    - unfold related, unquoted. cbn [r_scheme r_auth r_path r_query r_fragment]. split; [reflexivity|].
      split; [|split; [apply unquote_keeps, PP|split; [apply unquote_keeps, PQ|apply unquote_keeps, PF]]].
      destruct (r_auth u) as [a|] eqn:E; [|exact I]. cbn [au_user au_host au_port]. split; [|split; [|reflexivity]].
      + specialize (PU a). destruct (au_user a) as [[n [p|]]|]; cbn [option_map unquote_user fst snd]; [| |exact I];
        destruct (PU _ _ eq_refl eq_refl) as [[TN _] TP]; [split|]; apply unquote_keeps; try assumption. now apply TP.
      + destruct (HH ltac:(discriminate)) as [_ S]. unfold host_of in S. now rewrite E in S.
    - destruct F as (S & A & LP & LQ & LF). unfold form, unquoted. cbn [r_scheme r_auth r_path r_query r_fragment].
      split; [exact S|]. split; [|split; [apply shown_lacks; try apply PP; [reflexivity|exact LP]|split; [apply shown_lacks; try apply PQ; [reflexivity|exact LQ]|apply shown_lacks; try apply PF; [reflexivity|exact LF]]]].
      destruct (r_auth u) as [a|] eqn:E; [|split; [apply A|exact PATH]]. split; [|exact PATH]. destruct A as [(UF & [HF HL] & PO) _]. unfold auth_form. cbn [au_user au_host au_port].
      destruct (HH ltac:(discriminate)) as [_ SH]. unfold host_of in SH. rewrite E in SH.
      split; [|split; [|exact PO]].
      + intros x. specialize (PU a). destruct (au_user a) as [[n p]|] eqn:EU; [|discriminate]. intros [= <-]. destruct (UF _ eq_refl) as [[N NL] Q]. destruct (PU _ _ eq_refl eq_refl) as [[TN DN] TP].
        destruct (UN a (n, p) eq_refl EU) as [U1 U2]. cbn [fst snd] in *. split; cbn [unquote_user fst snd].
        * split; [exact U1|]. apply shown_lacks; try assumption. reflexivity.
        * intros w X. destruct p as [p|]; [|discriminate]. cbn [option_map] in X. injection X as <-. destruct (TP p eq_refl) as [TPU TPD]. split; [intro Y; apply U2; cbn [option_map]; now rewrite Y|].
          apply shown_lacks; try assumption; [reflexivity|]. now apply Q.
      + split.
        * destruct HF as [HF|HF]; [left|now right]. intros ->. destruct (NH ltac:(discriminate)) as [_ N]. unfold host_of in N. rewrite E in N. now apply HF, N.
        * destruct SH as (g & N & SM & D). destruct D as [[_ ->]|(_ & _ & _ & L)]; [|exact L]. assert (g = lower_ascii (au_host a)) by now apply lower_same. subst g.
          intros c I J. apply lower_in in I. destruct I as [I|I]; [now apply (HL c)|]. cbn in J. lia.
  Qed.
End Show2.

(* ---- and back ---- *)
Lemma legal_lacks p q l : forallb (fun c => negb (unreserved c || char_in c (allowed p) || (c =? 37))) (9 :: 10 :: 13 :: l) = true -> legal p q -> lacks l q.
Proof.
  intros F L c I J. apply (in_all _ _ _ F) in J. rewrite negb_true_iff, !orb_false_iff in J. destruct J as [[J1 J2] J3]. apply char_in_not in J2.
  induction L as [|x r N Q L IH|h m v r X _ L IH]; [destruct I| |].
  - destruct I as [->|I]; [|now apply IH]. destruct Q as [Q|Q]; [|easy].
    assert (unreserved c = true) by (apply (in_all unreserved unreserved_set); [vm_compute; reflexivity|exact Q]). congruence.
  - destruct (hex2_chars _ _ _ X) as (A & B & _). destruct I as [<-|[<-|[<-|I]]]; first [discriminate|congruence|now apply IH].
Qed.
Lemma form_writable u : form u -> (forall a, r_auth u = Some a -> au_host a <> [] \/ In (r_scheme u) with_slashes) -> writable u.
Proof.
  intros (S & A & _) H. split; [destruct S as [(c & r & -> & _) _]; discriminate|]. destruct (r_auth u) as [a|]; [|exact A]. destruct A as [A P]. split; [|exact P].
  destruct (H a eq_refl) as [X|X]; [left|now right]. unfold render_auth. intro E. apply app_eq_nil in E. destruct E as [_ E]. apply app_eq_nil in E. now apply X.
Qed.
Lemma form_hosts u : form u -> forall a, r_auth u = Some a -> au_host a <> [] \/ In (r_scheme u) with_slashes.
Proof. intros (_ & A & _) a E. rewrite E in A. apply A. Qed.
Lemma writable_of u : form u -> writable u. Proof. intro F. apply form_writable; [exact F|now apply form_hosts]. Qed.

Lemma quoted_form u v : form u -> all_parts (fun _ => scalars) u -> related quote_to eq u v -> form v.
Proof.
  intros (S & A & LP & LQ & LF) (PU & PP & PQ & PF) (ES & RA & RP & RQ & RF).
  assert (LV : lacks (tx "?#") (r_path v) /\ lacks (tx "#") (r_query v) /\ lacks [] (r_fragment v)).
  { repeat split; [apply (legal_lacks Path)|apply (legal_lacks Query)|apply (legal_lacks Fragment)]; try (vm_compute; reflexivity); [apply RP|apply RQ|apply RF]. }
  unfold form. rewrite <- ES. split; [exact S|]. split; [|exact LV]. destruct (r_auth u) as [a|] eqn:E, (r_auth v) as [b|] eqn:EB; [|destruct RA|destruct RA|].
  - destruct A as [(UF & HF & PO) PS]. destruct RA as (RU & RH & RPO). split.
    + split; [|split; [rewrite <- RH; exact HF|rewrite <- RPO; exact PO]]. intros x EX. rewrite EX in RU. specialize (PU a).
      destruct (au_user a) as [[n p]|] eqn:EU; [|destruct RU]. destruct (UF _ eq_refl) as [[N _] Q]; destruct (PU _ _ eq_refl eq_refl) as [SN SP]; cbn [fst snd] in *.
      assert (X : forall s q, s <> [] -> scalars s -> quote_to User s q -> q <> [] /\ lacks (tx "@:/?#[]") q).
      { intros s q NE SC (_ & _ & QA). split; [|apply (legal_lacks User); [vm_compute; reflexivity|apply QA]]. intros ->. apply NE. now apply (nil_iff User s [] SC QA). }
      destruct p as [p|], x as [m [q|]]; try (destruct RU; fail).
      * destruct RU as [R1 R2]. split; cbn [fst snd]; [now apply (X n)|]. intros w [= <-]. destruct (X p q) as [Y1 Y2]; [now apply Q|now apply SP|exact R2|].
        split; [exact Y1|weaker Y2].
      * split; cbn [fst snd]; [now apply (X n)|discriminate].
    + destruct PS as [PS|PS]; [left|right].
      * apply (nil_iff Path _ _ PP (proj2 (proj2 RP))). exact PS.
      * now apply (slash_iff _ _ PP (proj2 (proj2 RP))).
  - split; [apply A|]. intros r X. destruct (slashes_iff _ _ PP (proj2 (proj2 RP))) as [r' Y]; [eauto|]. now apply (proj2 A r').
Qed.
Lemma returns_quotable p s : returns p s -> quotable p s.
Proof. intros (A & B & _). split; [exact A|now left]. Qed.
Lemma returns_back p s q : returns p s -> quote_to p s q -> unquote_part p q = s.
Proof.
  intros (A & B & C) (E & N & _). destruct s as [|c s]; [now rewrite (N eq_refl)|].
  destruct (round_trip p (c :: s) A ltac:(discriminate) B C) as (q' & E' & U). unfold quote_part in E'. rewrite E in E'. injection E' as <-. exact U.
Qed.
Lemma plain_host_named to low h h' : plain_host h -> named to low h h' -> h' = h.
Proof.
  intros ((A & _) & _ & S) [(_ & _ & N)|(B & _)]; [|easy]. apply lower_same in N. rewrite N. now apply lower_fixed.
Qed.
Lemma plain_host_named_ex to low h : plain_host h -> named to low h h.
Proof. intros ((A & _) & H & S). left. split; [exact A|]. split; [exact H|]. apply lower_same. symmetry. now apply lower_fixed. Qed.
Lemma plain_host_decode from h : plain_host h -> host_decode from h h.
Proof.
  intros ((A & N) & _ & S). apply shown_decode; [exact A|]. exists h. split; [apply name_iff; reflexivity|]. split; [exact S|]. now left.
Qed.
Lemma all_parts_impl (P Q : part -> text -> Prop) u : (forall p s, P p s -> Q p s) -> all_parts P u -> all_parts Q u.
Proof.
  intros I (PU & PP & PQ & PF). split; [|split; [|split]]; try (apply I; assumption). intros a n p EA EU. destruct (PU a n p EA EU) as [A B]. split; auto.
Qed.
Lemma related_hosts R (H : text -> text -> Prop) u v : related R H u v -> (forall a b, r_auth u = Some a -> r_auth v = Some b -> H (au_host a) (au_host b) -> au_host a = au_host b) -> related R eq u v.
Proof.
  intros (A & B & C) X. split; [exact A|]. split; [|exact C]. destruct (r_auth u) as [a|], (r_auth v) as [b|]; try exact B.
  destruct B as (B1 & B2 & B3). split; [exact B1|]. split; [|exact B3]. now apply X.
Qed.
Section Back.
  Variable to : text -> res bytes.
  Variable from : bytes -> res text.
  Variable low : text -> text.
  Variable bracket_ok netloc_ok : text -> bool.
  Notation write := (iri_to_uri to low bracket_ok netloc_ok).
  Notation show := (uri_to_iri from low bracket_ok netloc_ok).

  Theorem iri_round_trip u : form u -> ~ In 43 (r_scheme u) -> is_ascii (authority_text u) || netloc_ok (authority_text u) = true ->
    all_parts returns u -> all_hosts plain_host u -> exists b, write (render u) false = Ok b /\ show b = Ok (render u).
  Proof.
    intros F NP K R H.
    destruct (iri_to_uri_render to low bracket_ok netloc_ok u false F NP K) as (v & E & RL).
    { revert R. apply all_parts_impl. apply returns_quotable. }
    { intros a EA. exists (au_host a). apply plain_host_named_ex. now apply H. }
    cbn iota in RL. exists (render v). split; [exact E|].
    assert (RE : related quote_to eq u v).
    { apply (related_hosts _ _ _ _ RL). intros a b EA _ N. symmetry. apply (plain_host_named to low); [now apply H|exact N]. }
    assert (FV : form v). { apply (quoted_form u v F); [|exact RE]. revert R. apply all_parts_impl. now intros p s (X & _). }
    destruct RE as (ES & RA & RP & RQ & RF). destruct R as (PU & PP & PQ & PF).
    assert (UV : unquoted v (host_of u) = u).
    { unfold unquoted. rewrite (returns_back _ _ _ PP RP), (returns_back _ _ _ PQ RQ), (returns_back _ _ _ PF RF), <- ES.
      unfold host_of. specialize (PU). destruct u as [us ua up uq uf]. cbn [r_scheme r_auth r_path r_query r_fragment] in *.
      f_equal. destruct ua as [a|], (r_auth v) as [b|]; [|destruct RA|destruct RA|reflexivity]. destruct RA as (RU & RH & RPO). destruct a as [au ah ap]. cbn [au_user au_host au_port] in *.
      rewrite <- RPO. do 2 f_equal. destruct au as [[n p]|].
      - destruct (PU _ _ _ eq_refl eq_refl) as [PN PW]. destruct (au_user b) as [[m q]|]; [|destruct p; destruct RU]. unfold option_map, unquote_user. cbn [fst snd].
        destruct p as [p|], q as [q|]; try (destruct RU; fail).
        + destruct RU as [R1 R2]. cbn [option_map]. rewrite (returns_back User n m PN R1), (returns_back User p q (PW p eq_refl) R2). reflexivity.
        + cbn [option_map]. rewrite (returns_back User n m PN RU). reflexivity.
      - destruct (au_user b) as [[m q]|]; [destruct RU|reflexivity]. }
    rewrite <- UV. apply show_raw.
    - exact FV.
    - apply render_ascii; [exact FV| |].
      + split; [|split; [|split]]; [|apply (legal_ascii Path), RP|apply (legal_ascii Query), RQ|apply (legal_ascii Fragment), RF].
        intros b m q EB EU. rewrite EB in RA. destruct (r_auth u) as [a|]; [|destruct RA]. destruct RA as (RU & _). rewrite EU in RU.
        destruct (au_user a) as [[n p]|]; [|destruct RU]. destruct p, q; try (destruct RU; fail).
        * destruct RU as [R1 R2]. split; [apply (legal_ascii User), R1|]. intros w [= <-]. apply (legal_ascii User), R2.
        * split; [apply (legal_ascii User), RU|discriminate].
      + intros b EB. rewrite EB in RA. destruct (r_auth u) as [a|] eqn:EA; [|destruct RA]. destruct RA as (_ & <- & _). destruct (H a EA) as ((X & _) & _). exact X.
    - intros N. unfold host_of. destruct (r_auth v) as [b|] eqn:EB; [|easy]. destruct (r_auth u) as [a|] eqn:EA; [|destruct RA]. destruct RA as (_ & <- & _).
      apply plain_host_decode. now apply H.
    - rewrite UV. now apply writable_of.
    - intros b x EB EX. assert (X : exists a, r_auth u = Some a /\ au_user a = Some (unquote_user x)).
      { rewrite <- UV. unfold unquoted. cbn [r_auth]. rewrite EB. eexists. split; [reflexivity|]. cbn [au_user]. now rewrite EX. }
      destruct X as (a & EA & EU). destruct F as (_ & A & _). rewrite EA in A. destruct A as [(UF & _) _]. destruct (UF _ EU) as [[N _] Q]. cbn [unquote_user fst snd] in *.
      split; [exact N|]. intro Y. destruct (Q [] Y) as [Z _]. easy.
  Qed.
End Back.
