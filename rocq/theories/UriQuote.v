(* Proofs about UriModel.v: writing an IRI as a URI. *)
Require Import Verif.Base Verif.BaseFacts Verif.Text Verif.DomainModel Verif.InetModel Verif.CodecModel Verif.IriModel Verif.IriSpec Verif.IriProofs Verif.IriParts
  Verif.AddrModel Verif.AddrSpec Verif.AddrProofs Verif.UriModel Verif.UriSpec Verif.UriProofs.

Lemma in_text (P : Z -> bool) l c : In c l -> forallb P l = true -> P c = true.
Proof. intros I F. now apply (in_all P l). Qed.
Definition visible (c : Z) : bool := (33 <=? c) && (c <? 127) && negb (c =? 37).
Lemma legal_visible p c : In c unreserved_set \/ In c (allowed p) -> visible c = true.
Proof. intros [I|I]; [|destruct p]; apply (in_text visible _ _ I); vm_compute; reflexivity. Qed.
Lemma hex2_visible h l v : hex2 h l = Some v -> 48 <= h <= 102 /\ 48 <= l <= 102.
Proof. intro H. apply hex2_chars in H. intuition. Qed.
Lemma ascii_scalar c : 0 <= c < 128 -> scalar c = true.
Proof. intro H. apply scalar_iff. split; [lia|]. unfold surrogate. lia. Qed.
Lemma legal_ascii p q : legal p q -> Forall (fun c => 0 <= c < 128) q.
Proof.
  intro L. induction L as [|c r N Q L IH|h l v r H _ L IH].
  - constructor.
  - constructor; [|exact IH]. apply legal_visible in Q. unfold visible in Q. lia.
  - apply hex2_visible in H. repeat (constructor; [lia|]). exact IH.
Qed.
Lemma ascii_scalars s : Forall (fun c => 0 <= c < 128) s -> scalars s.
Proof. intro H. eapply Forall_impl; [|exact H]. intros c C. now apply ascii_scalar. Qed.
Lemma scalars_points s : scalars s -> points s.
Proof. intro H. eapply Forall_impl; [|exact H]. intros c C. apply scalar_iff in C. apply C. Qed.
Lemma tokens_nonnil R c : scalar c = true -> char_tokens R c <> [].
Proof.
  intro S. unfold char_tokens. destruct (char_in c R); [discriminate|]. destruct (utf8_scalar c S) as [b B]. unfold utf8_of. rewrite B.
  destruct b; [|discriminate]. intros _. revert B. unfold utf8_char.
  repeat match goal with |- context [if ?x then _ else _] => destruct x end; discriminate.
Qed.
Lemma meaning_nil R s : scalars s -> meaning R s = [] -> s = [].
Proof.
  destruct s as [|c r]; [reflexivity|]. intros S. inversion S as [|? ? C _]; subst. cbn [meaning].
  assert (T := tokens_nonnil R c C). destruct (char_tokens R c) as [|t ts]; [easy|]. destruct (c =? 37); [|discriminate].
  destruct r as [|h [|l r']]; try discriminate. destruct (hex2 h l); discriminate.
Qed.
Lemma meaning_sep R s c t : scalars s -> meaning R s = Sep c :: t -> exists r, s = c :: r /\ meaning R r = t.
Proof.
  destruct s as [|x r]; [discriminate|]. intros S. inversion S as [|? ? C _]; subst.
  assert (K : char_tokens R x ++ meaning R r = Sep c :: t -> exists r0, x :: r = c :: r0 /\ meaning R r0 = t).
  { unfold char_tokens. destruct (char_in x R); [cbn; intro E; injection E as -> <-; eauto|]. assert (T := tokens_nonnil [] x C).
    unfold char_tokens in T. cbn [char_in existsb] in T. destruct (utf8_of x) as [|b bs]; [easy|]. discriminate. }
  cbn [meaning]. destruct (x =? 37); [|exact K]. destruct r as [|h [|l r']]; try exact K. destruct (hex2 h l); [discriminate|exact K].
Qed.
Lemma meaning_slash r : meaning (allowed Path) (47 :: r) = Sep 47 :: meaning (allowed Path) r.
Proof. reflexivity. Qed.
Lemma slash_iff s q : scalars s -> quoted_as Path s q -> (exists r, s = 47 :: r) <-> (exists r, q = 47 :: r).
Proof.
  intros S [M L]. assert (Q := ascii_scalars _ (legal_ascii _ _ L)). split; intros [r ->]; rewrite meaning_slash in M.
  - destruct (meaning_sep _ _ _ _ Q M) as (r' & -> & _). eauto.
  - symmetry in M. destruct (meaning_sep _ _ _ _ S M) as (r' & -> & _). eauto.
Qed.
Lemma slashes_iff s q : scalars s -> quoted_as Path s q -> (exists r, q = tx "//" ++ r) -> (exists r, s = tx "//" ++ r).
Proof.
  intros S [M L] [r ->]. change (tx "//" ++ r) with (47 :: 47 :: r) in M. rewrite !meaning_slash in M. symmetry in M.
  destruct (meaning_sep _ _ _ _ S M) as (r' & -> & M'). inversion S; subst. destruct (meaning_sep _ _ _ _ H2 M') as (r2 & -> & _). exists r2. reflexivity.
Qed.
Lemma lone_iff s q : scalars s -> quoted_as Path s q -> s = [47] <-> q = [47].
Proof.
  intros S [M L]. assert (Q := ascii_scalars _ (legal_ascii _ _ L)). split; intros ->; rewrite meaning_slash in M; cbn [meaning] in M.
  - destruct (meaning_sep _ _ _ _ Q M) as (r' & -> & M'). inversion Q; subst. now rewrite (meaning_nil _ _ H2 M').
  - symmetry in M. destruct (meaning_sep _ _ _ _ S M) as (r' & -> & M'). inversion S; subst. now rewrite (meaning_nil _ _ H2 M').
Qed.
Lemma nil_iff p s q : scalars s -> quoted_as p s q -> s = [] <-> q = [].
Proof.
  intros S [M L]. assert (Q := ascii_scalars _ (legal_ascii _ _ L)). split; intros ->; cbn [meaning] in M.
  - exact (meaning_nil _ _ Q M).
  - symmetry in M. exact (meaning_nil _ _ S M).
Qed.
Lemma quote_spec p s : quotable p s -> exists q, urlquote (safe_of p) s = Ok (match s with [] => None | _ => Some q end) /\ joined (match s with [] => None | _ => Some q end) = q /\ quoted_as p s q.
Proof.
  intros [S C]. destruct s as [|c s]; [exists []; repeat split; constructor|].
  destruct (quote_keeps_allowed p (c :: s) S ltac:(discriminate) C) as (q & E & M). exists q. split; [exact E|]. split; [reflexivity|]. split; [exact M|].
  apply (quote_legal p (c :: s)); [now apply scalars_points|exact E].
Qed.
(* the result of quoting, with its meaning *)
Definition quote_to (p : part) (s q : text) : Prop :=
  urlquote (safe_of p) s = Ok (match s with [] => None | _ => Some q end) /\ (s = [] -> q = []) /\ quoted_as p s q.
Lemma quote_to_ex p s : quotable p s -> exists q, quote_to p s q.
Proof. intro Q. destruct (quote_spec p s Q) as (q & E & J & R). exists q. split; [exact E|]. split; [|exact R]. intros ->. symmetry. exact J. Qed.
(* plain texts *)
Lemma utf8_ascii c : 0 <= c < 128 -> utf8_of c = [c].
Proof. intro H. unfold utf8_of, utf8_char. now replace (c <? 128) with true by lia. Qed.
Lemma quote_same safe s : (forall c, In c s -> 0 <= c < 128 /\ c <> 37 /\ unreserved c || char_in c safe = true) -> s <> [] ->
  urlquote safe s = Ok (Some s).
Proof.
  intros H N. rewrite quote_plain; [| | |exact N].
  - do 2 f_equal. clear N. induction s as [|c s IH]; [reflexivity|]. cbn [flat_map]. destruct (H c) as (A & B & C); [now left|].
    rewrite utf8_ascii by exact A. unfold quote_octets. cbn [flat_map app]. unfold quote_octet at 1. rewrite C. cbn [app]. f_equal. apply IH. intros x I. apply H. now right.
  - apply ascii_scalars. apply Forall_forall. intros c I. now apply H.
  - intros a b h l ->. exfalso. destruct (H 37) as (_ & B & _); [apply in_or_app; right; now left|easy].
Qed.

(* ---- hosts ---- *)
Lemma lower_small h : small (lower_ascii h).
Proof.
  intros c I. unfold lower_ascii in I. apply in_map_iff in I. destruct I as (x & <- & _). unfold lower_char.
  destruct ((65 <=? x) && (x <=? 90)) eqn:E; lia.
Qed.
Lemma lower_fixed h : small h -> lower_ascii h = h.
Proof.
  intro S. unfold lower_ascii. rewrite <- (map_id h) at 2. apply map_ext_in. intros x I. apply S in I. unfold lower_char.
  now replace ((65 <=? x) && (x <=? 90)) with false by lia.
Qed.
Lemma lower_twice h : lower_ascii (lower_ascii h) = lower_ascii h. Proof. apply lower_fixed, lower_small. Qed.
Lemma lower_same h h' : same_name h h' /\ small h' <-> h' = lower_ascii h.
Proof.
  split.
  - intros [N S]. apply name_iff in N. rewrite N. symmetry. now apply lower_fixed.
  - intros ->. split; [|apply lower_small]. apply name_iff. symmetry. apply lower_twice.
Qed.
Lemma lower_in c h : In c (lower_ascii h) -> In c h \/ 97 <= c <= 122.
Proof.
  unfold lower_ascii. intro I. apply in_map_iff in I. destruct I as (x & <- & J). unfold lower_char. destruct ((65 <=? x) && (x <=? 90)) eqn:E; [right; lia|now left].
Qed.
Lemma lower_ascii_text h : ascii_text h -> ascii_text (lower_ascii h).
Proof.
  unfold ascii_text. rewrite !Forall_forall. intros A c I. apply lower_in in I. destruct I as [I|I]; [now apply A|lia].
Qed.
Lemma lower_host h : host h -> host (lower_ascii h).
Proof.
  intro H. induction H as [w L N|w r [L N] H IH].
  - apply host_last; [unfold len, lower_ascii in *; now rewrite map_length|]. intro I. apply lower_in in I. destruct I as [I|I]; [easy|lia].
  - unfold lower_ascii. rewrite map_app. cbn [map]. apply host_more; [|exact IH]. split; [unfold len in *; now rewrite map_length|].
    intro I. apply lower_in in I. destruct I as [I|I]; [easy|lia].
Qed.
Section Quote.
  Variable idna_to : text -> res bytes.
  Variable low : text -> text.
  Variable bracket_ok netloc_ok : text -> bool.
  Notation named := (named idna_to low).

  Lemma encode_ascii_host h : ascii_text h -> host h -> idna_encode idna_to h = Ok h.
  Proof.
    intros A H. unfold idna_encode, idna_ascii. rewrite (proj2 (is_ascii_iff h) A), (proj2 (host_iff _) H). reflexivity.
  Qed.
  Lemma named_encode h h' : named h h' -> idna_encode idna_to (lower low h) = Ok h'.
  Proof.
    intros [(A & H & N)|(A & _ & T)].
    - apply lower_same in N. subst h'. unfold lower. rewrite (proj2 (is_ascii_iff h) A).
      apply encode_ascii_host; [now apply lower_ascii_text|now apply lower_host].
    - unfold lower. destruct (is_ascii h) eqn:E; [destruct A; now apply is_ascii_iff|]. destruct T as [(B & H & ->)|(B & T)].
      + now apply encode_ascii_host.
      + unfold idna_encode. destruct (is_ascii (low h)) eqn:F; [destruct B; now apply is_ascii_iff|exact T].
  Qed.
  Lemma named_nil h h' : named h h' -> h = [] <-> h' = [].
  Proof.
    intros [(A & H & N)|(A & B & _)].
    - apply lower_same in N. subst. destruct h; split; easy.
    - split; [intros ->; destruct A; constructor|easy].
  Qed.
  Definition pw (o : option (text * option text)) : option text := match o with Some (_, p) => p | None => None end.
  Definition users (R : part -> text -> text -> Prop) (o o' : option (text * option text)) : Prop :=
    match o, o' with
    | Some (n, None), Some (m, None) => R User n m
    | Some (n, Some p), Some (m, Some q) => R User n m /\ R User p q
    | None, None => True
    | _, _ => False
    end.
  Lemma quote_users o : (forall u, o = Some u -> user_form u) -> (forall n p, o = Some (n, p) -> quotable User n /\ forall w, p = Some w -> quotable User w) ->
    exists o', quoted (safe_of User) (option_map fst o) = Ok (option_map fst o') /\ quoted (safe_of User) (pw o) = Ok (pw o') /\
               users quote_to o o' /\ (forall u, o' = Some u -> fst u <> [] /\ snd u <> Some []).
  Proof.
    intros F Q. destruct o as [[n p]|]; [|exists None; repeat split; discriminate]. destruct (F _ eq_refl) as [[N _] P]. cbn [fst snd] in N, P.
    destruct (Q n p eq_refl) as [QN QP]. destruct (quote_to_ex _ _ QN) as (n' & E & _ & M). assert (TN : quote_to User n n') by (split; [exact E|split; [easy|exact M]]).
    assert (N' : n' <> []) by (intro; apply N; now apply (nil_iff User n n' (proj1 QN) M)). destruct n as [|c n]; [easy|]. destruct p as [p|].
    - destruct (P p eq_refl) as [PN _]. destruct (quote_to_ex _ _ (QP p eq_refl)) as (p' & TP). assert (TP2 := TP). destruct TP2 as (E' & _ & M').
      assert (P' : p' <> []) by (intro; apply PN; now apply (nil_iff User p p' (proj1 (QP p eq_refl)) M')). destruct p as [|d p]; [easy|].
      exists (Some (n', Some p')). cbn [option_map fst quoted pw]. split; [exact E|]. split; [exact E'|]. split; [split; assumption|].
      intros u [= <-]. cbn. split; [exact N'|congruence].
    - exists (Some (n', None)). cbn [option_map fst quoted pw]. split; [exact E|]. split; [reflexivity|]. split; [exact TN|].
      intros u [= <-]. cbn. split; [exact N'|discriminate].
  Qed.
  Lemma scheme_quote s : scheme_form s -> ~ In 43 s -> urlquote [] s = Ok (Some s).
  Proof.
    intros [(c & r & -> & _) F] N. apply quote_same; [|discriminate]. intros x I. assert (J := F x I).
    assert (K : (x =? 43) || (0 <=? x) && (x <? 128) && negb (x =? 37) && unreserved x = true).
    { apply (in_all (fun x => (x =? 43) || (0 <=? x) && (x <? 128) && negb (x =? 37) && unreserved x) scheme_set); [vm_compute; reflexivity|exact J]. }
    destruct (Z.eqb_spec x 43) as [->|D]; [easy|]. cbn [orb] in K. rewrite !andb_true_iff in K. destruct K as [[[A B] C] D']. rewrite D'.
    split; [lia|]. split; [|reflexivity]. apply negb_true_iff in C. lia.
  Qed.
  Lemma normal_path u : r_path (normal u) = if eqb_text (r_query u) [] && eqb_text (r_fragment u) [] && eqb_text (r_path u) [47] then [] else r_path u.
  Proof.
    unfold normal. cbn [r_path]. destruct (r_query u) as [|x q]; [|destruct (r_path u) as [|[|p|p] [|y r]]; try reflexivity; repeat (destruct p as [p|p|]; try reflexivity)].
    destruct (r_fragment u) as [|y f]; [|destruct (r_path u) as [|[|p|p] [|z r]]; try reflexivity; repeat (destruct p as [p|p|]; try reflexivity)].
    cbn [eqb_text eqb_bytes andb]. destruct (eqb_text (r_path u) [47]) eqn:E.
    - apply eqb_text_spec in E. now rewrite E.
    - destruct (r_path u) as [|[|p|p] [|z r]]; try reflexivity; repeat (destruct p as [p|p|]; try reflexivity). discriminate.
  Qed.
  Lemma default_iff s o : s <> [] -> (forall n, o = Some n -> 0 <= n) ->
    option_map dec (default_port s o) =
    if match option_map dec o with
       | Some p => eqb_text s (tx "http") && eqb_text p (tx "80") || eqb_text s (tx "https") && eqb_text p (tx "443")
       | None => false
       end then None else option_map dec o.
  Proof.
    intros _ P. destruct o as [n|]; [|reflexivity]. cbn [option_map default_port]. specialize (P n eq_refl).
    assert (D : forall k, 0 <= k -> eqb_text (dec n) (dec k) = (n =? k)).
    { intros k K. apply eq_true_iff_eq. rewrite eqb_text_spec, Z.eqb_eq. split; [apply dec_inj; assumption|congruence]. }
    change (tx "80") with (dec 80). change (tx "443") with (dec 443). rewrite !D by lia.
    destruct (list_eq_dec Z.eq_dec s (tx "http")) as [->|N].
    - replace (eqb_text (tx "http") (tx "http")) with true by reflexivity. replace (eqb_text (tx "http") (tx "https")) with false by reflexivity.
      cbn [andb]. rewrite orb_false_r. now destruct (n =? 80).
    - replace (eqb_text s (tx "http")) with false by (symmetry; apply not_true_iff_false; rewrite eqb_text_spec; exact N). cbn [andb orb].
      destruct (list_eq_dec Z.eq_dec s (tx "https")) as [->|M].
      + replace (eqb_text (tx "https") (tx "https")) with true by reflexivity. cbn [andb]. now destruct (n =? 443).
      + replace (eqb_text s (tx "https")) with false by (symmetry; apply not_true_iff_false; rewrite eqb_text_spec; exact M). reflexivity.
  Qed.
  Lemma quoted_eq safe s : quoted safe (Some s) = urlquote safe s. Proof. reflexivity. Qed.
  Theorem iri_to_uri_render u n : form u -> ~ In 43 (r_scheme u) -> is_ascii (authority_text u) || netloc_ok (authority_text u) = true ->
    all_parts quotable u -> all_hosts (fun h => exists h', named h h') u ->
    exists v, iri_to_uri idna_to low bracket_ok netloc_ok (render u) n = Ok (render v) /\
              related quote_to named (if n then normal u else u) v.
  Proof.
    intros F NP K (QU & QP & QQ & QF) H. unfold iri_to_uri. rewrite urlsplit_render by assumption. cbn [bind].
    set (sp := Split _ _ _ _ _). cbn [u_scheme u_netloc u_path u_query u_fragment sp].
    assert (SF := F). destruct SF as (S & A & _).
    rewrite scheme_quote by assumption. cbn [bind].
    rewrite (hostname_render low u sp F eq_refl), (userinfo_render u sp F eq_refl), (port_render u sp F eq_refl). cbn [fst snd].
    assert (HH : exists h', (r_auth u <> None -> named (host_of u) h') /\
              exists oh, match (match host_of u with [] => None | h => Some (lower low h) end) with Some h => do b <- idna_encode idna_to h; Ok (Some b) | None => Ok None end = Ok oh /\ joined oh = h' /\ (r_auth u = None -> oh = None)).
    { unfold host_of. destruct (r_auth u) as [a|] eqn:E.
      - destruct (H a E) as [h' N]. exists h'. split; [intros _; exact N|]. destruct (au_host a) as [|c h] eqn:EH.
        + exists None. split; [reflexivity|]. split; [cbn; symmetry; now apply (named_nil _ _ N)|discriminate].
        + rewrite (named_encode _ _ N). exists (Some h'). split; [reflexivity|]. split; [reflexivity|discriminate].
      - exists []. split; [congruence|]. exists None. repeat split; reflexivity. }
    destruct HH as (h' & HN & oh & -> & HJ & HO). cbn [bind].
    assert (UU : exists o', quoted (safe_of User) (user_of u) = Ok (option_map fst o') /\ quoted (safe_of User) (pw_of u) = Ok (pw o') /\
               users quote_to (match r_auth u with Some a => au_user a | None => None end) o' /\ (forall x, o' = Some x -> fst x <> [] /\ snd x <> Some [])).
    { unfold user_of, pw_of. destruct (r_auth u) as [a|] eqn:E; [|exists None; repeat split; discriminate].
      apply (quote_users (au_user a)); [apply A|]. intros x y. now apply QU. }
    destruct UU as (o' & -> & -> & UR & UN). cbn [bind].
    destruct (quote_to_ex _ _ QP) as (p' & TP). destruct (quote_to_ex _ _ QQ) as (q' & TQ). destruct (quote_to_ex _ _ QF) as (f' & TF).
    assert (TP2 := TP). destruct TP2 as (EP & JP & RP). assert (TQ2 := TQ). destruct TQ2 as (EQ & JQ & RQ). assert (TF2 := TF). destruct TF2 as (EF & JF & RF).
    rewrite EP, EQ, EF. cbn [bind].
    assert (JJ : forall s q : text, (s = [] -> q = []) -> joined (match s with [] => None | _ => Some q end) = q) by (intros [|? ?] q X; [symmetry; now apply X|reflexivity]).
    rewrite (JJ _ _ JP), (JJ _ _ JQ), (JJ _ _ JF). cbn [joined].
    set (po := if n then default_port (r_scheme u) (port_of u) else port_of u).
    assert (SN : r_scheme u <> []) by (destruct S as [(c & r & -> & _) _]; discriminate).
    assert (PN : forall m, port_of u = Some m -> 0 <= m).
    { unfold port_of. destruct (r_auth u) as [a|]; [|discriminate]. intros m E. destruct A as [(_ & _ & PF) _]. apply PF in E. lia. }
    assert (PO : (if n && match option_map dec (port_of u) with
       | Some p => eqb_text (r_scheme u) (tx "http") && eqb_text p (tx "80") || eqb_text (r_scheme u) (tx "https") && eqb_text p (tx "443")
       | None => false end then None else option_map dec (port_of u)) = option_map dec po).
    { unfold po. destruct n; cbn [andb]; [|reflexivity]. symmetry. now apply default_iff. }
    rewrite PO. clear PO.
    set (pa := if n && eqb_text q' [] && eqb_text f' [] && eqb_text p' [47] then [] else p').
    set (v := Uri (r_scheme u) (match r_auth u with Some _ => Some (Authority o' h' po) | None => None end) pa q' f').
    exists v.
    assert (NL : netloc_of (option_map fst o') (pw o') oh (option_map dec po) = authority_text v).
    { unfold authority_text, v. cbn [r_auth]. destruct (r_auth u) as [a|] eqn:E.
      - apply (netloc_render (Authority o' h' po)); assumption.
      - cbn [users] in UR. destruct o' as [[? ?]|]; [destruct UR|].
        assert (po = None) as -> by (unfold po, port_of; rewrite E; now destruct n). rewrite (HO eq_refl). reflexivity. }
    assert (QN := nil_iff _ _ _ (proj1 QQ) RQ). assert (FN := nil_iff _ _ _ (proj1 QF) RF). assert (LN := lone_iff _ _ (proj1 QP) RP).
    assert (PA : quote_to Path (r_path (if n then normal u else u)) pa).
    { unfold pa. destruct n; [|exact TP]. rewrite normal_path. cbn [andb].
      replace (eqb_text (r_query u) [] && eqb_text (r_fragment u) [] && eqb_text (r_path u) [47]) with (eqb_text q' [] && eqb_text f' [] && eqb_text p' [47]).
      - destruct (_ && _ && _); [split; [reflexivity|split; [reflexivity|split; [reflexivity|constructor]]]|exact TP].
      - apply eq_true_iff_eq. rewrite !andb_true_iff, !eqb_text_spec, QN, FN, LN. reflexivity. }
    rewrite NL. split.
    - f_equal. apply (urlunsplit_render v). split; [exact SN|]. unfold v. cbn [r_auth r_path r_scheme]. destruct (r_auth u) as [a|] eqn:E.
      + destruct A as [(_ & [HF _] & _) PS]. split.
        * destruct HF as [HF|HF]; [left|now right]. unfold render_auth. cbn [au_user au_host au_port]. intro X. apply app_eq_nil in X. destruct X as [_ X].
          apply app_eq_nil in X. destruct X as [X _]. apply HF. specialize (HN ltac:(discriminate)). unfold host_of in HN. rewrite E in HN. now apply (named_nil _ _ HN).
        * unfold pa. destruct (n && _ && _ && _); [now left|]. destruct PS as [PS|PS]; [left; now apply (nil_iff _ _ _ (proj1 QP) RP)|right].
          now apply (slash_iff _ _ (proj1 QP) RP).
      + destruct A as [NI PS]. split; [exact NI|]. unfold pa. destruct (n && _ && _ && _); [discriminate|]. intros r X.
        destruct (slashes_iff _ _ (proj1 QP) RP) as [r' X']; [eauto|]. now apply (PS r').
    - unfold related, v. cbn [r_scheme r_auth r_path r_query r_fragment].
      split; [now destruct n|]. split; [|split; [exact PA|destruct n; split; assumption]].
      assert (EA : r_auth (if n then normal u else u) = match r_auth u with Some a => Some (Authority (au_user a) (au_host a) po) | None => None end).
      { unfold po, port_of. destruct n; [unfold normal; cbn [r_auth]|]; destruct (r_auth u) as [[? ? ?]|]; reflexivity. }
      rewrite EA. destruct (r_auth u) as [a|] eqn:E; [|exact Logic.I]. cbn [au_user au_host au_port].
      split; [exact UR|]. split; [|reflexivity]. specialize (HN ltac:(discriminate)). unfold host_of in HN. rewrite E in HN. exact HN.
  Qed.
End Quote.
