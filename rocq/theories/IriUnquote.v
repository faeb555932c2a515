(* Percent-encoding: what _urlunquote keeps, and the two functions together. *)
Require Import Verif.Base Verif.BaseFacts Verif.Text Verif.InetModel Verif.CodecModel Verif.CodecSpec Verif.CodecProofs Verif.IriModel Verif.IriSpec Verif.IriProofs.

Lemma combine_fst {A B} (a : list A) : forall (b : list B) x, In x (map fst (combine a b)) -> In x a.
Proof. intros b x H. apply in_map_iff in H. destruct H as ([u v] & <- & H). apply (in_combine_l a b u v H). Qed.
Lemma combine_snd {A B} (a : list A) : forall (b : list B) x, In x (map snd (combine a b)) -> In x b.
Proof. intros b x H. apply in_map_iff in H. destruct H as ([u v] & <- & H). apply (in_combine_r a b u v H). Qed.
Lemma flat_map_id {A} (s : list A) : flat_map (fun x => [x]) s = s.
Proof. induction s as [|x s IH]; [reflexivity|]. cbn. f_equal. exact IH. Qed.
Lemma unreserved_punct x s : Forall punct s -> unreserved x = true -> ~ In x s.
Proof. intros P U I. rewrite Forall_forall in P. destruct (P x I) as (_ & N & _). congruence. Qed.
Lemma pct_in_punct s : Forall punct s -> ~ In 37 s.
Proof. intros P I. rewrite Forall_forall in P. destruct (P 37 I) as (_ & _ & N). congruence. Qed.

Section Unquote.
  Variable remap : text.
  Variable preserve : bool.
  Definition m1 := map (fun xy : Z * Z => (fst xy, [snd xy])) (combine remap replacements).
  Definition m2 := map (fun xy : Z * Z => (snd xy, [fst xy])) (combine remap replacements).
  Hypothesis P : Forall punct remap.
  Hypothesis H2 : forall r, In r replacements -> ~ In r remap.
  Hypothesis H1 : forall c, In c remap -> exists r, lookup c m1 = [r] /\ In r replacements /\ lookup r m2 = [c].

  Lemma m1_fst x : In x (map fst m1) -> In x remap.
  Proof. unfold m1. rewrite map_map. cbn [fst]. apply combine_fst. Qed.
  Lemma m2_fst x : In x (map fst m2) -> In x replacements.
  Proof. unfold m2. rewrite map_map. cbn [fst]. apply combine_snd. Qed.
  Definition hidden (x : Z) : text := if preserve then lookup x m1 else [x].
  Definition shown (x : Z) : text := if preserve then lookup x m2 else [x].
  Lemma hide_spec s : (if preserve then hide remap s else s) = flat_map hidden s.
  Proof.
    unfold hidden. destruct preserve; [|rewrite flat_map_id; reflexivity]. unfold hide.
    rewrite (fold_map (fun s p => replace_char (fst p) (snd p) s) (fun xy : Z * Z => (fst xy, [snd xy]))).
    change (substitute m1 s = flat_map (fun x => lookup x m1) s). apply substitute_spec.
    intros p x I J N. unfold m1 in I. apply in_map_iff in I. destruct I as ([u v] & <- & I). cbn [snd fst] in J.
    destruct J as [<-|[]]. apply m1_fst in N. apply (H2 v); [apply (in_combine_r _ _ _ _ I)|exact N].
  Qed.
  Lemma unhide_spec s : (if preserve then unhide remap s else s) = flat_map shown s.
  Proof.
    unfold shown. destruct preserve; [|rewrite flat_map_id; reflexivity]. unfold unhide.
    rewrite (fold_map (fun s p => replace_char (fst p) (snd p) s) (fun xy : Z * Z => (snd xy, [fst xy]))).
    change (substitute m2 s = flat_map (fun x => lookup x m2) s). apply substitute_spec.
    intros p x I J N. unfold m2 in I. apply in_map_iff in I. destruct I as ([u v] & <- & I). cbn [snd fst] in J.
    destruct J as [<-|[]]. apply m2_fst in N. apply (H2 u); [exact N|apply (in_combine_l _ _ _ _ I)].
  Qed.
  Lemma remap_spec s : remap_chars remap s = flat_map (guard remap) s.
  Proof. apply (protect_spec remap s P). Qed.
  Lemma hidden_other x : ~ In x remap -> hidden x = [x].
  Proof. intros N. unfold hidden. destruct preserve; [|reflexivity]. apply lookup_none. intros I. apply N, m1_fst, I. Qed.
  Lemma shown_other x : (preserve = true -> ~ In x replacements) -> shown x = [x].
  Proof. intros N. unfold shown. destruct preserve; [|reflexivity]. apply lookup_none. intros I. apply (N eq_refl), m2_fst, I. Qed.
  Lemma shown_pct v s : 0 <= v < 256 -> flat_map shown (pct v ++ s) = pct v ++ flat_map shown s.
  Proof.
    intros H. rewrite flat_map_app. f_equal.
    assert (G : forall t, (forall x, In x t -> ~ In x replacements) -> flat_map shown t = t).
    { induction t as [|x t IH]; intros N; [reflexivity|]. cbn [flat_map]. rewrite shown_other by (intros _; apply N; left; reflexivity).
      rewrite IH by (intros y I; apply N; right; exact I). reflexivity. }
    apply G. intros x I J. destruct (pct_chars v x H I) as [->|U].
    - cbn in J. lia.
    - unfold unreserved in U. cbn in J. lia.
  Qed.
  Definition sep_code (c : Z) : Z := hd 0 (lookup c m1).
  Lemma hidden_in c : In c remap -> preserve = true -> hidden c = [sep_code c] /\ In (sep_code c) replacements /\ shown (sep_code c) = [c].
  Proof.
    intros I E. unfold hidden, shown, sep_code. rewrite E. destruct (H1 c I) as (r & R1 & R2 & R3). rewrite R1. cbn [hd]. auto.
  Qed.
  Definition kept : text := if preserve then remap else [].
  Lemma kept_remap c : In c kept -> In c remap /\ preserve = true.
  Proof. unfold kept. destruct preserve; [auto|intros []]. Qed.
  Lemma kept_not c : ~ In c remap -> ~ In c kept.
  Proof. intros N I. apply N, kept_remap, I. Qed.

  (* the octets handed to the decoder *)
  Definition code (t : token) : bytes := match t with Sep c => [sep_code c] | Oct v => guard remap v end.
  Definition tok_ok (t : token) : Prop :=
    match t with
    | Sep c => In c kept
    | Oct v => 0 <= v < 256 /\ v <> 37 /\ (preserve = true -> ~ In v replacements)
    end.
  Definition readable := escaped (fun v => v <> 37 /\ (preserve = true -> ~ In v replacements))
                                 (fun c => 0 <= c < 128 /\ (preserve = true -> ~ In c replacements)).
  Lemma codes b : readable b ->
    flat_map (guard remap) (unquote_octets (flat_map hidden b)) = flat_map code (meaning kept b) /\ Forall tok_ok (meaning kept b).
  Proof.
    intros E. induction E as [|c r N [q1 q2] E [I1 I2]|h l v r X [p1 p2] E [I1 I2]]; [split; [reflexivity|constructor]| |].
    - cbn [flat_map]. rewrite meaning_char by exact N. destruct (char_in c kept) eqn:K.
      + pose proof K as K'. apply char_in_iff in K'. destruct (kept_remap c K') as [R Pr]. destruct (hidden_in c R Pr) as (E1 & E2 & E3).
        unfold char_tokens. rewrite K, E1. cbn [app unquote_octets flat_map].
        assert (S : sep_code c <> 37) by (intros S; rewrite S in E2; cbn in E2; lia).
        replace (sep_code c =? 37) with false by lia. cbn [flat_map]. rewrite I1. split; [|constructor; assumption].
        cbn [code]. unfold guard. replace (char_in (sep_code c) remap) with false; [reflexivity|]. symmetry. apply char_in_not, H2, E2.
      + pose proof K as K'. apply char_in_not in K'. rewrite tokens_ascii by assumption.
        assert (Hc : hidden c = [c]).
        { unfold hidden. destruct preserve eqn:Pr; [|reflexivity]. apply lookup_none. intros I. apply m1_fst in I. apply K'. unfold kept. rewrite Pr. exact I. }
        rewrite Hc. cbn [app unquote_octets]. replace (c =? 37) with false by lia. cbn [flat_map app]. rewrite I1.
        split; [reflexivity|constructor; [|exact I2]]. cbn. repeat split; try assumption; lia.
    - destruct (hex2_chars h l v X) as (U1 & U2 & _ & _ & V). cbn [flat_map].
      rewrite !hidden_other by (try (apply unreserved_punct; assumption); apply pct_in_punct; exact P).
      rewrite (meaning_pct kept h l v) by exact X. cbn [app unquote_octets]. change (37 =? 37) with true. cbn iota. rewrite X.
      cbn [flat_map code]. rewrite I1. split; [reflexivity|constructor; [|exact I2]]. cbn. auto.
  Qed.
  Lemma guard_low v : 0 <= v < 128 -> Forall (fun x => 0 <= x < 128) (guard remap v).
  Proof.
    intros H. unfold guard. destruct (char_in v remap); [|constructor; [exact H|constructor]].
    assert (G : forall d, 0 <= d < 16 -> 0 <= hex_digit d < 128) by (intros d D; unfold hex_digit; destruct (d <? 10) eqn:E; lia).
    destruct (digit_bound v) as [D1 D2]; [lia|].
    unfold pct. constructor; [lia|]. constructor; [apply G, D1|]. constructor; [apply G, D2|constructor].
  Qed.
  Lemma high_tokens T : Forall tok_ok T -> forall b r, flat_map code T = b ++ r -> Forall (fun x => 128 <= x < 256) b ->
    exists T', T = map Oct b ++ T' /\ r = flat_map code T'.
  Proof.
    intros F. induction F as [|t T Ht F IH]; intros b r E B.
    - destruct b; [|discriminate]. exists []. split; [reflexivity|exact (eq_sym E)].
    - destruct b as [|x b]; [exists (t :: T); split; [reflexivity|exact (eq_sym E)]|]. inversion B as [|? ? Bx B']; subst.
      cbn [flat_map app] in E. destruct t as [c|v]; cbn [code tok_ok] in E, Ht.
      + destruct (kept_remap c Ht) as [R Pr]. destruct (hidden_in c R Pr) as (_ & E2 & _). cbn [app] in E. injection E as E0 _.
        rewrite E0 in E2. cbn in E2. lia.
      + destruct (Z.ltb_spec v 128) as [L|L].
        { pose proof (guard_low v) as G. destruct (guard remap v) as [|y g] eqn:Eg; [unfold guard in Eg; destruct (char_in v remap); discriminate|].
          cbn [app] in E. injection E as E0 _. assert (G' := G ltac:(lia)). inversion G'; subst. lia. }
        assert (Ng : guard remap v = [v]).
        { unfold guard. replace (char_in v remap) with false; [reflexivity|]. symmetry. apply char_in_not. intros I.
          rewrite Forall_forall in P. destruct (P v I). lia. }
        rewrite Ng in E. cbn [app] in E. injection E as E0 E1. subst x. destruct (IH b r E1 B') as (T' & T1 & T2).
        exists T'. split; [cbn [map app]; congruence|exact T2].
  Qed.
  Lemma code_bytes T : Forall tok_ok T -> bytes_ok (flat_map code T).
  Proof.
    intros F. induction F as [|t T Ht F IH]; [constructor|]. cbn [flat_map]. apply Forall_app. split; [|exact IH].
    destruct t as [c|v]; cbn [code tok_ok] in *.
    - destruct (kept_remap c Ht) as [R Pr]. destruct (hidden_in c R Pr) as (_ & E2 & _). constructor; [|constructor].
      unfold byte_ok. cbn in E2. lia.
    - destruct (Z.ltb_spec v 128) as [L|L].
      + eapply Forall_impl; [|apply guard_low; lia]. unfold byte_ok. cbn. intros. lia.
      + unfold guard. replace (char_in v remap) with false; [constructor; [unfold byte_ok; lia|constructor]|].
        symmetry. apply char_in_not. intros I. rewrite Forall_forall in P. destruct (P v I). lia.
  Qed.
  Lemma lenient_low a s : Forall (fun x => 0 <= x < 128) a -> utf8_lenient (a ++ s) = a ++ utf8_lenient s.
  Proof.
    induction 1 as [|x a Hx F IH]; [reflexivity|]. cbn [app utf8_lenient]. destruct (Z.ltb_spec x 128); [|lia]. rewrite IH. reflexivity.
  Qed.
  Definition nonzero (t : token) : Prop := match t with Oct v => v <> 0 | Sep _ => True end.
  Lemma tokens_back : forall n T, (length T <= n)%nat -> Forall tok_ok T ->
    let out := flat_map shown (utf8_lenient (flat_map code T)) in
    meaning kept out = T /\ (Forall nonzero T -> clean out).
  Proof.
    induction n as [|n IH]; intros T L F out.
    { destruct T; [|cbn in L; lia]. split; [reflexivity|constructor]. }
    destruct T as [|t T]; [split; [reflexivity|constructor]|]. cbn [length] in L. subst out.
    inversion F as [|? ? Ht F']; subst. destruct t as [c|v].
    - destruct (IH T) as [I1 I2]; [lia|exact F'|]. cbn [flat_map code]. cbn [tok_ok] in Ht.
      destruct (kept_remap c Ht) as [R Pr]. destruct (hidden_in c R Pr) as (_ & E2 & E3).
      rewrite (lenient_low [sep_code c]) by (constructor; [cbn in E2; lia|constructor]). cbn [app flat_map]. rewrite E3. cbn [app].
      assert (C : punct c) by (rewrite Forall_forall in P; apply P, R). destruct C as (C1 & C2 & C3).
      split.
      + rewrite meaning_char by exact C3. unfold char_tokens. replace (char_in c kept) with true by (symmetry; apply char_in_iff, Ht). rewrite I1. reflexivity.
      + intros N. inversion N; subst. apply esc_char; [exact C3| |apply I2; assumption].
        split; [lia|]. apply scalar_iff. unfold surrogate. lia.
    - cbn [tok_ok] in Ht. destruct Ht as (V & V37 & Vr). destruct (Z.ltb_spec v 128) as [Lv|Lv].
      + destruct (IH T) as [I1 I2]; [lia|exact F'|]. cbn [flat_map code]. rewrite lenient_low by (apply guard_low; lia).
        unfold guard. destruct (char_in v remap) eqn:R.
        * rewrite shown_pct by exact V. split.
          -- change (pct v ++ ?x) with (37 :: hex_digit (v / 16) :: hex_digit (v mod 16) :: x).
             rewrite (meaning_pct kept _ _ v) by (apply hex2_pct, V). rewrite I1. reflexivity.
          -- intros N. inversion N; subst. apply escaped_app; [apply escaped_pct; [exact V|split; assumption]|apply I2; assumption].
        * cbn [app flat_map]. rewrite shown_other by exact Vr. cbn [app]. apply char_in_not in R. split.
          -- rewrite meaning_char by exact V37. rewrite tokens_ascii by (try apply kept_not; assumption || lia). rewrite I1. reflexivity.
          -- intros N. inversion N; subst. apply esc_char; [exact V37| |apply I2; assumption].
             split; [assumption|]. apply scalar_iff. unfold surrogate. lia.
      + assert (Gv : guard remap v = [v]).
        { unfold guard. replace (char_in v remap) with false; [reflexivity|]. symmetry. apply char_in_not. intros I.
          rewrite Forall_forall in P. destruct (P v I). lia. }
        assert (Fl : flat_map code (Oct v :: T) = v :: flat_map code T) by (cbn [flat_map code]; rewrite Gv; reflexivity).
        destruct (lenient_step (flat_map code (Oct v :: T))) as [(c & b & r & E & S & U & X)|(b0 & r0 & E & Hb & X)].
        { apply code_bytes, F. } { rewrite Fl. discriminate. }
        * destruct (utf8_octets c b S U) as [[Lc ->]|(Gc & Nb & Fb)].
          { rewrite Fl in E. injection E as -> _. lia. }
          destruct (high_tokens _ F b r E Fb) as (T' & E1 & ->). rewrite E1 in F. apply Forall_app in F. destruct F as [_ FT'].
          destruct (IH T') as [I1 I2]; [|exact FT'|].
          { apply (f_equal (@length token)) in E1. rewrite app_length, map_length in E1. cbn [length] in E1. destruct b; [congruence|cbn in E1; lia]. }
          rewrite X. cbn [flat_map]. rewrite shown_other by (intros _ J; cbn in J; lia). cbn [app].
          assert (Nc : ~ In c remap) by (intros J; rewrite Forall_forall in P; destruct (P c J); lia). split.
          -- rewrite meaning_char by lia. rewrite I1, E1. unfold char_tokens.
             replace (char_in c kept) with false by (symmetry; apply char_in_not, kept_not, Nc). unfold utf8_of. rewrite U. reflexivity.
          -- intros N. rewrite E1 in N. apply Forall_app in N. destruct N as [_ N]. apply esc_char; [lia| |apply I2, N].
             split; [lia|exact S].
        * rewrite Fl in E. injection E as <- <-. rewrite X. rewrite shown_pct by exact V.
          destruct (IH T) as [I1 I2]; [lia|exact F'|]. split.
          -- change (pct v ++ ?x) with (37 :: hex_digit (v / 16) :: hex_digit (v mod 16) :: x).
             rewrite (meaning_pct kept _ _ v) by (apply hex2_pct, V). rewrite I1. reflexivity.
          -- intros N. inversion N; subst. apply escaped_app; [apply escaped_pct; [exact V|split; assumption]|apply I2; assumption].
  Qed.
  Lemma unquote_form s : urlunquote remap preserve s = flat_map shown (utf8_lenient (flat_map (guard remap) (unquote_octets (flat_map hidden s)))).
  Proof.
    destruct s as [|c s]; [reflexivity|]. unfold urlunquote. rewrite hide_spec, remap_spec, unhide_spec. reflexivity.
  Qed.
  Lemma unquote_meaning b : readable b -> meaning kept (urlunquote remap preserve b) = meaning kept b.
  Proof.
    intros E. rewrite unquote_form. destruct (codes b E) as [C F]. rewrite C. apply (tokens_back (length (meaning kept b))); [lia|exact F].
  Qed.
  Lemma unquote_clean b : readable b -> escaped (fun v => v <> 0) (fun c => c <> 0) b -> clean (urlunquote remap preserve b).
  Proof.
    intros E N. rewrite unquote_form. destruct (codes b E) as [C F]. rewrite C. apply (tokens_back (length (meaning kept b))); [lia|exact F|].
    clear C F. induction E as [|c r N' [q1 q2] E IH|h l v r X [p1 p2] E IH]; [constructor| |].
    - inversion N; subst; [|congruence]. rewrite meaning_char by exact N'. apply Forall_app. split; [|auto].
      unfold char_tokens. destruct (char_in c kept); [constructor; [exact I|constructor]|]. unfold utf8_of, utf8_char.
      destruct (Z.ltb_spec c 128); [|lia]. constructor; [assumption|constructor].
    - inversion N as [|? ? N37|? ? v' ? X' N0]; subst; [congruence|]. rewrite (meaning_pct kept h l v) by exact X.
      assert (v' = v) by congruence. subst v'. constructor; [exact N0|auto].
  Qed.

  (* quoting and then unquoting *)
  Variable safe : text.
  Hypothesis Ps : Forall punct safe.
  Hypothesis Sub : forall c, In c kept -> In c safe.
  Definition data_ok (c : Z) : Prop := scalar c = true /\ (preserve = true -> ~ In c replacements) /\ (preserve = false -> ~ In c remap).
  Lemma quoted_octet b r : 0 <= b < 256 -> (preserve = false -> ~ In b remap) ->
    flat_map (guard remap) (unquote_octets (flat_map hidden (quote_octet safe b ++ r))) =
    hidden b ++ flat_map (guard remap) (unquote_octets (flat_map hidden r)).
  Proof.
    intros H N. rewrite flat_map_app. destruct (char_in b kept) eqn:K.
    - apply char_in_iff in K. destruct (kept_remap b K) as [R Pr]. destruct (hidden_in b R Pr) as (E1 & E2 & E3).
      assert (Q : quote_octet safe b = [b]).
      { unfold quote_octet. replace (char_in b safe) with true by (symmetry; apply char_in_iff, Sub, K). rewrite orb_true_r. reflexivity. }
      rewrite Q. cbn [flat_map]. rewrite E1. cbn [app unquote_octets].
      assert (S : sep_code b <> 37) by (intros S; rewrite S in E2; cbn in E2; lia).
      replace (sep_code b =? 37) with false by lia. cbn [flat_map]. unfold guard at 1.
      replace (char_in (sep_code b) remap) with false; [reflexivity|]. symmetry. apply char_in_not, H2, E2.
    - apply char_in_not in K. assert (R : ~ In b remap).
      { unfold kept in K. destruct preserve; [exact K|apply N; reflexivity]. }
      rewrite (hidden_other b R). assert (Gb : guard remap b = [b]) by (unfold guard; apply char_in_not in R; rewrite R; reflexivity).
      destruct (quote_octet_cases safe b Ps H) as [(E & N37 & L)|(E & _)]; rewrite E.
      + cbn [flat_map]. rewrite (hidden_other b R). cbn [app unquote_octets]. replace (b =? 37) with false by lia. cbn [flat_map]. rewrite Gb. reflexivity.
      + pose proof (hex2_pct_upper b H) as X. destruct (hex2_chars _ _ _ X) as (U1 & U2 & _). unfold pct_upper. cbn [flat_map].
        rewrite !hidden_other by (try (apply unreserved_punct; assumption); apply pct_in_punct; exact P).
        cbn [app unquote_octets]. change (37 =? 37) with true. cbn iota. rewrite X. cbn [flat_map]. rewrite Gb. reflexivity.
  Qed.
  Lemma quoted_octets o : bytes_ok o -> Forall (fun b => preserve = false -> ~ In b remap) o ->
    flat_map (guard remap) (unquote_octets (flat_map hidden (quote_octets safe o))) = flat_map hidden o.
  Proof.
    intros B F. induction o as [|b o IH]; [reflexivity|]. inversion B; inversion F; subst. unfold quote_octets. cbn [flat_map].
    rewrite quoted_octet by assumption. fold (quote_octets safe o). rewrite IH by assumption. reflexivity.
  Qed.
  Lemma quote_unquote s : Forall data_ok s -> no_escape s -> s <> [] ->
    exists q, urlquote safe s = Ok (Some q) /\ urlunquote remap preserve q = s.
  Proof.
    intros D N Ne. assert (S : scalars s) by (eapply Forall_impl; [|exact D]; unfold data_ok; cbn; tauto).
    exists (quote_octets safe (flat_map utf8_of s)). split; [apply quote_plain; assumption|].
    rewrite unquote_form, quoted_octets.
    - clear N Ne S. induction D as [|c s (D1 & D2 & D3) D IH]; [reflexivity|]. cbn [flat_map]. rewrite flat_map_app.
      destruct (utf8_scalar c D1) as (b & U). assert (E : utf8_of c = b) by (unfold utf8_of; rewrite U; reflexivity). rewrite E.
      destruct (utf8_octets c b D1 U) as [[L ->]|(G & Nb & F)].
      + cbn [flat_map]. rewrite app_nil_r. apply scalar_iff in D1. destruct (char_in c kept) eqn:K.
        * apply char_in_iff in K. destruct (kept_remap c K) as [R Pr]. destruct (hidden_in c R Pr) as (E1 & E2 & E3).
          rewrite E1. rewrite lenient_low by (constructor; [cbn in E2; lia|constructor]). rewrite flat_map_app. cbn [flat_map].
          rewrite E3, IH. reflexivity.
        * apply char_in_not in K. assert (R : ~ In c remap).
          { unfold kept in K. destruct preserve; [exact K|apply D3; reflexivity]. }
          rewrite (hidden_other c R). rewrite lenient_low by (constructor; [lia|constructor]). rewrite flat_map_app. cbn [flat_map].
          rewrite shown_other by exact D2. rewrite IH. reflexivity.
      + replace (flat_map hidden b) with b.
        * rewrite (lenient_char c b _ D1 U). cbn [flat_map]. rewrite shown_other by exact D2. rewrite IH. reflexivity.
        * clear - F P. induction F as [|x b Hx F IH]; [reflexivity|]. cbn [flat_map]. rewrite hidden_other; [rewrite <- IH; reflexivity|].
          intros I. rewrite Forall_forall in P. destruct (P x I). lia.
    - apply (octets_tokens safe s Ps S).
    - clear N Ne S. induction D as [|c s (D1 & D2 & D3) D IH]; [constructor|]. cbn [flat_map]. apply Forall_app. split; [|exact IH].
      destruct (utf8_scalar c D1) as (b & U). assert (E : utf8_of c = b) by (unfold utf8_of; rewrite U; reflexivity). rewrite E.
      destruct (utf8_octets c b D1 U) as [[L ->]|(G & Nb & F)]; [constructor; [exact D3|constructor]|].
      eapply Forall_impl; [|exact F]. cbn. intros x Hx _ I. rewrite Forall_forall in P. destruct (P x I). lia.
  Qed.
  (* unquoting and then quoting *)
  Definition weaken (t : token) : token := match t with Sep c => if char_in c kept then Sep c else Oct c | Oct v => Oct v end.
  Lemma meaning_weaken s : meaning kept s = map weaken (meaning safe s).
  Proof.
    assert (C : forall c, char_tokens kept c = map weaken (char_tokens safe c)).
    { intros c. unfold char_tokens. destruct (char_in c kept) eqn:K.
      - rewrite (proj2 (char_in_iff c safe)) by (apply Sub, char_in_iff, K). cbn [map weaken]. rewrite K. reflexivity.
      - destruct (char_in c safe) eqn:S; [|rewrite map_map; reflexivity]. cbn [map weaken]. rewrite K.
        apply char_in_iff in S. rewrite Forall_forall in Ps. destruct (Ps c S). unfold utf8_of, utf8_char. destruct (Z.ltb_spec c 128); [reflexivity|lia]. }
    assert (G : forall n s, (length s <= n)%nat -> meaning kept s = map weaken (meaning safe s)).
    { induction n as [|n IH]; intros u L; (destruct u as [|c u]; [reflexivity|]); cbn [length] in L; [lia|].
      assert (Plain : char_tokens kept c ++ meaning kept u = map weaken (char_tokens safe c ++ meaning safe u)).
      { rewrite map_app, C, IH by lia. reflexivity. }
      cbn [meaning]. destruct (c =? 37); [|exact Plain]. destruct u as [|h [|l u]]; try exact Plain.
      destruct (hex2 h l); [|exact Plain]. cbn [map weaken]. cbn [length] in L. rewrite IH by lia. reflexivity. }
    apply (G (length s)). lia.
  Qed.
  Lemma unquote_nonempty b : readable b -> b <> [] -> urlunquote remap preserve b <> [].
  Proof.
    intros E Ne H. pose proof (unquote_meaning b E) as M. rewrite H in M. destruct E as [|c r N [q1 q2] E|h l v r X p E]; [congruence| |].
    - rewrite meaning_char in M by exact N. unfold char_tokens in M. destruct (char_in c kept); [discriminate|].
      unfold utf8_of, utf8_char in M. destruct (Z.ltb_spec c 128); [discriminate|lia].
    - rewrite (meaning_pct kept h l v) in M by exact X. discriminate.
  Qed.
  Lemma unquote_quote b : readable b -> escaped (fun v => v <> 0) (fun c => c <> 0) b -> b <> [] ->
    exists q, urlquote safe (urlunquote remap preserve b) = Ok (Some q) /\ meaning kept q = meaning kept b.
  Proof.
    intros E N Ne. destruct (quote_clean_meaning safe _ Ps (unquote_clean b E N) (unquote_nonempty b E Ne)) as (q & Q1 & Q2).
    exists q. split; [exact Q1|]. rewrite meaning_weaken, Q2, <- meaning_weaken. apply unquote_meaning, E.
  Qed.
End Unquote.
