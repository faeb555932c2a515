(* Percent-encoding: the parts of an IRI. *)
Require Import Verif.Base Verif.BaseFacts Verif.Text Verif.InetModel Verif.CodecModel Verif.CodecSpec Verif.CodecProofs Verif.IriModel Verif.IriSpec Verif.IriProofs Verif.IriUnquote.

Definition punctb (c : Z) : bool := (0 <? c) && (c <? 128) && negb (unreserved c) && negb (c =? 37).
Lemma punctb_spec s : forallb punctb s = true -> Forall punct s.
Proof.
  intros H. rewrite forallb_forall in H. apply Forall_forall. intros x I. specialize (H x I). unfold punctb in H.
  rewrite !andb_true_iff, !negb_true_iff in H. unfold punct. split; [lia|]. split; [tauto|lia].
Qed.
Lemma safe_punct p : Forall punct (safe_of p).
Proof. apply punctb_spec. destruct p; reflexivity. Qed.
Lemma remap_punct p : Forall punct (remap_of p).
Proof. apply punctb_spec. destruct p; reflexivity. Qed.
Lemma repl_remap p r : In r replacements -> ~ In r (remap_of p).
Proof. destruct p; cbn; lia. Qed.
Lemma remap_pairs p c : In c (remap_of p) -> exists r, lookup c (m1 (remap_of p)) = [r] /\ In r replacements /\ lookup r (m2 (remap_of p)) = [c].
Proof.
  destruct p; intros I; cbn in I; repeat (destruct I as [<-|I]; [eexists; split; [reflexivity|]; split; [|reflexivity]; cbn; auto|]); destruct I.
Qed.
Lemma separators_kept p : kept (remap_of p) (preserve_of p) = separators p.
Proof. destruct p; reflexivity. Qed.
Lemma kept_safe p c : In c (kept (remap_of p) (preserve_of p)) -> In c (safe_of p).
Proof. destruct p; cbn; tauto. Qed.


Lemma quote_keeps p s : scalars s -> s <> [] -> no_escape s \/ clean s ->
  exists q, quote_part p s = Ok (Some q) /\ meaning (safe_of p) q = meaning (safe_of p) s.
Proof.
  intros S Ne [N|C]; [apply quote_plain_meaning|apply quote_clean_meaning]; try assumption; apply safe_punct.
Qed.
Lemma uri_readable p b : uri_text p b -> readable (preserve_of p) b.
Proof. apply escaped_mono; intros; tauto. Qed.
Lemma unquote_keeps p b : uri_text p b -> meaning (separators p) (unquote_part p b) = meaning (separators p) b.
Proof.
  intros E. rewrite <- separators_kept. apply unquote_meaning; [apply remap_punct|apply repl_remap|apply remap_pairs|apply uri_readable, E].
Qed.
Lemma round_trip p s : scalars s -> s <> [] -> no_escape s -> Forall (fun c => ~ reserved_code p c) s ->
  exists q, quote_part p s = Ok (Some q) /\ unquote_part p q = s.
Proof.
  intros S Ne N R. apply quote_unquote; [apply remap_punct|apply repl_remap|apply remap_pairs|apply safe_punct|apply kept_safe| |exact N|exact Ne].
  clear N Ne. induction S as [|c s Hc S IH]; [constructor|]. inversion R; subst. constructor; [|auto]. split; [exact Hc|].
  destruct p; cbn [reserved_code preserve_of remap_of] in *; (split; intros; try discriminate; tauto).
Qed.
Lemma back_and_forth p b : uri_text p b -> escaped (fun v => v <> 0) (fun c => c <> 0) b -> b <> [] ->
  exists q, quote_part p (unquote_part p b) = Ok (Some q) /\ meaning (separators p) q = meaning (separators p) b.
Proof.
  intros E N Ne. rewrite <- separators_kept.
  apply unquote_quote; [apply remap_punct|apply repl_remap|apply remap_pairs|apply safe_punct|apply kept_safe|apply uri_readable, E|exact N|exact Ne].
Qed.

(* ---- the result is a URI, whatever was quoted ---- *)
Lemma in_forallb s t : forallb (fun c => char_in c t) s = true -> forall c, In c s -> In c t.
Proof. intros H c I. rewrite forallb_forall in H. apply char_in_iff, H, I. Qed.
Lemma allowed_safe p c : In c (allowed p) <-> In c (safe_of p).
Proof. split; apply in_forallb; destruct p; vm_compute; reflexivity. Qed.
Lemma meaning_ext R R' s : (forall c, In c R <-> In c R') -> meaning R s = meaning R' s.
Proof.
  intros E. assert (C : forall c, char_tokens R c = char_tokens R' c).
  { intros c. unfold char_tokens. replace (char_in c R') with (char_in c R); [reflexivity|]. apply eq_true_iff_eq. rewrite !char_in_iff. apply E. }
  assert (G : forall n s, (length s <= n)%nat -> meaning R s = meaning R' s).
  { induction n as [|n IH]; intros u L; (destruct u as [|c u]; [reflexivity|]); cbn [length] in L; [lia|].
    assert (Plain : char_tokens R c ++ meaning R u = char_tokens R' c ++ meaning R' u) by (rewrite C, IH by lia; reflexivity).
    cbn [meaning]. destruct (c =? 37); [|exact Plain]. destruct u as [|h [|l u]]; try exact Plain.
    destruct (hex2 h l); [|exact Plain]. cbn [length] in L. rewrite IH by lia. reflexivity. }
  apply (G (length s)). lia.
Qed.
Lemma quote_keeps_allowed p s : scalars s -> s <> [] -> no_escape s \/ clean s ->
  exists q, quote_part p s = Ok (Some q) /\ meaning (allowed p) q = meaning (allowed p) s.
Proof.
  intros S Ne C. destruct (quote_keeps p s S Ne C) as (q & Q1 & Q2). exists q. split; [exact Q1|].
  rewrite !(meaning_ext (allowed p) (safe_of p)) by apply allowed_safe. exact Q2.
Qed.
Lemma unreserved_in c : unreserved c = true -> In c unreserved_set.
Proof.
  intros U. assert (R : 0 <= c < 128) by (unfold unreserved in U; lia). apply char_in_iff.
  assert (F : forallb (fun n => implb (unreserved (Z.of_nat n)) (char_in (Z.of_nat n) unreserved_set)) (seq 0 128) = true) by (vm_compute; reflexivity).
  rewrite forallb_forall in F. specialize (F (Z.to_nat c)). rewrite Z2Nat.id in F by lia. rewrite U in F. apply F. apply in_seq. lia.
Qed.
Lemma hex_val_spec c v : hex_val c = Some v <-> digit_value c v.
Proof.
  split.
  - intros H. apply hex_val_char in H as R. split; [lia|]. assert (Rc : 48 <= c <= 102) by lia.
    assert (F : forallb (fun n => match hex_val (Z.of_nat n) with
      | Some v => (at_ (tx "0123456789abcdef") v =? Z.of_nat n) || (at_ (tx "0123456789ABCDEF") v =? Z.of_nat n)
      | None => true end) (seq 0 128) = true) by (vm_compute; reflexivity).
    rewrite forallb_forall in F. specialize (F (Z.to_nat c)). rewrite Z2Nat.id in F by lia. rewrite H in F.
    specialize (F ltac:(apply in_seq; lia)). apply orb_true_iff in F. rewrite !Z.eqb_eq in F. exact F.
  - intros (R & H).
    assert (F : forallb (fun n => match hex_val (at_ (tx "0123456789abcdef") (Z.of_nat n)), hex_val (at_ (tx "0123456789ABCDEF") (Z.of_nat n)) with
       | Some x, Some y => (x =? Z.of_nat n) && (y =? Z.of_nat n) | _, _ => false end) (seq 0 16) = true) by (vm_compute; reflexivity).
    rewrite forallb_forall in F. specialize (F (Z.to_nat v)). rewrite Z2Nat.id in F by lia. specialize (F ltac:(apply in_seq; lia)).
    destruct (hex_val (at_ (tx "0123456789abcdef") v)) as [x|] eqn:Xa; [|discriminate].
    destruct (hex_val (at_ (tx "0123456789ABCDEF") v)) as [y|] eqn:Xb; [|discriminate].
    assert (x = v /\ y = v) by lia. destruct H as [<-|<-]; rewrite ?Xa, ?Xb; f_equal; lia.
Qed.
Lemma hex2_spec h l v : hex2 h l = Some v <-> exists a b, digit_value h a /\ digit_value l b /\ v = 16 * a + b.
Proof.
  unfold hex2. split.
  - destruct (hex_val h) as [a|] eqn:A; [|discriminate]. destruct (hex_val l) as [b|] eqn:B; [|discriminate].
    intros [= <-]. exists a, b. rewrite <- !hex_val_spec. repeat split; auto; lia.
  - intros (a & b & A & B & ->). apply hex_val_spec in A, B. rewrite A, B. f_equal. lia.
Qed.
Lemma octets_legal p o : bytes_ok o -> legal p (quote_octets (safe_of p) o).
Proof.
  induction 1 as [|b o Hb B IH]; [constructor|]. unfold quote_octets. cbn [flat_map]. fold (quote_octets (safe_of p) o). unfold byte_ok in Hb.
  unfold quote_octet. destruct (unreserved b || char_in b (safe_of p)) eqn:E.
  - cbn [app]. apply orb_true_iff in E. rewrite char_in_iff in E. apply esc_char; [| |exact IH].
    + intros ->. destruct E as [E|E]; [discriminate|]. apply (pct_in_punct _ (safe_punct p)), E.
    + destruct E as [E|E]; [left; apply unreserved_in, E|right; apply allowed_safe, E].
  - apply (esc_pct _ _ _ _ b); [apply hex2_pct_upper; lia|exact I|exact IH].
Qed.
Definition is_escape (e : text) : Prop := exists h l v, e = [37; h; l] /\ hex2 h l = Some v.
Lemma restore_legal p s : legal p s -> forall es t, Forall is_escape es -> restore s es = Ok t -> legal p t.
Proof.
  intros L. induction L as [|c r N q L IH|h l v r X q L IH]; intros es t F H.
  - injection H as <-. constructor.
  - rewrite restore_plain in H by exact N. destruct (restore r es) as [u|] eqn:E; [|discriminate]. injection H as <-. apply esc_char; [exact N|exact q|exact (IH es u F E)].
  - cbn [restore] in H. change (37 =? 37) with true in H. cbn iota in H. destruct ((h =? 48) && (l =? 48)).
    + destruct es as [|e es]; [discriminate|]. destruct (restore r es) as [u|] eqn:E; [|discriminate]. injection H as <-.
      inversion F as [|? ? Fe F']; subst. destruct Fe as (h' & l' & v' & -> & X'). apply (esc_pct _ _ h' l' v'); [exact X'|exact I|exact (IH es u F' E)].
    + destruct (hex2_chars h l v X) as (_ & _ & Hh & Hl & _).
      match type of H with ?x = _ => change x with (do t <- restore (h :: l :: r) es; Ok (37 :: t)) in H end.
      rewrite !restore_plain in H by lia. destruct (restore r es) as [u|] eqn:E; [|discriminate]. injection H as <-.
      apply (esc_pct _ _ h l v); [exact X|exact I|exact (IH es u F E)].
Qed.
Lemma extract_escapes s : Forall is_escape (snd (extract s)).
Proof.
  assert (G : forall n s, (length s <= n)%nat -> Forall is_escape (snd (extract s))).
  { induction n as [|n IH]; intros u L; (destruct u as [|c u]; [constructor|]); cbn [length] in L; [lia|].
    assert (Plain : Forall is_escape (snd (let '(t, e) := extract u in (c :: t, e)))).
    { specialize (IH u ltac:(lia)). destruct (extract u). exact IH. }
    cbn [extract]. destruct (c =? 37) eqn:E37; [|exact Plain]. apply Z.eqb_eq in E37. subst c.
    destruct u as [|h [|l u]]; try exact Plain. destruct (hex2 h l) as [v|] eqn:X; [|exact Plain].
    cbn [length] in L. specialize (IH u ltac:(lia)). destruct (extract u) as [t e]. constructor; [|exact IH]. exists h, l, v. auto. }
  apply (G (length s)). lia.
Qed.
Lemma utf8_char_bytes c b : 0 <= c <= 1114111 -> utf8_char c = Ok b -> bytes_ok b.
Proof.
  intros R H. assert (S : scalar c = true).
  { apply scalar_iff. split; [exact R|]. unfold utf8_char in H. destruct (c <? 128) eqn:E; [unfold surrogate; lia|].
    destruct (c <? 2048) eqn:E2; [unfold surrogate; lia|]. destruct (surrogate c); [discriminate|reflexivity]. }
  destruct (utf8_octets c b S H) as [[L ->]|(_ & _ & F)]; [constructor; [unfold byte_ok; lia|constructor]|].
  eapply Forall_impl; [|exact F]. unfold byte_ok. cbn. intros. lia.
Qed.
Lemma encode_bytes s : Forall (fun c => 0 <= c <= 1114111) s -> forall o, encode Utf8 s = Ok o -> bytes_ok o.
Proof.
  induction 1 as [|c s Hc F IH]; intros o H; cbn [encode encode_char] in H; [injection H as <-; constructor|].
  destruct (utf8_char c) as [b|] eqn:U; [|discriminate]. cbn [bind] in H. destruct (encode Utf8 s) as [o'|] eqn:E; [|discriminate].
  injection H as <-. apply Forall_app. split; [exact (utf8_char_bytes c b Hc U)|exact (IH o' eq_refl)].
Qed.

Lemma pct_points n : 0 <= n < 256 -> points (pct n).
Proof.
  intros H. apply Forall_forall. intros x I. destruct (pct_chars n x H I) as [->|U]; [lia|]. unfold unreserved in U. lia.
Qed.
Lemma lenient_points : forall n o, (length o <= n)%nat -> bytes_ok o -> points (utf8_lenient o).
Proof.
  induction n as [|n IH]; intros o L B; (destruct o as [|x o]; [constructor|]); cbn [length] in L; [lia|].
  destruct (lenient_step (x :: o) B) as [(c & b & r & E & S & U & X)|(b0 & r0 & E & Hb & X)]; [discriminate| |]; rewrite X.
  - rewrite E in B. apply Forall_app in B. apply scalar_iff in S as S'. constructor; [lia|]. apply IH; [|tauto].
    apply (f_equal (@length Z)) in E. rewrite app_length in E. cbn [length] in E.
    assert (b <> []) by (destruct (utf8_octets c b S U) as [[_ ->]|(_ & Nb & _)]; [discriminate|exact Nb]).
    destruct b; [congruence|cbn [length] in E; lia].
  - injection E as <- <-. apply Forall_app. split; [apply pct_points; lia|]. apply IH; [lia|]. inversion B; assumption.
Qed.
Lemma unescape_points p s : forall run, points s -> bytes_ok run -> points (unescape_runs (safe_of p) s run).
Proof.
  assert (Fl : forall run, bytes_ok run -> points (flush (safe_of p) run)).
  { intros run B. rewrite flush_eq. unfold try_unescape. rewrite protect_spec by apply safe_punct.
    pose proof (lenient_points (length run) run (le_n _) B) as Q. induction Q as [|c t Hc Q IH]; [constructor|]. cbn [flat_map].
    apply Forall_app. split; [|exact IH]. unfold guard. destruct (char_in c (safe_of p)) eqn:I; [|constructor; [exact Hc|constructor]].
    apply pct_points. apply char_in_iff in I. pose proof (safe_punct p) as Ps. rewrite Forall_forall in Ps. destruct (Ps c I). lia. }
  assert (G : forall n s, (length s <= n)%nat -> forall run, points s -> bytes_ok run -> points (unescape_runs (safe_of p) s run)).
  { induction n as [|n IH]; intros u L run F B; (destruct u as [|c u]; [apply (Fl run B)|]); cbn [length] in L; [lia|].
    inversion F as [|? ? Fc F']; subst.
    assert (Plain : points (flush (safe_of p) run ++ c :: unescape_runs (safe_of p) u [])).
    { apply Forall_app. split; [apply Fl, B|]. constructor; [exact Fc|]. apply IH; [lia|exact F'|constructor]. }
    cbn [unescape_runs]. destruct (c =? 37); [|exact Plain]. destruct u as [|h [|l u]]; try exact Plain.
    destruct (hex2 h l) as [v|] eqn:X; [|exact Plain]. cbn [length] in L. inversion F' as [|? ? _ F'']; subst. inversion F''; subst.
    apply IH; [lia|assumption|]. apply Forall_app. split; [exact B|]. constructor; [|constructor]. apply hex2_chars in X. unfold byte_ok. lia. }
  intros run. apply (G (length s)). lia.
Qed.
Lemma extract_points s : points s -> points (fst (extract s)).
Proof.
  assert (G : forall n s, (length s <= n)%nat -> points s -> points (fst (extract s))).
  { induction n as [|n IH]; intros u L F; (destruct u as [|c u]; [constructor|]); cbn [length] in L; [lia|].
    inversion F as [|? ? Fc F']; subst.
    assert (Plain : points (fst (let '(t, e) := extract u in (c :: t, e)))).
    { specialize (IH u ltac:(lia) F'). destruct (extract u). constructor; [exact Fc|exact IH]. }
    cbn [extract]. destruct (c =? 37); [|exact Plain]. destruct u as [|h [|l u]]; try exact Plain.
    destruct (hex2 h l) as [v|] eqn:X; [|exact Plain]. cbn [length] in L. inversion F' as [|? ? _ F'']; subst. inversion F''; subst.
    specialize (IH u ltac:(lia) ltac:(assumption)). destruct (extract u). constructor; [lia|exact IH]. }
  apply (G (length s)). lia.
Qed.
Lemma quote_legal p s q : points s -> quote_part p s = Ok (Some q) -> legal p q.
Proof.
  intros F H. unfold quote_part, urlquote in H. destruct s as [|c s]; [discriminate|].
  set (u := c :: s) in *. destruct (has_escape u).
  - pose proof (unescape_points p u [] F (Forall_nil _)) as F1. set (w := unescape_runs (safe_of p) u []) in *.
    pose proof (extract_points w F1) as F2. pose proof (extract_escapes w) as X. destruct (extract w) as [t e]. cbn [fst snd] in *.
    destruct (encode Utf8 t) as [o|] eqn:E; [|discriminate]. cbn [bind] in H.
    pose proof (octets_legal p o (encode_bytes t F2 o E)) as L. destruct e as [|x e]; [injection H as <-; exact L|].
    destruct (restore (quote_octets (safe_of p) o) (x :: e)) as [r|] eqn:Er; [|discriminate]. injection H as <-.
    eapply restore_legal; eassumption.
  - destruct (encode Utf8 u) as [o|] eqn:E; [|discriminate]. cbn [bind] in H. injection H as <-.
    apply octets_legal, (encode_bytes u F o E).
Qed.
