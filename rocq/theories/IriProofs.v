(* Percent-encoding: what _urlquote keeps. *)
Require Import Verif.Base Verif.BaseFacts Verif.Text Verif.InetModel Verif.CodecModel Verif.CodecSpec Verif.CodecProofs Verif.IriModel Verif.IriSpec.

(* reserved characters: ASCII, no digits or letters, not the percent sign *)
Definition punct (c : Z) : Prop := 0 < c < 128 /\ unreserved c = false /\ c <> 37.

Lemma char_in_iff c s : char_in c s = true <-> In c s.
Proof.
  unfold char_in. rewrite existsb_exists. split; [intros (x & I & E); apply Z.eqb_eq in E; congruence|].
  intros I. exists c. split; [exact I|apply Z.eqb_refl].
Qed.
Lemma char_in_not c s : char_in c s = false <-> ~ In c s.
Proof. rewrite <- char_in_iff. destruct (char_in c s); split; congruence. Qed.

(* ---- hexadecimal digits ---- *)
Lemma digit_bound n : 0 <= n < 256 -> 0 <= n / 16 < 16 /\ 0 <= n mod 16 < 16.
Proof. intros H. split; [split; [apply Z.div_pos; lia|apply Z.div_lt_upper_bound; lia]|apply Z.mod_pos_bound; lia]. Qed.
Lemma hex_digit_val d : 0 <= d < 16 -> hex_val (hex_digit d) = Some d.
Proof.
  intros H. unfold hex_digit, hex_val. destruct (d <? 10) eqn:E.
  - replace ((48 <=? 48 + d) && (48 + d <=? 57)) with true by lia. f_equal. lia.
  - replace ((48 <=? 87 + d) && (87 + d <=? 57)) with false by lia.
    replace ((97 <=? 87 + d) && (87 + d <=? 102)) with true by lia. f_equal. lia.
Qed.
Lemma hex_digit_upper_val d : 0 <= d < 16 -> hex_val (hex_digit_upper d) = Some d.
Proof.
  intros H. unfold hex_digit_upper, hex_val. destruct (d <? 10) eqn:E.
  - replace ((48 <=? 48 + d) && (48 + d <=? 57)) with true by lia. f_equal. lia.
  - replace ((48 <=? 55 + d) && (55 + d <=? 57)) with false by lia.
    replace ((97 <=? 55 + d) && (55 + d <=? 102)) with false by lia.
    replace ((65 <=? 55 + d) && (55 + d <=? 70)) with true by lia. f_equal. lia.
Qed.
Lemma hex2_pct n : 0 <= n < 256 -> hex2 (hex_digit (n / 16)) (hex_digit (n mod 16)) = Some n.
Proof.
  intros H. destruct (digit_bound n H) as [H1 H2]. unfold hex2. rewrite !hex_digit_val by assumption. f_equal.
  pose proof (Z.div_mod n 16). lia.
Qed.
Lemma hex2_pct_upper n : 0 <= n < 256 -> hex2 (hex_digit_upper (n / 16)) (hex_digit_upper (n mod 16)) = Some n.
Proof.
  intros H. destruct (digit_bound n H) as [H1 H2]. unfold hex2. rewrite !hex_digit_upper_val by assumption. f_equal.
  pose proof (Z.div_mod n 16). lia.
Qed.
Lemma hex_val_char c d : hex_val c = Some d -> unreserved c = true /\ 48 <= c <= 102 /\ 0 <= d < 16.
Proof.
  unfold hex_val, unreserved.
  destruct ((48 <=? c) && (c <=? 57)) eqn:E1; [intros [= <-]; cbn [orb]; split; [reflexivity|lia]|].
  destruct ((97 <=? c) && (c <=? 102)) eqn:E2.
  { intros [= <-]. replace ((97 <=? c) && (c <=? 122)) with true by lia. rewrite !orb_true_r. cbn [orb]. split; [reflexivity|lia]. }
  destruct ((65 <=? c) && (c <=? 70)) eqn:E3; [|discriminate].
  intros [= <-]. replace ((65 <=? c) && (c <=? 90)) with true by lia. cbn [orb]. split; [reflexivity|lia].
Qed.
Lemma hex2_chars h l v : hex2 h l = Some v ->
  unreserved h = true /\ unreserved l = true /\ 48 <= h <= 102 /\ 48 <= l <= 102 /\ 0 <= v < 256.
Proof.
  unfold hex2. destruct (hex_val h) as [a|] eqn:A; [|discriminate]. destruct (hex_val l) as [b|] eqn:B; [|discriminate].
  intros [= <-]. apply hex_val_char in A, B. destruct A as (A1 & A2 & A3), B as (B1 & B2 & B3). repeat split; try assumption; lia.
Qed.
Lemma pct_chars n x : 0 <= n < 256 -> In x (pct n) -> x = 37 \/ unreserved x = true.
Proof.
  intros H [<-|[<-|[<-|[]]]]; [auto| |]; right; destruct (digit_bound n H) as [H1 H2];
    (eapply hex_val_char; apply hex_digit_val; assumption).
Qed.

(* ---- replacing characters one after the other ---- *)
Fixpoint lookup (x : Z) (m : list (Z * text)) : text :=
  match m with [] => [x] | (c, t) :: r => if x =? c then t else lookup x r end.
Definition substitute (m : list (Z * text)) (s : text) : text := fold_left (fun s p => replace_char (fst p) (snd p) s) m s.
Lemma lookup_none x m : ~ In x (map fst m) -> lookup x m = [x].
Proof.
  induction m as [|[c t] m IH]; [reflexivity|]. cbn [map fst In lookup]. intros N.
  destruct (x =? c) eqn:E; [exfalso; apply N; left; lia|]. apply IH. tauto.
Qed.
Lemma flat_single m t : (forall x, In x t -> ~ In x (map fst m)) -> flat_map (fun x => lookup x m) t = t.
Proof.
  induction t as [|x t IH]; intros H; [reflexivity|]. cbn [flat_map]. rewrite lookup_none by (apply H; left; reflexivity).
  rewrite IH; [reflexivity|]. intros y I. apply H. right. exact I.
Qed.
Lemma substitute_spec m : (forall p x, In p m -> In x (snd p) -> ~ In x (map fst m)) ->
  forall s, substitute m s = flat_map (fun x => lookup x m) s.
Proof.
  induction m as [|[c t] m IH]; intros H s.
  - cbn. induction s as [|x s IHs]; [reflexivity|]. cbn. f_equal. exact IHs.
  - unfold substitute in *. cbn [fold_left fst snd]. rewrite IH.
    2:{ intros p x I J N. apply (H p x); [right; exact I|exact J|]. right. exact N. }
    unfold replace_char. induction s as [|x s IHs]; [reflexivity|]. cbn [flat_map lookup]. rewrite flat_map_app, IHs. f_equal.
    destruct (x =? c) eqn:E; [|cbn [flat_map]; rewrite app_nil_r; reflexivity].
    apply flat_single. intros y I N. apply (H (c, t) y); [left; reflexivity|exact I|right; exact N].
Qed.
Lemma fold_map {A B C} (f : A -> C -> A) (g : B -> C) l : forall a, fold_left (fun a x => f a (g x)) l a = fold_left f (map g l) a.
Proof. induction l as [|x l IH]; intros a; [reflexivity|]. cbn. apply IH. Qed.
Lemma lookup_map (g : Z -> text) x l : lookup x (map (fun c => (c, g c)) l) = if char_in x l then g x else [x].
Proof.
  induction l as [|c l IH]; [reflexivity|]. cbn [map lookup char_in existsb]. destruct (x =? c) eqn:E; [|exact IH].
  apply Z.eqb_eq in E. subst. reflexivity.
Qed.
(* protecting reserved characters *)
Definition guard (safe : text) (x : Z) : text := if char_in x safe then pct x else [x].
Lemma pct_outside safe n x : Forall punct safe -> 0 <= n < 256 -> In x (pct n) -> ~ In x safe.
Proof.
  intros P H I J. rewrite Forall_forall in P. destruct (P x J) as (P1 & P2 & P3). destruct (pct_chars n x H I); congruence.
Qed.
Lemma protect_spec safe s : Forall punct safe -> protect safe s = flat_map (guard safe) s.
Proof.
  intros P. unfold protect. rewrite (fold_map (fun s p => replace_char (fst p) (snd p) s) (fun c => (c, pct c))).
  change (fold_left _ (map (fun c => (c, pct c)) safe) s) with (substitute (map (fun c => (c, pct c)) safe) s).
  rewrite substitute_spec.
  - apply flat_map_ext. intros x. apply lookup_map.
  - intros p x I J. apply in_map_iff in I. destruct I as (c & <- & I). cbn [snd] in J. rewrite map_map. cbn [fst]. rewrite map_id.
    apply (pct_outside safe c x P); [|exact J]. rewrite Forall_forall in P. destruct (P c I). lia.
Qed.
Lemma guard_pct safe n : Forall punct safe -> 0 <= n < 256 -> flat_map (guard safe) (pct n) = pct n.
Proof.
  intros P H. assert (G : forall t, (forall x, In x t -> ~ In x safe) -> flat_map (guard safe) t = t).
  { induction t as [|x t IH]; intros N; [reflexivity|]. cbn [flat_map]. rewrite IH by (intros y I; apply N; right; exact I).
    unfold guard. replace (char_in x safe) with false; [reflexivity|]. symmetry. apply char_in_not, N. left. reflexivity. }
  apply G. intros x I. apply (pct_outside safe n x P H I).
Qed.

(* ---- UTF-8 with leftovers ---- *)
Lemma scalar_iff c : scalar c = true <-> 0 <= c <= 1114111 /\ surrogate c = false.
Proof. unfold scalar. rewrite !andb_true_iff, negb_true_iff, !Z.leb_le. tauto. Qed.
Lemma utf8_scalar c : scalar c = true -> exists b, utf8_char c = Ok b.
Proof.
  intros H. apply scalar_iff in H. destruct H as [_ H]. unfold utf8_char. rewrite H.
  destruct (c <? 128); [eauto|]. destruct (c <? 2048); [eauto|]. destruct (c <? 65536); eauto.
Qed.
Lemma utf8_octets c b : scalar c = true -> utf8_char c = Ok b ->
  (c < 128 /\ b = [c]) \/ (128 <= c /\ b <> [] /\ Forall (fun x => 128 <= x < 256) b).
Proof.
  intros S H. apply scalar_iff in S. destruct S as [R N]. unfold utf8_char in H. rewrite N in H.
  destruct (c <? 128) eqn:E1; [injection H as <-; left; split; [lia|reflexivity]|].
  right. split; [lia|].
  assert (M : forall x, 128 <= 128 + x mod 64 < 256) by (intros x; pose proof (Z.mod_pos_bound x 64); lia).
  destruct (c <? 2048) eqn:E2; [|destruct (c <? 65536) eqn:E3]; injection H as <-; (split; [discriminate|]).
  - constructor; [|constructor; [apply M|constructor]]. assert (0 <= c / 64 < 32) by (split; [apply Z.div_pos; lia|apply Z.div_lt_upper_bound; lia]). lia.
  - constructor; [|constructor; [apply M|constructor; [apply M|constructor]]].
    assert (0 <= c / 4096 < 16) by (split; [apply Z.div_pos; lia|apply Z.div_lt_upper_bound; lia]). lia.
  - constructor; [|constructor; [apply M|constructor; [apply M|constructor; [apply M|constructor]]]].
    assert (0 <= c / 262144 < 5) by (split; [apply Z.div_pos; lia|apply Z.div_lt_upper_bound; lia]). lia.
Qed.
Lemma lenient_char c b r : scalar c = true -> utf8_char c = Ok b -> utf8_lenient (b ++ r) = c :: utf8_lenient r.
Proof.
  intros S H. apply scalar_iff in S. destruct S as [Hc N]. unfold utf8_char in H. rewrite N in H. unfold surrogate in N.
  destruct (Z.ltb_spec c 128).
  { injection H as <-. cbn [app utf8_lenient]. destruct (Z.ltb_spec c 128); [reflexivity|lia]. }
  destruct (Z.ltb_spec c 2048).
  { injection H as <-. cbn [app utf8_lenient]. destruct (Z.ltb_spec (192 + c / 64) 128); [lia|].
    unfold cont. replace ((194 <=? 192 + c / 64) && (192 + c / 64 <=? 223)) with true by lia.
    replace ((128 <=? 128 + c mod 64) && (128 + c mod 64 <=? 191)) with true by lia. f_equal. lia. }
  destruct (Z.ltb_spec c 65536).
  { injection H as <-. cbn [app utf8_lenient]. destruct (Z.ltb_spec (224 + c / 4096) 128); [lia|].
    unfold cont. replace ((194 <=? 224 + c / 4096) && (224 + c / 4096 <=? 223)) with false by lia.
    replace ((224 <=? 224 + c / 4096) && (224 + c / 4096 <=? 239)) with true by lia.
    match goal with |- (if ?g then _ else _) = _ => replace g with true by lia end. f_equal. lia. }
  injection H as <-. cbn [app utf8_lenient]. destruct (Z.ltb_spec (240 + c / 262144) 128); [lia|].
  unfold cont. replace ((194 <=? 240 + c / 262144) && (240 + c / 262144 <=? 223)) with false by lia.
  replace ((224 <=? 240 + c / 262144) && (240 + c / 262144 <=? 239)) with false by lia.
  match goal with |- (if ?g then _ else _) = _ => replace g with true by lia end. f_equal. lia.
Qed.
Lemma lenient_step l : bytes_ok l -> l <> [] ->
  (exists c b r, l = b ++ r /\ scalar c = true /\ utf8_char c = Ok b /\ utf8_lenient l = c :: utf8_lenient r) \/
  (exists b0 r0, l = b0 :: r0 /\ 128 <= b0 < 256 /\ utf8_lenient l = pct b0 ++ utf8_lenient r0).
Proof.
  intros Hl Hn. destruct l as [|b0 r0]; [easy|]. clear Hn.
  pose proof (Forall_inv Hl) as H0. apply Forall_inv_tail in Hl as Hl0. unfold byte_ok in H0.
  match goal with |- ?X => assert (Good : forall c b r, b0 :: r0 = b ++ r -> scalar c = true -> utf8_char c = Ok b -> X) end.
  { intros c b r E S U. left. exists c, b, r. rewrite E at 2. rewrite (lenient_char c b r S U). auto. }
  destruct (Z.ltb_spec b0 128) as [L|L].
  { apply (Good b0 [b0] r0); [reflexivity|apply scalar_iff; unfold surrogate; lia|].
    unfold utf8_char. destruct (Z.ltb_spec b0 128); [reflexivity|lia]. }
  match goal with |- ?X => assert (Bad : utf8_lenient (b0 :: r0) = pct b0 ++ utf8_lenient r0 -> X) end.
  { intros E. right. exists b0, r0. split; [reflexivity|]. split; [lia|exact E]. }
  match goal with |- ?X => set (aim := X) in *; clearbody aim end.
  cbn [utf8_lenient] in Bad. destruct (Z.ltb_spec b0 128) as [|_]; [lia|].
  destruct r0 as [|b1 r1]; [apply Bad; reflexivity|].
  pose proof (Forall_inv Hl0) as H1. apply Forall_inv_tail in Hl0 as Hl1. unfold byte_ok in H1.
  destruct ((194 <=? b0) && (b0 <=? 223)) eqn:C0.
  { destruct (cont b1) eqn:C1; [|apply Bad; reflexivity]. unfold cont in C1.
    apply (Good ((b0 - 192) * 64 + (b1 - 128)) [b0; b1] r1); [reflexivity|apply scalar_iff; unfold surrogate; lia|].
    unfold utf8_char. set (c := (b0 - 192) * 64 + (b1 - 128)). destruct (Z.ltb_spec c 128); [lia|]. destruct (Z.ltb_spec c 2048); [|lia].
    replace (c / 64) with (b0 - 192) by lia. replace (c mod 64) with (b1 - 128) by lia. repeat f_equal; lia. }
  destruct r1 as [|b2 r2]; [apply Bad; reflexivity|].
  pose proof (Forall_inv Hl1) as H2. apply Forall_inv_tail in Hl1 as Hl2. unfold byte_ok in H2.
  destruct ((224 <=? b0) && (b0 <=? 239)) eqn:C1.
  { destruct (cont b1 && cont b2 && negb ((b0 =? 224) && (b1 <? 160)) && negb ((b0 =? 237) && (159 <? b1))) eqn:C2; [|apply Bad; reflexivity].
    unfold cont in C2. set (c := (b0 - 224) * 4096 + (b1 - 128) * 64 + (b2 - 128)).
    assert (Sc : surrogate c = false) by (unfold surrogate; lia).
    apply (Good c [b0; b1; b2] r2); [reflexivity|apply scalar_iff; split; [lia|exact Sc]|].
    unfold utf8_char. rewrite Sc. destruct (Z.ltb_spec c 128); [lia|]. destruct (Z.ltb_spec c 2048); [lia|]. destruct (Z.ltb_spec c 65536); [|lia].
    replace (c / 4096) with (b0 - 224) by lia. replace (c / 64 mod 64) with (b1 - 128) by lia.
    replace (c mod 64) with (b2 - 128) by lia. repeat f_equal; lia. }
  destruct r2 as [|b3 r3]; [apply Bad; reflexivity|].
  pose proof (Forall_inv Hl2) as H3. unfold byte_ok in H3.
  match type of Bad with ((if ?g then _ else _) = _ -> _) => destruct g eqn:C2; [|apply Bad; reflexivity] end.
  unfold cont in C2. set (c := (b0 - 240) * 262144 + (b1 - 128) * 4096 + (b2 - 128) * 64 + (b3 - 128)).
  assert (Sc : surrogate c = false) by (unfold surrogate; lia).
  apply (Good c [b0; b1; b2; b3] r3); [reflexivity|apply scalar_iff; split; [lia|exact Sc]|].
  unfold utf8_char. rewrite Sc. destruct (Z.ltb_spec c 128); [lia|]. destruct (Z.ltb_spec c 2048); [lia|]. destruct (Z.ltb_spec c 65536); [lia|].
  replace (c / 262144) with (b0 - 240) by lia. replace (c / 4096 mod 64) with (b1 - 128) by lia.
  replace (c / 64 mod 64) with (b2 - 128) by lia. replace (c mod 64) with (b3 - 128) by lia. repeat f_equal; lia.
Qed.

(* ---- meaning ---- *)
Lemma meaning_char R c r : c <> 37 -> meaning R (c :: r) = char_tokens R c ++ meaning R r.
Proof. intros N. cbn [meaning]. replace (c =? 37) with false by lia. reflexivity. Qed.
Lemma meaning_pct R h l v r : hex2 h l = Some v -> meaning R (37 :: h :: l :: r) = Oct v :: meaning R r.
Proof. intros E. cbn [meaning]. change (37 =? 37) with true. cbn iota. rewrite E. reflexivity. Qed.
Lemma escaped_app P Q a b : escaped P Q a -> escaped P Q b -> escaped P Q (a ++ b).
Proof. intros E B. induction E; cbn [app]; [exact B|apply esc_char; assumption|eapply esc_pct; eassumption]. Qed.
Lemma meaning_app P Q R a b : escaped P Q a -> meaning R (a ++ b) = meaning R a ++ meaning R b.
Proof.
  intros E. induction E as [|c r N _ _ IH|h l v r X _ _ IH]; cbn [app]; [reflexivity| |].
  - rewrite !meaning_char by exact N. rewrite IH, app_assoc. reflexivity.
  - rewrite !(meaning_pct R h l v) by exact X. rewrite IH. reflexivity.
Qed.
Lemma escaped_pct (P Q : Z -> Prop) n : 0 <= n < 256 -> P n -> escaped P Q (pct n).
Proof. intros H Pn. apply (esc_pct P Q _ _ n); [apply hex2_pct, H|exact Pn|constructor]. Qed.
Lemma escaped_mono (P Q P' Q' : Z -> Prop) s : (forall v, 0 <= v < 256 -> P v -> P' v) -> (forall c, Q c -> Q' c) -> escaped P Q s -> escaped P' Q' s.
Proof.
  intros HP HQ E. induction E as [|c r N q E IH|h l v r X p E IH]; [constructor|apply esc_char; auto|].
  eapply esc_pct; [exact X| |exact IH]. apply HP; [|exact p]. apply hex2_chars in X. lia.
Qed.
Lemma tokens_ascii R c : 0 <= c < 128 -> ~ In c R -> char_tokens R c = [Oct c].
Proof.
  intros H N. unfold char_tokens. apply char_in_not in N. rewrite N. unfold utf8_of, utf8_char. destruct (Z.ltb_spec c 128); [reflexivity|lia].
Qed.

(* ---- runs of escapes ---- *)
Definition oktext := escaped (fun _ => True) okchar.
Lemma try_unescape_nil safe : try_unescape safe [] = [].
Proof. unfold try_unescape, protect. cbn [utf8_lenient]. induction safe as [|c safe IH]; [reflexivity|]. cbn [fold_left]. exact IH. Qed.
Lemma run_meaning safe : Forall punct safe -> forall n run, (length run <= n)%nat -> Forall (fun v => 0 <= v < 256 /\ v <> 37 /\ v <> 0) run ->
  oktext (try_unescape safe run) /\ meaning safe (try_unescape safe run) = map Oct run.
Proof.
  intros P. induction n as [|n IH]; intros run L F.
  { destruct run; [|cbn in L; lia]. rewrite try_unescape_nil. split; [constructor|reflexivity]. }
  destruct (list_eq_dec Z.eq_dec run []) as [->|Ne]; [rewrite try_unescape_nil; split; [constructor|reflexivity]|].
  assert (B : bytes_ok run) by (eapply Forall_impl; [|exact F]; unfold byte_ok; cbn; intros; lia).
  unfold try_unescape in *. rewrite protect_spec by exact P.
  destruct (lenient_step run B Ne) as [(c & b & r & -> & S & U & E)|(b0 & r0 & -> & Hb & E)]; rewrite E.
  - apply Forall_app in F. destruct F as [Fb Fr].
    assert (Lr : (length r <= n)%nat /\ b <> []).
    { destruct (utf8_octets c b S U) as [[_ ->]|(_ & Nb & _)]; rewrite app_length in L; [split; [cbn in L; lia|discriminate]|].
      split; [|exact Nb]. destruct b; [congruence|cbn in L; lia]. }
    destruct (IH r (proj1 Lr) Fr) as [O M]. rewrite protect_spec in O, M by exact P. cbn [flat_map].
    change (guard safe c) with (if char_in c safe then pct c else [c]).
    assert (U' : utf8_of c = b) by (unfold utf8_of; rewrite U; reflexivity).
    assert (C : c <> 37 /\ c <> 0).
    { destruct (utf8_octets c b S U) as [[_ ->]|(G & _)]; [inversion Fb; subst; tauto|lia]. }
    split; [|]; destruct (char_in c safe) eqn:I.
    + apply escaped_app; [|exact O]. apply escaped_pct; [|exact Logic.I]. apply char_in_iff in I. rewrite Forall_forall in P. destruct (P c I). lia.
    + apply esc_char; [tauto|split; [tauto|exact S]|exact O].
    + apply char_in_iff in I. rewrite Forall_forall in P. destruct (P c I) as (P1 & _).
      change (meaning safe (37 :: hex_digit (c / 16) :: hex_digit (c mod 16) :: flat_map (guard safe) (utf8_lenient r)) = map Oct (b ++ r)).
      rewrite (meaning_pct safe _ _ c) by (apply hex2_pct; lia). rewrite M.
      destruct (utf8_octets c b S U) as [[_ ->]|(G & _)]; [reflexivity|lia].
    + change ([c] ++ flat_map (guard safe) (utf8_lenient r)) with (c :: flat_map (guard safe) (utf8_lenient r)).
      rewrite meaning_char by tauto. rewrite M. unfold char_tokens. rewrite I, U', map_app. reflexivity.
  - inversion F as [|? ? F0 Fr]; subst. cbn in L. destruct (IH r0) as [O M]; [lia|exact Fr|]. rewrite protect_spec in O, M by exact P.
    rewrite flat_map_app, guard_pct by (assumption || lia). split.
    + apply escaped_app; [|exact O]. apply escaped_pct; [lia|exact Logic.I].
    + change (meaning safe (37 :: hex_digit (b0 / 16) :: hex_digit (b0 mod 16) :: flat_map (guard safe) (utf8_lenient r0)) = Oct b0 :: map Oct r0).
      rewrite (meaning_pct safe _ _ b0) by (apply hex2_pct; lia). rewrite M. reflexivity.
Qed.
Definition flush (safe : text) (run : bytes) : text := match run with [] => [] | _ => try_unescape safe run end.
Lemma flush_eq safe run : flush safe run = try_unescape safe run.
Proof.
  destruct run; [|reflexivity]. rewrite try_unescape_nil. reflexivity.
Qed.
Lemma unescape_char safe c r run : c <> 37 -> unescape_runs safe (c :: r) run = flush safe run ++ c :: unescape_runs safe r [].
Proof. intros N. cbn [unescape_runs]. replace (c =? 37) with false by lia. reflexivity. Qed.
Lemma unescape_pct safe h l v r run : hex2 h l = Some v -> unescape_runs safe (37 :: h :: l :: r) run = unescape_runs safe r (run ++ [v]).
Proof. intros E. cbn [unescape_runs]. change (37 =? 37) with true. cbn iota. rewrite E. reflexivity. Qed.
Lemma unescape_meaning safe s : Forall punct safe -> escaped (fun v => v <> 37 /\ v <> 0) okchar s ->
  forall run, Forall (fun v => 0 <= v < 256 /\ v <> 37 /\ v <> 0) run ->
  oktext (unescape_runs safe s run) /\ meaning safe (unescape_runs safe s run) = map Oct run ++ meaning safe s.
Proof.
  intros P E. induction E as [|c r N q E IH|h l v r X p E IH]; intros run F.
  - cbn [unescape_runs]. fold (flush safe run). rewrite flush_eq. cbn [meaning]. rewrite app_nil_r.
    apply (run_meaning safe P (length run)); [lia|exact F].
  - rewrite unescape_char by exact N. rewrite flush_eq. destruct (run_meaning safe P (length run) run (le_n _) F) as [O M].
    destruct (IH [] (Forall_nil _)) as [O' M']. cbn [map app] in M'. split.
    + apply escaped_app; [exact O|]. apply esc_char; assumption.
    + rewrite (meaning_app _ _ safe _ _ O), M, !meaning_char by exact N. rewrite M'. reflexivity.
  - rewrite (unescape_pct safe h l v) by exact X. destruct (hex2_chars h l v X) as (_ & _ & _ & _ & V).
    destruct (IH (run ++ [v])) as [O M]; [apply Forall_app; split; [exact F|constructor; [tauto|constructor]]|].
    split; [exact O|]. rewrite M, (meaning_pct safe h l v) by exact X. rewrite map_app, <- app_assoc. reflexivity.
Qed.

(* ---- quoting octets ---- *)
Lemma quote_octet_cases safe b : Forall punct safe -> 0 <= b < 256 ->
  (quote_octet safe b = [b] /\ b <> 37 /\ 0 < b < 128) \/ (quote_octet safe b = pct_upper b /\ ~ In b safe).
Proof.
  intros P H. unfold quote_octet. destruct (unreserved b) eqn:U; cbn [orb].
  - left. split; [reflexivity|]. unfold unreserved in U. lia.
  - destruct (char_in b safe) eqn:I; [|right; split; [reflexivity|apply char_in_not, I]].
    apply char_in_iff in I. rewrite Forall_forall in P. destruct (P b I) as (P1 & P2 & P3). left. auto.
Qed.
Definition octet_token (safe : text) (b : Z) : token := if char_in b safe then Sep b else Oct b.
Lemma quote_meaning safe b r : Forall punct safe -> 0 <= b < 256 -> meaning safe (quote_octet safe b ++ r) = octet_token safe b :: meaning safe r.
Proof.
  intros P H. unfold octet_token. destruct (quote_octet_cases safe b P H) as [(E & N & L)|(E & N)]; rewrite E.
  - cbn [app]. rewrite meaning_char by exact N. unfold char_tokens. destruct (char_in b safe); [reflexivity|].
    unfold utf8_of, utf8_char. destruct (Z.ltb_spec b 128); [reflexivity|lia].
  - apply char_in_not in N. rewrite N. change (pct_upper b ++ r) with (37 :: hex_digit_upper (b / 16) :: hex_digit_upper (b mod 16) :: r).
    rewrite (meaning_pct safe _ _ b) by (apply hex2_pct_upper, H). reflexivity.
Qed.
Lemma quotes_meaning safe o r : Forall punct safe -> bytes_ok o -> meaning safe (quote_octets safe o ++ r) = map (octet_token safe) o ++ meaning safe r.
Proof.
  intros P B. induction B as [|b o Hb B IH]; [reflexivity|]. unfold quote_octets in *. cbn [flat_map map app]. unfold byte_ok in Hb.
  rewrite <- app_assoc, quote_meaning by (assumption || lia). rewrite IH. reflexivity.
Qed.
Lemma char_octets safe c : Forall punct safe -> scalar c = true -> map (octet_token safe) (utf8_of c) = char_tokens safe c /\ bytes_ok (utf8_of c).
Proof.
  intros P S. destruct (utf8_scalar c S) as (b & U). assert (E : utf8_of c = b) by (unfold utf8_of; rewrite U; reflexivity). rewrite E.
  unfold char_tokens. rewrite E. destruct (utf8_octets c b S U) as [[L ->]|(G & _ & F)].
  - split; [cbn [map]; unfold octet_token; destruct (char_in c safe); reflexivity|].
    apply scalar_iff in S. constructor; [unfold byte_ok; lia|constructor].
  - replace (char_in c safe) with false.
    2:{ symmetry. apply char_in_not. intros I. rewrite Forall_forall in P. destruct (P c I). lia. }
    split; [|eapply Forall_impl; [|exact F]; unfold byte_ok; cbn; intros; lia].
    apply map_ext_in. intros x I. unfold octet_token. replace (char_in x safe) with false; [reflexivity|].
    symmetry. apply char_in_not. intros J. rewrite Forall_forall in P, F. specialize (F x I). destruct (P x J). lia.
Qed.
Lemma encode_cons c s : scalar c = true -> encode Utf8 (c :: s) = do r <- encode Utf8 s; Ok (utf8_of c ++ r).
Proof. intros S. destruct (utf8_scalar c S) as (b & U). cbn [encode encode_char]. unfold utf8_of. rewrite U. reflexivity. Qed.

(* ---- putting escapes back ---- *)
Lemma restore_nil s : forall t, restore s [] = Ok t -> t = s.
Proof.
  assert (G : forall n s t, (length s <= n)%nat -> restore s [] = Ok t -> t = s).
  { induction n as [|n IH]; intros u t L H; (destruct u as [|c u]; [injection H as <-; reflexivity|]); [cbn in L; lia|].
    cbn [restore] in H. cbn [length] in L.
    assert (Plain : (do t <- restore u []; Ok (c :: t)) = Ok t -> t = c :: u).
    { destruct (restore u []) as [v|] eqn:E; [|discriminate]. intros [= <-]. apply IH in E; [congruence|lia]. }
    destruct (c =? 37); [|exact (Plain H)]. destruct u as [|h [|l u]]; try exact (Plain H).
    destruct ((h =? 48) && (l =? 48)); [discriminate|exact (Plain H)]. }
  intros t. apply (G (length s)). lia.
Qed.
Lemma restore_plain c r e : c <> 37 -> restore (c :: r) e = do t <- restore r e; Ok (c :: t).
Proof. intros N. cbn [restore]. replace (c =? 37) with false by lia. reflexivity. Qed.
Lemma bind_assoc_ok (x : res text) a b : (do t <- (do t <- x; Ok (b ++ t)); Ok (a ++ t)) = do t <- x; Ok ((a ++ b) ++ t).
Proof. destruct x; cbn [bind]; [rewrite app_assoc; reflexivity|reflexivity]. Qed.
Lemma upper_digit d : 0 <= d < 16 -> hex_digit_upper d <> 37 /\ (hex_digit_upper d = 48 <-> d = 0).
Proof. intros H. unfold hex_digit_upper. destruct (d <? 10) eqn:E; lia. Qed.
Lemma restore_octet safe b r e : Forall punct safe -> 0 < b < 256 -> restore (quote_octet safe b ++ r) e = do t <- restore r e; Ok (quote_octet safe b ++ t).
Proof.
  intros P H. destruct (quote_octet_cases safe b P) as [(E & N & L)|(E & N)]; [lia| |]; rewrite E.
  - cbn [app]. apply restore_plain, N.
  - destruct (digit_bound b) as [H1 H2]; [lia|]. destruct (upper_digit _ H1) as [U1 U2]. destruct (upper_digit _ H2) as [U3 U4].
    set (h := hex_digit_upper (b / 16)) in *. set (l := hex_digit_upper (b mod 16)) in *. unfold pct_upper. fold h l.
    cbn [app]. cbn [restore]. change (37 =? 37) with true. cbn iota.
    replace ((h =? 48) && (l =? 48)) with false by (pose proof (Z.div_mod b 16); destruct (h =? 48) eqn:X, (l =? 48) eqn:Y; try reflexivity; lia).
    fold (restore (h :: l :: r) e). 
    assert (R2 : restore (h :: l :: r) e = do t <- restore r e; Ok (h :: l :: t)).
    { rewrite restore_plain by exact U1. rewrite restore_plain by exact U3. destruct (restore r e); reflexivity. }
    change (do t <- restore (h :: l :: r) e; Ok (37 :: t)) with (do t <- restore (h :: l :: r) e; Ok (37 :: t)).
    match goal with |- ?x = _ => change x with (do t <- restore (h :: l :: r) e; Ok (37 :: t)) end.
    rewrite R2. destruct (restore r e); reflexivity.
Qed.
Lemma restore_octets safe o r e : Forall punct safe -> Forall (fun b => 0 < b < 256) o ->
  restore (quote_octets safe o ++ r) e = do t <- restore r e; Ok (quote_octets safe o ++ t).
Proof.
  intros P F. induction F as [|b o Hb F IH]; [cbn [quote_octets flat_map app]; destruct (restore r e); reflexivity|].
  unfold quote_octets in *. cbn [flat_map]. rewrite <- app_assoc, restore_octet by assumption. rewrite IH, bind_assoc_ok. reflexivity.
Qed.
Lemma restore_null r x es : restore (pct_upper 0 ++ r) (x :: es) = do t <- restore r es; Ok (x ++ t).
Proof. reflexivity. Qed.
Lemma extract_char c r : c <> 37 -> extract (c :: r) = let '(t, e) := extract r in (c :: t, e).
Proof. intros N. cbn [extract]. replace (c =? 37) with false by lia. reflexivity. Qed.
Lemma extract_pct h l v r : hex2 h l = Some v -> extract (37 :: h :: l :: r) = let '(t, e) := extract r in (0 :: t, [37; h; l] :: e).
Proof. intros E. cbn [extract]. change (37 =? 37) with true. cbn iota. rewrite E. reflexivity. Qed.
Lemma extract_meaning safe s : Forall punct safe -> oktext s ->
  exists t e o out, extract s = (t, e) /\ encode Utf8 t = Ok o /\ restore (quote_octets safe o) e = Ok out /\
    meaning safe out = meaning safe s.
Proof.
  intros P E. induction E as [|c r N [q1 q2] E IH|h l v r X p E IH].
  - exists [], [], [], []. repeat split; reflexivity.
  - destruct IH as (t & e & o & out & I1 & I2 & I3 & I4).
    destruct (char_octets safe c P q2) as [T B]. destruct (utf8_scalar c q2) as (b & U).
    assert (Ub : utf8_of c = b) by (unfold utf8_of; rewrite U; reflexivity).
    assert (F : Forall (fun x => 0 < x < 256) (utf8_of c)).
    { rewrite Ub. destruct (utf8_octets c b q2 U) as [[L ->]|(_ & _ & F)].
      - apply scalar_iff in q2. constructor; [lia|constructor].
      - eapply Forall_impl; [|exact F]. cbn. intros. lia. }
    exists (c :: t), e, (utf8_of c ++ o), (quote_octets safe (utf8_of c) ++ out). rewrite extract_char by exact N. rewrite I1.
    split; [reflexivity|]. rewrite encode_cons by exact q2. rewrite I2. split; [reflexivity|].
    unfold quote_octets in *. rewrite flat_map_app. fold (quote_octets safe (utf8_of c)). rewrite restore_octets by assumption.
    rewrite I3. split; [reflexivity|]. rewrite quotes_meaning by assumption. rewrite T, I4, meaning_char by exact N. reflexivity.
  - destruct IH as (t & e & o & out & I1 & I2 & I3 & I4).
    exists (0 :: t), ([37; h; l] :: e), (0 :: o), ([37; h; l] ++ out). rewrite (extract_pct h l v) by exact X. rewrite I1.
    split; [reflexivity|]. cbn [encode encode_char]. change (utf8_char 0) with (Ok [0]). cbn [bind]. rewrite I2. split; [reflexivity|].
    assert (Q0 : quote_octet safe 0 = pct_upper 0).
    { destruct (quote_octet_cases safe 0 P) as [(_ & _ & L)|(E0 & _)]; [lia|lia|exact E0]. }
    unfold quote_octets in *. cbn [flat_map]. rewrite Q0, restore_null, I3. split; [reflexivity|].
    cbn [app]. rewrite !(meaning_pct safe h l v) by exact X. rewrite I4. reflexivity.
Qed.

(* ---- quoting as a whole ---- *)
Lemma has_escape_spec s : has_escape s = false <-> no_escape s.
Proof.
  induction s as [|c s IH].
  - split; [|reflexivity]. intros _ a b h l E. destruct a; discriminate.
  - cbn [has_escape]. rewrite orb_false_iff, IH. split.
    + intros [H1 H2] a b h l E. destruct a as [|x a]; cbn [app] in E; injection E as -> ->; [|apply (H2 a b h l eq_refl)].
      change (37 =? 37) with true in H1. cbn [andb] in H1. destruct (hex2 h l); [discriminate|reflexivity].
    + intros H. split.
      * destruct (c =? 37) eqn:E; [|reflexivity]. apply Z.eqb_eq in E. subst c. cbn [andb]. destruct s as [|h [|l s]]; try reflexivity.
        rewrite (H [] s h l eq_refl). reflexivity.
      * intros a b h l E. apply (H (c :: a) b h l). rewrite E. reflexivity.
Qed.
Lemma meaning_no_escape R s : no_escape s -> meaning R s = flat_map (char_tokens R) s.
Proof.
  induction s as [|c s IH]; intros N; [reflexivity|].
  assert (N' : no_escape s) by (intros a b h l E; apply (N (c :: a) b h l); rewrite E; reflexivity).
  cbn [meaning flat_map]. rewrite (IH N'). destruct (c =? 37) eqn:E; [|reflexivity]. apply Z.eqb_eq in E. subst c.
  destruct s as [|h [|l s]]; try reflexivity. rewrite (N [] s h l eq_refl). reflexivity.
Qed.
Lemma encode_scalars s : scalars s -> encode Utf8 s = Ok (flat_map utf8_of s).
Proof.
  induction 1 as [|c s S F IH]; [reflexivity|]. rewrite encode_cons by exact S. rewrite IH. reflexivity.
Qed.
Lemma octets_tokens safe s : Forall punct safe -> scalars s ->
  bytes_ok (flat_map utf8_of s) /\ map (octet_token safe) (flat_map utf8_of s) = flat_map (char_tokens safe) s.
Proof.
  intros P F. induction F as [|c s S F [I1 I2]]; [split; [constructor|reflexivity]|]. cbn [flat_map].
  destruct (char_octets safe c P S) as [T B]. split; [apply Forall_app; auto|]. rewrite map_app, T, I2. reflexivity.
Qed.
Lemma quote_plain safe s : scalars s -> no_escape s -> s <> [] -> urlquote safe s = Ok (Some (quote_octets safe (flat_map utf8_of s))).
Proof.
  intros S N Ne. destruct s as [|c s]; [congruence|]. unfold urlquote. apply has_escape_spec in N. rewrite N.
  rewrite encode_scalars by exact S. reflexivity.
Qed.
Lemma quote_plain_meaning safe s : Forall punct safe -> scalars s -> no_escape s -> s <> [] ->
  exists out, urlquote safe s = Ok (Some out) /\ meaning safe out = meaning safe s.
Proof.
  intros P S N Ne. eexists. split; [apply quote_plain; assumption|]. destruct (octets_tokens safe s P S) as [B T].
  pose proof (quotes_meaning safe (flat_map utf8_of s) [] P B) as Q. rewrite app_nil_r in Q. rewrite Q. cbn [meaning]. rewrite app_nil_r, T.
  symmetry. apply meaning_no_escape, N.
Qed.
Lemma quote_clean_meaning safe s : Forall punct safe -> clean s -> s <> [] ->
  exists out, urlquote safe s = Ok (Some out) /\ meaning safe out = meaning safe s.
Proof.
  intros P C Ne. destruct (has_escape s) eqn:H.
  2:{ apply quote_plain_meaning; [exact P| |apply has_escape_spec, H|exact Ne].
      clear Ne. induction C as [|c r N [q1 q2] E IH|h l v r X p E IH]; [constructor|constructor; [exact q2|]|].
      - apply IH. cbn [has_escape] in H. apply orb_false_iff in H. tauto.
      - cbn [has_escape] in H. rewrite X in H. discriminate. }
  destruct (unescape_meaning safe s P C [] (Forall_nil _)) as [O M]. cbn [map app] in M.
  destruct (extract_meaning safe _ P O) as (t & e & o & out & I1 & I2 & I3 & I4).
  exists out. split; [|rewrite I4; exact M]. unfold urlquote. rewrite H, I1, I2. cbn [bind]. destruct s; [congruence|].
  destruct e; [|rewrite I3; reflexivity]. apply restore_nil in I3. rewrite I3. reflexivity.
Qed.
