(* C92: reading again after an error, and the identifier octet of a forced dump. *)
Require Import Verif.Base Verif.BaseFacts Verif.Text Verif.IntModel Verif.IntSpec Verif.ParserModel Verif.ParserSpec Verif.ParserProofs Verif.ParserFacts Verif.TagSpec Verif.TagProofs
  Verif.BitModel Verif.CodecModel Verif.PrimModel Verif.PrimSpec Verif.PrimSet Verif.PrimDump Verif.ContModel Verif.GenModel Verif.GenProofs.

Definition bad {A B} (p : A * res B) : Prop := exists e, snd p = Err e.

Lemma cached_again o x o' e : cached o x = (o', Err e) -> cached o' x = (o', Err e).
Proof. unfold cached. destruct (c_native (o_cache o)) eqn:E; [discriminate|]. destruct x; [discriminate|]. intros H. injection H as <- <-. now rewrite E. Qed.
Lemma bits_again m k c o cont o' e : bits_native m k c o cont = (o', Err e) -> contents o' = contents o /\ bits_native m k c o' cont = (o', Err e).
Proof.
  unfold bits_native. destruct (c_native (o_cache o)) eqn:E; [discriminate|].
  destruct (merged_int k c (e_indef (o_enc o)) cont) as [[[v n] ub]|x] eqn:M.
  - destruct (int_to_bits v n) eqn:B; [discriminate|]. intros H. injection H as <- <-. split; [reflexivity|].
    change (c_native (o_cache (set_unused o ub))) with (c_native (o_cache o)). rewrite E.
    change (o_enc (set_unused o ub)) with (o_enc o). rewrite M, B. reflexivity.
  - intros H. injection H as <- <-. split; [reflexivity|]. now rewrite E, M.
Qed.
Lemma unicode_again k e c o cont o' x : get_unicode k e c o cont = (o', Err x) -> o' = o.
Proof. unfold get_unicode. destruct (c_unicode (o_cache o)); [discriminate|]. destruct (do b <- merged_bytes k c (e_indef (o_enc o)) cont; decode e b); [discriminate|congruence]. Qed.
Lemma unicode_kept k e c o cont o' s : get_unicode k e c o cont = (o', Ok s) -> get_unicode k e c o' cont = (o', Ok s) /\ contents o' = contents o /\ c_native (o_cache o') = c_native (o_cache o).
Proof.
  unfold get_unicode. destruct (c_unicode (o_cache o)) eqn:E; [intros H; injection H as <- <-; now rewrite E|].
  destruct (do b <- merged_bytes k c (e_indef (o_enc o)) cont; decode e b); [|discriminate]. intros H. injection H as <- <-. repeat split.
Qed.
Lemma time_again k c o cont f o' e : time_native k c o cont f = (o', Err e) -> contents o' = contents o /\ bad (time_native k c o' cont f).
Proof.
  unfold time_native. destruct (c_native (o_cache o)) eqn:E; [discriminate|]. destruct (get_unicode k Latin1 c o cont) as [o1 [s|x]] eqn:U.
  - destruct (f s) eqn:F; [discriminate|]. intros H. injection H as <- <-. apply unicode_kept in U as (U & Hc & Hn). split; [exact Hc|].
    rewrite Hn, E, U, F. eexists. reflexivity.
  - intros H. injection H as <- <-. pose proof (unicode_again _ _ _ _ _ _ _ U). subst o1. split; [reflexivity|]. rewrite E, U. eexists. reflexivity.
Qed.
Lemma cached_kept o x o' e : cached o x = (o', Err e) -> o' = o.
Proof. unfold cached. destruct (c_native (o_cache o)); [discriminate|]. destruct x; [discriminate|]. intros H. injection H as <- _. reflexivity. Qed.
Lemma get_again k c o o' e : get_native k c o = (o', Err e) -> bad (get_native k c o').
Proof.
  destruct (contents o) as [cont|] eqn:Hc.
  - intros H. assert (S : o' = o -> bad (get_native k c o')) by (intros ->; rewrite H; eexists; reflexivity). revert H. unfold get_native at 1. rewrite Hc.
    destruct k as [|m|m|m| | | | | |m|en| |pad|]; intros H; try (apply S; apply cached_kept in H; exact H); try (apply S; unfold raise in H; congruence); try (exfalso; unfold ret in H; discriminate H).
    + apply bits_again in H as [G H]. unfold get_native. rewrite G, Hc, H. eexists. reflexivity.
    + apply S. destruct (c_bytes (o_cache o)); [discriminate|]. destruct (merged_octets _ _ _ _) as [[]|]; [discriminate|]. unfold raise in H. congruence.
    + apply S. destruct (c_native (o_cache o)); [discriminate|]. destruct (merged_int _ _ _ _) as [[[]]|]; [discriminate|]. unfold raise in H. congruence.
    + apply S. destruct (c_bytes (o_cache o)); [discriminate|]. destruct (merged_bytes _ _ _ _); [discriminate|]. unfold raise in H. congruence.
    + exfalso. revert H. assert (G : forall q : obj * native, (let '(o, v) := q in match v with NText s => match tmap_get m s with
        Some n => ret (set_native o (Some (NText n))) (NText n) | None => ret o v end | _ => ret o v end) <> (o', Err e)).
      { intros [o1 v] H. destruct v; try discriminate H. destruct (tmap_get m s); discriminate H. }
      apply G.
    + apply S. destruct (get_unicode _ _ _ _ _) as [o1 [|]] eqn:U; [discriminate|]. apply unicode_again in U. unfold raise in H. congruence.
    + apply time_again in H as [G H]. unfold get_native. rewrite G, Hc. exact H.
    + apply time_again in H as [G H]. unfold get_native. rewrite G, Hc. exact H.
  - unfold get_native at 1. rewrite Hc. destruct k as [|m|m|m| | | | | |m|en| |pad|]; try discriminate.
    + set (w := match m with None => NBits [] | Some _ => PrimModel.NSet [] end). destruct (set_value (KBits m) o w) as [o1 [[]|x]] eqn:S.
      * destruct (contents o1) as [cont|] eqn:C1.
        -- intros H. apply bits_again in H as [G H]. unfold get_native. rewrite G, C1, H. eexists. reflexivity.
        -- intros H. exfalso. revert S C1. clear H. unfold set_value, set_bits, w. destruct m;
             (destruct (bitstring_encode _ _); [|discriminate]); intros S C1; injection S as <-; rewrite store_contents in C1; discriminate.
      * intros H. injection H as <- <-. revert S. unfold set_value, set_bits, w. destruct m as [m|].
        -- destruct (bitstring_encode (size_of (Some m)) (bits_of_set m [])) eqn:B; [discriminate|]. intros S. injection S as <- <-. unfold get_native.
           change (contents (set_native o (Some (PrimModel.NSet [])))) with (contents o). rewrite Hc. unfold set_value, set_bits. rewrite B. eexists. reflexivity.
        -- destruct (bitstring_encode (size_of None) []) eqn:B; [discriminate|]. intros S. injection S as <- <-. unfold get_native.
           change (contents (set_native o (Some (NBits [])))) with (contents o). rewrite Hc. unfold set_value, set_bits. rewrite B. eexists. reflexivity.
    + intros H. injection H as <- <-. unfold get_native. rewrite Hc. eexists. reflexivity.
Qed.

Section Again.
Variable pad : bool.
Lemma read_again f g : (forall o o' x, f o = (o', Err x) -> caught x = true -> bad (g o')) -> forall l i l' d x,
  read_loop pad f i l = (l', d, Some x) -> caught x = true -> forall j, exists y, snd (read_loop pad g j l') = Some y.
Proof.
  intros F. induction l as [|a l IH]; intros i l' d x H C j; [discriminate|]. cbn [read_loop] in H. destruct (lazy pad a) as [o|e] eqn:L.
  - destruct (f o) as [o' [v|e]] eqn:N.
    + destruct (read_loop pad f (i + 1) l) as [[r' vs] e] eqn:R. injection H as <- <- ->. cbn [read_loop lazy].
      destruct (g o') as [o2 [v2|e2]]; [|eexists; reflexivity]. destruct (IH _ _ _ _ R C (j + 1)) as (y & E).
      destruct (read_loop pad g (j + 1) r') as [[r2 vs2] e2]. cbn [snd] in *. eauto.
    + injection H as <- <- <-. destruct (F _ _ _ N C) as (y & E). cbn [read_loop lazy]. destruct (g o') as [o2 [v2|e2]]; [discriminate|]. eexists. reflexivity.
  - injection H as <- <- <-. cbn [read_loop]. rewrite L. eexists. reflexivity.
Qed.
Lemma native_again : forall n o o' x, gnative pad n o = (o', Err x) -> caught x = true -> forall m, bad (gnative pad m o').
Proof.
  induction n as [|n IH]; intros o o' x H C m; [injection H as <- <-; discriminate|].
  destruct m as [|m]; [eexists; reflexivity|]. destruct o as [k c p|w t e ch nat].
  - cbn [gnative] in H. destruct (get_native k c p) as [p' [v|y]] eqn:G; [discriminate|]. injection H as <- <-.
    apply get_again in G as (z & G). cbn [gnative]. destruct (get_native k c p') as [p2 r]. cbn [snd] in G. subst r. eexists. reflexivity.
  - destruct nat as [d|]; [discriminate|]. cbn [gnative] in H. destruct (kids pad true w e ch) as [l|y] eqn:K.
    + destruct (read_loop pad (gnative pad n) 0 l) as [[l' d] [y|]] eqn:R; [|discriminate]. injection H as <- <-. rewrite C. cbn [gnative kids].
      destruct (read_again _ (gnative pad m) (fun o o' x A B => IH o o' x A B m) _ _ _ _ _ R C 0) as (z & E).
      destruct (read_loop pad (gnative pad m) 0 l') as [[l2 d2] e2]. cbn [snd] in E. subst e2. eexists. reflexivity.
    + injection H as <- <-. cbn [gnative]. rewrite K. eexists. reflexivity.
Qed.
Theorem error_again o x : snd (ask_at pad [] QNative o) = Err x -> caught x = true -> bad (ask_at pad [] QNative (fst (ask_at pad [] QNative o))).
Proof.
  cbn [ask_at]. unfold whole_native. destruct (gnative pad (S (height o)) o) as [o' [v|y]] eqn:G; [discriminate|]. cbn [snd fst bind]. intros H C. injection H as ->.
  destruct (native_again _ _ _ _ G C (S (height o'))) as (z & E). destruct (gnative pad (S (height o')) o') as [o2 r]. cbn [snd] in E. subst r. eexists. reflexivity.
Qed.

(* ---- the identifier octet ---- *)
Definition near (o o' : obj) : Prop := o_tagging o' = o_tagging o /\ (e_method (o_enc o') = e_method (o_enc o) \/ e_method (o_enc o') = 0) /\
  (e_header (o_enc o') = e_header (o_enc o) \/ e_header (o_enc o') = None).
Lemma near_store k o a c : o_tagging a = o_tagging o -> o_enc a = o_enc o -> near o (store k a c).
Proof. intros T E. unfold near, store. rewrite E. destruct (constructable k && e_indef (o_enc o)); cbn; auto. Qed.
Lemma set_near k o v o' : set_value k o v = (o', Ok tt) -> near o o'.
Proof.
  assert (St : forall e s o', set_text k e o s = (o', Ok tt) -> near o o').
  { intros e s b. unfold set_text. destruct (encode e s); [|discriminate]. intros H. injection H as <-. now apply near_store. }
  assert (Tm : forall s o', set_time k o s = (o', Ok tt) -> near o o').
  { intros s b. unfold set_time. destruct (set_text k Latin1 o s) as [c [[]|]] eqn:E; [|discriminate]. intros H. injection H as <-. apply St in E. exact E. }
  assert (Si : forall m z o', set_int k m o z = (o', Ok tt) -> near o o').
  { intros m z b. unfold set_int. destruct (int_to_bytes z true None); [|discriminate]. intros H. injection H as <-. now apply near_store. }
  assert (Sb : forall m a z o', o_tagging a = o_tagging o -> o_enc a = o_enc o -> set_bits k m a z = (o', Ok tt) -> near o o').
  { intros m a z b T E. unfold set_bits. destruct (bitstring_encode _ _); [|discriminate]. intros H. injection H as <-. now apply near_store. }
  intros H. unfold set_value in H.
  destruct k as [|m|m|m| | | | | |m|e| |p|];
    repeat match type of H with
    | done _ = _ => injection H as <-; first [now apply near_store | split; [reflexivity|split; left; reflexivity]]
    | fail _ _ = _ => discriminate H
    | set_int _ _ _ _ = _ => apply Si in H; exact H
    | set_bits _ _ _ _ = _ => apply Sb in H; [exact H|reflexivity|reflexivity]
    | set_text _ _ _ _ = _ => apply St in H; exact H
    | set_time _ _ _ = _ => apply Tm in H; exact H
    | context [match ?x with _ => _ end] => destruct x
    end.
Qed.
Lemma shift_id c m t : 0 <= c -> 0 <= m <= 1 -> 0 <= t < 31 -> Z.lor (Z.lor (Z.shiftl c 6) (Z.shiftl m 5)) t = 64 * c + 32 * m + t.
Proof.
  intros C M T. rewrite !Z.shiftl_mul_pow2 by lia. rewrite (lor_disjoint (c * 2 ^ 6) (m * 2 ^ 5) 6) by (change (2 ^ 6) with 64; change (2 ^ 5) with 32; lia).
  rewrite (lor_disjoint _ t 5) by (change (2 ^ 5) with 32; change (2 ^ 6) with 64; lia). change (2 ^ 6) with 64. change (2 ^ 5) with 32. lia.
Qed.
Lemma dumped_id c m t x y : 0 <= c -> 0 <= m <= 1 -> 0 <= t < 31 -> hd 0 (dump_header c m t x ++ y) = 64 * c + 32 * m + t.
Proof.
  intros C M T. unfold dump_header. replace (31 <=? t) with false by (symmetry; apply Z.leb_gt; lia). rewrite shift_id by auto. destruct (len x <=? 127); reflexivity.
Qed.
Lemma ber_id b c m t h x tr : ber b c m t h x tr -> t < 31 -> exists r, h = 64 * c + 32 * m + t :: r.
Proof.
  intros H T. destruct H as [n c m t i l x Hi Hl|n c t i x Hi Hs]; inversion Hi; subst; try lia; cbn [app]; eauto.
Qed.
Lemma same_id_octet c m m' t : 0 <= m <= 1 -> 0 <= m' <= 1 -> 0 <= t < 31 ->
  (64 * c + 32 * m + t) / 64 = (64 * c + 32 * m' + t) / 64 /\ (64 * c + 32 * m + t) mod 32 = (64 * c + 32 * m' + t) mod 32.
Proof. intros M M' T. split; Z.div_mod_to_equations; lia. Qed.
Theorem identifier_kept d s o f out : bytes_ok d -> gload pad d s = Ok o -> snd (ask_at pad [] (QDump f) o) = Ok (ABytes out) ->
  hd 0 out / 64 = hd 0 d / 64 /\ hd 0 out mod 32 = hd 0 d mod 32.
Proof.
  intros Okd L D. unfold gload in L. destruct (parse_ d (len d) 0) as [[i e]|] eqn:E; [|discriminate]. cbn [bind] in L.
  apply (parse_sound [] d) in E as (B & (r & Er) & _); [|exact Okd]. cbn [app] in Er. subst d. destruct (s && _); [discriminate|].
  assert (T : universal pad (i_tag i) <> None) by (unfold gbuild in L; destruct (universal pad (i_tag i)); [discriminate|discriminate L]).
  apply universal_iff in T. pose proof (ber_hdr _ _ _ _ _ _ _ B) as (_ & _ & Hc & Hm & _).
  destruct (ber_id _ _ _ _ _ _ _ B) as (r' & Hh); [lia|]. unfold encoding_of. rewrite Hh. cbn [hd app].
  assert (Dh : forall m x y, m = i_method i \/ m = 0 -> hd 0 (dump_header (i_class i) m (i_tag i) x ++ y) / 64 = (64 * i_class i + 32 * i_method i + i_tag i) / 64 /\
     hd 0 (dump_header (i_class i) m (i_tag i) x ++ y) mod 32 = (64 * i_class i + 32 * i_method i + i_tag i) mod 32).
  { intros m x y M. rewrite dumped_id by lia. apply same_id_octet; lia. }
  assert (Nd : forall w t e ch nat out, t_class t = i_class i -> t_tag t = i_tag i -> t_explicit t = [] -> e_method e = i_method i ->
     (e_header e = None \/ e_header e = Some (i_header i)) -> snd (node_dump w t e ch nat) = Ok out -> 
     hd 0 out / 64 = (64 * i_class i + 32 * i_method i + i_tag i) / 64 /\ hd 0 out mod 32 = (64 * i_class i + 32 * i_method i + i_tag i) mod 32).
  { intros w t e0 ch nat out0 T1 T2 T3 M H N. unfold node_dump, full_header, wrap in N. rewrite T1, T2, T3, M in N. cbn [fold_left] in N.
    destruct (ends_80 (e_header e0)); [injection N as <-; apply Dh; auto|].
    destruct H as [H|H]; rewrite H in N; injection N as <-; [apply Dh; auto|]. rewrite Hh. now split. }
  assert (Bd : forall k o0 out, o_tagging o0 = Tagging (i_class i) (i_tag i) false [] -> (e_method (o_enc o0) = i_method i \/ e_method (o_enc o0) = 0) ->
     (e_header (o_enc o0) = Some (i_header i) \/ e_header (o_enc o0) = None) -> snd (base_dump k o0) = Ok out ->
     hd 0 out / 64 = (64 * i_class i + 32 * i_method i + i_tag i) / 64 /\ hd 0 out mod 32 = (64 * i_class i + 32 * i_method i + i_tag i) mod 32).
  { intros k o0 out0 T1 M H N. unfold base_dump, full_header, wrap in N. rewrite T1 in N. cbn [t_class t_tag t_explicit fold_left] in N.
    destruct (e_contents (o_enc o0)); [|discriminate].
    assert (M' : (if constructable k && e_indef (o_enc o0) then 0 else e_method (o_enc o0)) = i_method i \/ (if constructable k && e_indef (o_enc o0) then 0 else e_method (o_enc o0)) = 0)
      by (destruct (constructable k && e_indef (o_enc o0)); auto).
    destruct (ends_80 (e_header (o_enc o0))); [injection N as <-; apply Dh; exact M'|].
    destruct H as [H|H]; rewrite H in N; injection N as <-; [|apply Dh; exact M']. rewrite Hh. now split. }
  unfold gbuild in L. destruct (universal pad (i_tag i)) as [[k c|w]|]; [| |discriminate]; injection L as <-; cbn [ask_at] in D; unfold gdump in D.
  - set (p := Obj _ _ _ _) in D. destruct (dump k c p f) as [p' res] eqn:Dp. cbn [snd] in D. destruct res as [b|]; [|discriminate]. injection D as <-.
    unfold dump in Dp. destruct (f || ends_80 (e_header (o_enc p))).
    + pose proof (get_frame k c p (i_contents i) eq_refl) as Fr. destruct (get_native k c p) as [o1 [v|]]; [|discriminate]. cbn [fst] in Fr. destruct Fr as (Ft & Fe & _).
      destruct (set_value k (set_contents o1 None) v) as [o2 [[]|]] eqn:Sv; [|discriminate]. apply set_near in Sv as (S1 & S2 & S3).
      change (o_tagging (set_contents o1 None)) with (o_tagging o1) in S1. change (e_method (o_enc (set_contents o1 None))) with (e_method (o_enc o1)) in S2.
      change (e_header (o_enc (set_contents o1 None))) with (e_header (o_enc o1)) in S3. rewrite Ft in S1. rewrite Fe in S2, S3.
      apply (Bd k o2); [exact S1|exact S2|exact S3|now rewrite Dp].
    + apply (Bd k p); auto. now rewrite Dp.
  - destruct ((f || _) && _).
    + cbn [kids] in D. destruct (parse_kids _ _ _ _ _) as [l|]; [|discriminate]. destruct (node_dump _ _ _ _ _) as [n res] eqn:N. cbn [snd] in D.
      destruct res as [b|]; [|discriminate]. injection D as <-. eapply Nd; [..|rewrite N; reflexivity]; auto.
    + destruct (node_dump _ _ _ _ _) as [n res] eqn:N. cbn [snd] in D.
      destruct res as [b|]; [|discriminate]. injection D as <-. eapply Nd; [..|rewrite N; reflexivity]; auto.
Qed.
End Again.
