(* The exceptions of primitive values and of values without a class. *)
Require Import Verif.Base Verif.BaseFacts Verif.IntModel Verif.ParserModel Verif.ParserSpec Verif.ParserProofs Verif.ParserFacts Verif.Text Verif.CodecModel Verif.CodecProofs Verif.BitModel Verif.TimeModel
  Verif.PrimModel Verif.PrimSpec Verif.PrimRead Verif.PrimHist Verif.PrimSide Verif.ContModel Verif.ParsModel Verif.GenModel Verif.ReadModel Verif.RaiseSpec.

Lemma bind_err {A B} (x : res A) (f : A -> res B) e : bind x f = Err e -> x = Err e \/ exists a, x = Ok a /\ f a = Err e.
Proof. destruct x as [a|y]; cbn; intros H; [right; eauto|left; congruence]. Qed.

Definition info_ok (i : info) : Prop := bytes_ok (i_header i) /\ bytes_ok (i_contents i) /\ bytes_ok (i_trailer i).
Lemma parse_at d p i e : bytes_ok d -> 0 <= p <= len d -> parse_ d (len d) p = Ok (i, e) -> info_ok i /\ 0 <= e <= len d.
Proof.
  intros B L H. assert (E : d = firstn (Z.to_nat p) d ++ skipn (Z.to_nat p) d) by (symmetry; apply firstn_skipn).
  assert (P : p = len (firstn (Z.to_nat p) d)). { unfold len in *. rewrite firstn_length. lia. }
  set (a := firstn (Z.to_nat p) d) in *. set (b := skipn (Z.to_nat p) d) in *. clearbody a b. subst d p.
  apply parse_sound in H as (_ & (r & ->) & ->); auto. apply bytes_ok_app in B as [_ B].
  apply bytes_ok_app in B as [B _]. unfold encoding_of in B. apply bytes_ok_app in B as [B1 B]. apply bytes_ok_app in B as [B2 B3].
  split; [now repeat split|]. rewrite !len_app. pose proof (len_nonneg a). pose proof (len_nonneg (encoding_of i)). pose proof (len_nonneg r). lia.
Qed.
Lemma parse_0 d i e : bytes_ok d -> parse_ d (len d) 0 = Ok (i, e) -> info_ok i.
Proof. intros B H. apply parse_at in H as [H _]; auto. pose proof (len_nonneg d). lia. Qed.
Lemma parse_0_err d e : bytes_ok d -> parse_ d (len d) 0 = Err e -> e = ValueError.
Proof. intros B H. eapply parse__err; eauto. lia. Qed.

(* ---- primitive values ---- *)
Lemma bit_err c e : bit_chunk c = Err e -> e = ValueError \/ e = IndexError.
Proof. destruct c as [|x c]; intros H; [right; cbn in H; congruence|left]. eapply bit_chunk_err; [|exact H]. discriminate. Qed.
Lemma octetbits_err c e : octetbits_chunk c = Err e -> e = ValueError \/ e = IndexError.
Proof.
  unfold octetbits_chunk. destruct c as [|u b]; intros H; [right; congruence|left].
  destruct (u =? 0); [discriminate|]. destruct (len _ =? 1); [congruence|]. destruct (7 <? u); [congruence|].
  apply bind_err in H as [H|(x & _ & H)]; [|discriminate]. eapply int_to_bits_err; eauto.
Qed.
Lemma chunks_err l : forall v t u e, chunks_int l v t u = Err e -> e = ValueError.
Proof. induction l as [|[[c b] ub] l IH]; cbn; intros v t u e H; [discriminate|]. destruct (negb _); [congruence|]. eauto. Qed.
Lemma unused_err l : forall u e, octet_unused l u = Err e -> e = ValueError.
Proof. induction l as [|[b v] l IH]; cbn; intros u e H; [discriminate|]. destruct u; [eauto|congruence]. Qed.
Lemma merged_int_err k c b x e : k_explicit c = [] -> bytes_ok x -> merged_int k c b x = Err e -> e = ValueError \/ e = IndexError.
Proof.
  intros X B H. unfold merged_int in H. destruct b; [|now apply bit_err in H].
  apply bind_err in H as [H|(l & _ & H)]; [|left; eapply chunks_err; eauto].
  eapply (merge_err _ (fun e => e = ValueError \/ e = IndexError)) in H; auto.
  intros b y z _ K. unfold int_chunk in K. destruct b; [discriminate|]. apply bind_err in K as [K|(? & _ & K)]; [|discriminate]. now apply bit_err in K.
Qed.
Lemma merged_octets_err k c b x e : k_explicit c = [] -> bytes_ok x -> merged_octets k c b x = Err e -> e = ValueError \/ e = IndexError.
Proof.
  intros X B H. unfold merged_octets in H. destruct b; [|now apply octetbits_err in H].
  apply bind_err in H as [H|(l & _ & H)].
  - eapply (merge_err _ (fun e => e = ValueError \/ e = IndexError)) in H; auto.
    intros b y z _ K. unfold octet_chunk in K. apply bind_err in K as [K|(? & _ & K)]; [|discriminate]. now apply octetbits_err in K.
  - apply bind_err in H as [H|(? & _ & H)]; [|discriminate]. left. eapply unused_err; eauto.
Qed.
Lemma pmerged_err bits c b x e : k_explicit c = [] -> bytes_ok x -> pmerged bits c b x = Err e -> e = ValueError \/ (bits = true /\ e = IndexError).
Proof.
  intros X B H. unfold pmerged in H. eapply (merge_err _ (fun e => e = ValueError \/ (bits = true /\ e = IndexError))) in H; auto.
  intros b' y z _ K. unfold pchunk in K. destruct bits; [|discriminate]. destruct y as [|u r]; [right; split; congruence|].
  left. destruct (u =? 0); congruence.
Qed.

Lemma zone_err z e : zone_of z = Err e -> e = ValueError.
Proof. unfold zone_of. repeat match goal with |- context [match ?x with _ => _ end] => destruct x end; intros H; try discriminate; try congruence. Qed.
Lemma datetime_err f tz e : mk_datetime f tz = Err e -> e = ValueError.
Proof. unfold mk_datetime. destruct (_ && _); congruence. Qed.
Lemma extended_err f tz e : mk_extended f tz = Err e -> e = ValueError.
Proof.
  unfold mk_extended. destruct (negb _); [congruence|]. intros H. apply bind_err in H as [H|(? & _ & H)]; [|discriminate]. eapply datetime_err; eauto.
Qed.
Lemma gentime_err s e : gentime_native s = Err e -> e = ValueError \/ e = OverflowError.
Proof.
  unfold gentime_native. intros H. apply bind_err in H as [H|(p & _ & H)].
  - left. unfold gen_parse in H. destruct (gen_match s) as [[[[[[[[y mo] d] h] mi] sec] fr] z]|]; [|congruence].
    apply bind_err in H as [H|(? & _ & H)]; [|discriminate]. eapply zone_err; eauto.
  - apply bind_err in H as [H|(v & _ & H)].
    + left. destruct (p_year p =? 0); [eapply extended_err|eapply datetime_err]; eauto.
    + destruct (p_fraction p =? 0); [discriminate|]. unfold add_us in H.
      assert (D : forall x u y, datetime_add x u = Err y -> y = OverflowError).
      { intros x u y. unfold datetime_add, datetime_at. destruct (_ && _); congruence. }
      destruct (d_year v =? 0); [|right; eapply D; eauto].
      apply bind_err in H as [H|(w & _ & H)]; [right; eapply D; eauto|]. left. unfold from_y2k in H.
      destruct (0 <? _); [eapply datetime_err|eapply extended_err]; eauto.
Qed.

Lemma prim_err k c o x e : k_explicit c = [] -> bytes_ok x -> contents o = Some x -> snd (get_native k c o) = Err e ->
  expected e \/ own_error k e.
Proof.
  intros X B C H.
  assert (R : readable k (e_indef (o_enc o)) x -> expected e \/ own_error k e).
  { intros R. left. exact (read_error k c o x e X B C R H). }
  destruct k as [|m|m|m| | | | | |m|en| |pad|]; try (apply R; exact Logic.I); clear R; unfold get_native in H; rewrite C in H; cbn [own_error].
  - right. unfold cached in H. destruct (c_native (o_cache o)); [discriminate|]. destruct m as [m|]; [destruct (map_get _ _)|]; cbn in H; congruence.
  - unfold bits_native in H. destruct (c_native (o_cache o)); [discriminate|]. destruct (merged_int _ _ _ _) as [[[v n] ub]|y] eqn:E.
    + destruct (int_to_bits v n) eqn:F; [discriminate|]. cbn in H. injection H as ->. left. left. eapply int_to_bits_err; eauto.
    + cbn in H. injection H as ->. apply merged_int_err in E; auto. destruct E as [->|E]; [left; now left|now right].
  - destruct (c_bytes (o_cache o)); [discriminate|]. destruct (merged_octets _ _ _ _) as [[v n]|y] eqn:E; [discriminate|].
    cbn in H. injection H as ->. apply merged_octets_err in E; auto. destruct E as [->|E]; [left; now left|now right].
  - destruct (c_native (o_cache o)); [discriminate|]. destruct (merged_int _ _ _ _) as [[[v n] ub]|y] eqn:E; [discriminate|].
    cbn in H. injection H as ->. apply merged_int_err in E; auto. destruct E as [->|E]; [left; now left|now right].
  - unfold time_native in H. destruct (c_native (o_cache o)); [discriminate|]. destruct (get_unicode _ _ _ _ _) as [o' [s|y]] eqn:E.
    + destruct (gentime_native s) eqn:F; [discriminate|]. cbn in H. injection H as ->. apply gentime_err in F as [->|F]; [left; now left|now right].
    + cbn in H. injection H as ->. left. unfold get_unicode in E. destruct (c_unicode (o_cache o)); [discriminate|].
      destruct (merged_bytes _ c (e_indef (o_enc o)) x) as [b|y] eqn:Em; cbn [bind] in E.
      * destruct (codec_decode_canonical Latin1 b) as [D|(s & D & _)]; [eapply merged_bytes_ok; eauto| |]; rewrite D in E; [|discriminate].
        injection E as _ <-. now right.
      * injection E as _ <-. left. eapply merged_bytes_err; eauto.
  - right. cbn in H. congruence.
Qed.

Lemma prim_native_err k c p i e : k_explicit c = [] -> info_ok i -> prim_native k c p i = Err e -> expected e \/ own_error k e.
Proof.
  intros X (_ & B & _) H. unfold prim_native in H. apply bind_err in H as [H|(o & E & H)]; [left; left; eapply build_err; eauto|].
  apply bind_err in H as [H|(v & _ & H)]; [|discriminate]. destruct (build_contents _ _ _ _ _ B E) as (b & C & Bb & _).
  eapply prim_err; eauto.
Qed.
Lemma octets_in_err bits c p i e : k_explicit c = [] -> info_ok i -> octets_in bits c p i = Err e -> e = ValueError \/ (bits = true /\ e = IndexError).
Proof.
  intros X (_ & B & _) H. unfold octets_in in H. apply bind_err in H as [H|(o & E & H)]; [left; eapply build_err; eauto|].
  destruct (build_contents _ _ _ _ _ B E) as (b & C & Bb & _). rewrite C in H. eapply pmerged_err; eauto.
Qed.
Lemma octets_in_ok bits c p i b : info_ok i -> octets_in bits c p i = Ok b -> bytes_ok b.
Proof.
  intros (_ & B & _) H. unfold octets_in in H. destruct (build _ _ _ _) as [o|] eqn:E; [|discriminate]. cbn [bind] in H.
  destruct (build_contents _ _ _ _ _ B E) as (x & C & Bb & _). rewrite C in H. unfold pmerged in H.
  eapply (merge_all Z byte_ok (pchunk bits)); [|exact Bb|exact H].
  intros ? y r By Q. unfold pchunk in Q. destruct bits; [|now injection Q as <-]. destruct y as [|u y]; [discriminate|].
  destruct (u =? 0); [|discriminate]. injection Q as <-. now inversion By.
Qed.

(* ---- values without a class ---- *)
Section Pad.
Variable pad : bool.
Definition calm (e : exn) : Prop := expected e \/ untyped_error e \/ e = OutOfFuel.

Lemma universal_calm t k c : universal pad t = Some (GPrimitive k c) -> k_explicit c = [] /\ forall e, own_error k e -> untyped_error e.
Proof.
  unfold universal, untyped_error. intros H.
  repeat match type of H with context [match ?x with _ => _ end] => destruct x; try discriminate H end;
    injection H as <- <-; cbn; tauto.
Qed.

Fixpoint fine (n : nat) (o : gobj) : Prop :=
  match n with
  | O => True
  | S m =>
      match o with
      | OPrim k c p => k_explicit c = [] /\ (forall e, own_error k e -> untyped_error e) /\ exists x, contents p = Some x /\ bytes_ok x
      | ONode w t e ch _ => bytes_ok (cont_of e) /\
          match ch with None => True | Some l => Forall (fun x => match x with inl i => info_ok i | inr c => fine m c end) l end
      end
  end.
Lemma gbuild_err i e : gbuild pad i = Err e -> e = ValueError.
Proof. unfold gbuild. destruct (universal pad (i_tag i)) as [[k c|w]|]; congruence. Qed.
Lemma gbuild_fine i o : info_ok i -> gbuild pad i = Ok o -> forall n, fine n o.
Proof.
  intros (_ & B & _) H [|n]; [exact Logic.I|]. unfold gbuild in H. destruct (universal pad (i_tag i)) as [[k c|w]|] eqn:U; [| |discriminate]; injection H as <-; cbn [fine].
  - destruct (universal_calm _ _ _ U) as [X Y]. split; [exact X|]. split; [exact Y|]. eexists. split; [reflexivity|exact B].
  - split; [exact B|exact Logic.I].
Qed.
Lemma loop_err {A} (f : info -> res A) (P : exn -> Prop) : P ValueError -> P OutOfFuel -> (forall i e, info_ok i -> f i = Err e -> P e) ->
  forall n c p e, bytes_ok c -> 0 <= p <= len c -> kids_loop f n c p = Err e -> P e.
Proof.
  intros V O F. induction n as [|n IH]; intros c p e B L H; cbn [kids_loop] in H; [congruence|].
  destruct (p <? len c); [|discriminate]. apply bind_err in H as [H|([i q] & E & H)]; [apply parse__err in H; auto; [congruence|lia]|].
  apply parse_at in E as [K Q]; auto. apply bind_err in H as [H|(x & _ & H)]; [eauto|]. apply bind_err in H as [H|(r & _ & H)]; [eauto|discriminate].
Qed.
Lemma loop_all {A} (f : info -> res A) (P : A -> Prop) : (forall i x, info_ok i -> f i = Ok x -> P x) ->
  forall n c p l, bytes_ok c -> 0 <= p <= len c -> kids_loop f n c p = Ok l -> Forall P l.
Proof.
  intros F. induction n as [|n IH]; intros c p l B L H; cbn [kids_loop] in H; [discriminate|].
  destruct (p <? len c); [|injection H as <-; constructor]. destruct (parse_ c (len c) p) as [[i q]|] eqn:E; [|discriminate]. cbn [bind] in H.
  apply parse_at in E as [K Q]; auto. destruct (f i) as [x|] eqn:Fi; [|discriminate]. cbn [bind] in H.
  destruct (kids_loop f n c q) as [r|] eqn:R; [|discriminate]. cbn [bind] in H. injection H as <-. constructor; eauto.
Qed.
Lemma zero_len (c : bytes) : 0 <= 0 <= len c.
Proof. pose proof (len_nonneg c). lia. Qed.
Lemma kids_err b w : forall n c e, bytes_ok c -> parse_kids pad n b w c = Err e -> e = ValueError \/ e = OutOfFuel.
Proof.
  intros n. revert w. induction n as [|n IH]; intros w c e B H; cbn [parse_kids] in H; [right; congruence|].
  assert (K : kids_loop (fun i => if b then do o <- gbuild pad i;
              match o with
              | ONode w' t e _ nat => do l <- parse_kids pad n b w' (cont_of e); Ok (inr (ONode w' t e (Some l) nat))
              | _ => Ok (inr o)
              end else Ok (inl i)) (S (length c)) c 0 = Err e -> e = ValueError \/ e = OutOfFuel).
  { intros K. eapply (loop_err _ (fun e => e = ValueError \/ e = OutOfFuel)) in K; auto using zero_len. intros i y Ii Y. destruct b; [|discriminate].
    apply bind_err in Y as [Y|(o & E & Y)]; [left; eapply gbuild_err; eauto|]. destruct o as [k cc p|w' t e' ch nt]; [discriminate|].
    apply bind_err in Y as [Y|(? & _ & Y)]; [|discriminate]. eapply IH; [|exact Y]. exact (proj1 (gbuild_fine i _ Ii E 1)). }
  destruct w; try (destruct b; exact (K H)).
  destruct c; [discriminate|]. left. apply bind_err in H as [H|(? & _ & H)]; [eapply parse_0_err; [|eassumption]; assumption|congruence].
Qed.
Lemma kids_fine b : forall n w c l, bytes_ok c -> parse_kids pad n b w c = Ok l ->
  forall m, Forall (fun x => match x with inl i => info_ok i | inr c => fine m c end) l.
Proof.
  induction n as [|n IH]; intros w c l B H m; cbn [parse_kids] in H; [discriminate|].
  assert (K : kids_loop (fun i => if b then do o <- gbuild pad i;
              match o with
              | ONode w' t e _ nat => do l <- parse_kids pad n b w' (cont_of e); Ok (inr (ONode w' t e (Some l) nat))
              | _ => Ok (inr o)
              end else Ok (inl i)) (S (length c)) c 0 = Ok l -> Forall (fun x => match x with inl i => info_ok i | inr c => fine m c end) l).
  { intros K. eapply (loop_all _ (fun x => match x with inl i => info_ok i | inr c => fine m c end)) in K; auto using zero_len. intros i y Ii Y. destruct b; [|injection Y as <-; exact Ii].
    destruct (gbuild pad i) as [o|] eqn:E; [|discriminate]. cbn [bind] in Y. destruct o as [k cc p|w' t e' ch nt].
    - injection Y as <-. eapply gbuild_fine; eauto.
    - destruct (parse_kids _ _ _ _ _) as [l'|] eqn:Kl; [|discriminate]. cbn [bind] in Y. injection Y as <-.
      pose proof (proj1 (gbuild_fine i _ Ii E 1)) as Bc. destruct m; [exact Logic.I|]. cbn [fine]. split; [exact Bc|]. eapply IH; eauto. }
  destruct w; try (destruct b; exact (K H)).
  destruct c; [injection H as <-; constructor|]. destruct (parse_ _ _ _); discriminate.
Qed.

Lemma native_err : forall n o e, fine n o -> snd (gnative pad n o) = Err e -> calm e.
Proof.
  induction n as [|n IH]; intros o e F H; [right; right; cbn in H; congruence|]. destruct o as [k c p|w t en ch nt]; cbn [gnative fine] in *.
  - destruct F as (X & U & x & C & B). destruct (get_native k c p) as [p' r] eqn:G. cbn [snd] in H.
    apply bind_err in H as [H|(? & _ & H)]; [|discriminate]. destruct (prim_err k c p x e X B C) as [K|K].
    + now rewrite G.
    + now left.
    + right. left. auto.
  - destruct nt; [discriminate|]. destruct F as [B F]. destruct (kids pad true w en ch) as [l|y] eqn:K.
    2:{ cbn in H. injection H as ->. unfold kids in K. destruct ch; [discriminate|]. apply kids_err in K as [->| ->]; auto; [left; now left|right; now right]. }
    assert (Fl : Forall (fun x => match x with inl i => info_ok i | inr c => fine n c end) l).
    { unfold kids in K. destruct ch; [now injection K as <-|]. eapply kids_fine; eauto. }
    assert (L : forall l, Forall (fun x => match x with inl i => info_ok i | inr c => fine n c end) l -> forall z x,
      snd (read_loop pad (gnative pad n) z l) = Some x -> calm x).
    { clear -IH. induction l as [|x l IHl]; intros F z y H; [discriminate|]. inversion F as [|? ? Fx Fl]; subst. cbn [read_loop] in H.
      assert (G : forall o, lazy pad x = Ok o -> fine n o).
      { intros o E. destruct x as [i|c]; cbn in E; [eapply gbuild_fine; eauto|now injection E as <-]. }
      destruct (lazy pad x) as [o|w] eqn:E.
      - specialize (G o eq_refl). specialize (IH o). destruct (gnative pad n o) as [o' [v|q]].
        + specialize (IHl Fl (z + 1) y). destruct (read_loop pad (gnative pad n) (z + 1) l) as [[r vs] er]. auto.
        + cbn in H. injection H as <-. apply IH; auto.
      - cbn in H. injection H as <-. left. left. destruct x as [i|c]; cbn in E; [eapply gbuild_err; eauto|discriminate]. }
    specialize (L l Fl 0). destruct (read_loop pad (gnative pad n) 0 l) as [[l' d] [x|]]; cbn [snd] in *; [injection H as ->; auto|discriminate].
Qed.
Lemma gen_err i e : info_ok i -> gen_native pad i = Err e -> calm e.
Proof.
  intros I H. unfold gen_native in H. apply bind_err in H as [H|(o & E & H)]; [left; left; eapply gbuild_err; eauto|].
  unfold whole_native in H. eapply native_err; [|exact H]. eapply gbuild_fine; eauto.
Qed.

(* ---- opening ---- *)
Lemma tagging_err c p e : init_tagging c p = Err e -> e = ValueError.
Proof.
  unfold init_tagging. destruct (p_explicit p).
  - destruct (p_implicit p) as [[cl tg]|]; [|discriminate]. destruct (class_ok cl); [discriminate|]. cbn. congruence.
  - destruct (forallb _ _); [discriminate|]. cbn. congruence.
Qed.
Lemma peel_all ex : forall i hd tl, info_ok i -> bytes_ok hd -> bytes_ok tl ->
  match peel ex i hd tl with Ok (j, h, t) => info_ok j /\ bytes_ok h /\ bytes_ok t | Err e => e = ValueError end.
Proof.
  induction ex as [|[c t] ex IH]; intros i hd tl I Bh Bt; cbn [peel]; [auto|].
  destruct (negb _); [reflexivity|]. destruct (negb _); [reflexivity|]. destruct (negb _); [reflexivity|].
  destruct (parse_ _ _ _) as [[j q]|y] eqn:E; cbn [bind].
  - destruct I as (_ & B & _). apply parse_0 in E; auto. destruct E as (E1 & E2 & E3). apply IH; [repeat split; assumption|apply bytes_ok_app; split; assumption|apply bytes_ok_app; split; assumption].
  - destruct I as (_ & B & _). eapply parse_0_err; [|eassumption]; assumption.
Qed.
Lemma stripped_all c p i : info_ok i ->
  match stripped c p i with Ok (j, _, h, t) => info_ok j /\ bytes_ok h /\ bytes_ok t | Err e => e = ValueError end.
Proof.
  intros I. unfold stripped. destruct (has_explicit c p).
  - destruct (init_tagging c p) as [t|y] eqn:E; cbn [bind]; [|eapply tagging_err; eauto].
    pose proof (peel_all (rev (t_explicit t)) i (i_header i) (i_trailer i) I (proj1 I) (proj2 (proj2 I))) as P.
    destruct (peel _ _ _ _) as [[[j h] tl]|y]; cbn [bind]; [|exact P].
    destruct (init_tagging c (Params [] None true)) as [t'|y] eqn:E'; cbn [bind]; [exact P|eapply tagging_err; eauto].
  - destruct (init_tagging c p) as [t|y] eqn:E; cbn [bind]; [|eapply tagging_err; eauto]. destruct I as (A & B & C). now repeat split.
Qed.
Lemma opened_all c p i : info_ok i -> match opened c p i with Ok x => bytes_ok x | Err e => e = ValueError end.
Proof.
  intros I. unfold opened. pose proof (stripped_all c p i I) as S. destruct (stripped c p i) as [[[[j t] h] tl]|y]; cbn [bind]; [|exact S].
  destruct (check_tags c t j); [|reflexivity]. exact (proj1 (proj2 (proj1 S))).
Qed.
Lemma unwrapped_all ex : forall i, info_ok i -> match unwrapped ex i with Ok j => info_ok j | Err e => e = ValueError end.
Proof.
  induction ex as [|x ex IH]; intros i I; cbn [unwrapped]; [exact I|]. destruct I as (_ & B & _).
  destruct (parse_ _ _ _) as [[j q]|y] eqn:E; cbn [bind]; [apply IH; eapply parse_0; eauto|eapply parse_0_err; [|eassumption]; assumption].
Qed.
Lemma any_err c p i e : info_ok i -> any_native pad c p i = Err e -> calm e.
Proof.
  intros I H. unfold any_native in H. pose proof (stripped_all c p i I) as S. destruct (stripped c p i) as [[[[j t] h] tl]|y]; cbn [bind] in H; [|left; left; congruence].
  destruct S as (Ij & Bh & Bt). destruct (init_tagging c p) as [t'|y] eqn:E; cbn [bind] in H; [|left; left; injection H as <-; eapply tagging_err; eauto].
  assert (B : bytes_ok (h ++ i_contents j ++ tl)) by (apply bytes_ok_app; split; [exact Bh|apply bytes_ok_app; split; [apply Ij|exact Bt]]).
  destruct (parse_ (h ++ i_contents j ++ tl) (len (h ++ i_contents j ++ tl)) 0) as [[i' q]|y] eqn:P; cbn [bind] in H.
  - apply parse_0 in P; auto. pose proof (unwrapped_all (t_explicit t') i' P) as U. destruct (unwrapped (t_explicit t') i') as [j'|y]; cbn [bind] in H.
    + eapply gen_err; eauto.
    + left; left; congruence.
  - left; left. injection H as <-. eapply parse_0_err; [|eassumption]; assumption.
Qed.
End Pad.
