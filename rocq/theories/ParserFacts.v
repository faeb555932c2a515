(* Consequences of the grammar equivalence, in terms of emit/parse/peek. *)
Require Import Verif.Base Verif.BaseFacts Verif.IntModel Verif.IntSpec Verif.IntProofs.
Require Import Verif.ParserModel Verif.ParserSpec Verif.ParserProofs.

Lemma parse__0 d i e : bytes_ok d ->
  parse_ d (len d) 0 = Ok (i, e) ->
  ber_info max_budget i /\ (exists r, d = encoding_of i ++ r) /\ e = len (encoding_of i).
Proof.
  intros Hok H. pose proof (parse_sound [] d i e) as P. cbn [app] in P.
  change (len (@nil Z)) with 0 in P. specialize (P Hok H). rewrite Z.add_0_l in P. exact P.
Qed.

Lemma parse__0_complete i r : ber_info max_budget i ->
  parse_ (encoding_of i ++ r) (len (encoding_of i ++ r)) 0 = Ok (i, len (encoding_of i)).
Proof.
  intros H. pose proof (parse_complete i [] r H) as P. cbn [app] in P.
  change (len (@nil Z)) with 0 in P. rewrite Z.add_0_l in P. exact P.
Qed.

(* parse accepts exactly the grammar *)
Lemma parse_iff d i : bytes_ok d ->
  (parse d false = Ok i <-> ber_info max_budget i /\ exists r, d = encoding_of i ++ r).
Proof.
  intros Hok. unfold parse. cbn [andb]. split.
  - intros H. apply bind_ok in H as ((i' & e) & H1 & H2). injection H2 as <-.
    apply parse__0 in H1; tauto.
  - intros (H & r & ->). rewrite parse__0_complete by auto. reflexivity.
Qed.

Lemma parse_strict_iff d i : bytes_ok d ->
  (parse d true = Ok i <-> ber_info max_budget i /\ d = encoding_of i).
Proof.
  intros Hok. unfold parse. cbn [andb]. split.
  - intros H. apply bind_ok in H as ((i' & e) & H1 & H2).
    apply parse__0 in H1 as (B & (r & Hr) & He); auto.
    destruct (Z.eqb_spec e (len d)); cbn [negb] in H2; [|discriminate]. injection H2 as <-.
    split; auto. rewrite Hr in *. rewrite len_app in *. assert (len r = 0) by lia.
    apply len_zero_nil in H. subst r. now rewrite app_nil_r.
  - intros (H & ->). pose proof (parse__0_complete i [] H) as P. rewrite app_nil_r in P.
    rewrite P. cbn [bind]. rewrite Z.eqb_refl. reflexivity.
Qed.

Lemma peek_iff d n : bytes_ok d ->
  (peek d = Ok n <-> exists i r, ber_info max_budget i /\ d = encoding_of i ++ r /\ n = len (encoding_of i)).
Proof.
  intros Hok. unfold peek. split.
  - intros H. apply bind_ok in H as ((i & e) & H1 & H2). injection H2 as <-.
    apply parse__0 in H1 as (B & (r & Hr) & He); auto. exists i, r. auto.
  - intros (i & r & B & -> & ->). rewrite parse__0_complete by auto. reflexivity.
Qed.

Lemma parse_peek d i : bytes_ok d -> parse d false = Ok i -> peek d = Ok (len (encoding_of i)).
Proof.
  intros Hok H. apply parse_iff in H as (B & r & Hr); auto. apply peek_iff; auto.
  exists i, r. auto.
Qed.

Lemma emit_good c m t x : 0 <= c <= 3 -> 0 <= m <= 1 -> 0 <= t ->
  emit c m t x = Ok (dump_header c m t x ++ x).
Proof.
  intros. unfold emit. destruct ((c <? 0) || (3 <? c)) eqn:E1; [lia|].
  destruct ((m <? 0) || (1 <? m)) eqn:E2; [lia|]. destruct (t <? 0) eqn:E3; [lia|]. reflexivity.
Qed.

Lemma emit_parse c m t x :
  0 <= c <= 3 -> 0 <= m <= 1 -> 0 <= t -> bytes_ok x -> len x < 2 ^ 1008 ->
  exists h, emit c m t x = Ok (h ++ x) /\ parse (h ++ x) true = Ok (mkInfo c m t h x []) /\
            peek (h ++ x) = Ok (len (h ++ x)).
Proof.
  intros Hc Hm Ht Hx Hl. exists (dump_header c m t x).
  pose proof (dump_header_ber c m t x 10 Hc Hm Ht Hl) as B.
  pose proof (ber_hdr _ _ _ _ _ _ _ B) as (Hh & _).
  assert (Hok : bytes_ok (dump_header c m t x ++ x)) by (apply bytes_ok_app; auto).
  set (i := mkInfo c m t (dump_header c m t x) x []).
  assert (He : encoding_of i = dump_header c m t x ++ x).
  { unfold encoding_of; cbn. now rewrite app_nil_r. }
  split; [|split].
  - unfold emit. destruct ((c <? 0) || (3 <? c)) eqn:E; [lia|].
    destruct ((m <? 0) || (1 <? m)) eqn:E2; [lia|].
    destruct (t <? 0) eqn:E3; [lia|]. reflexivity.
  - apply parse_strict_iff; auto.
  - apply peek_iff; auto. exists i, []. rewrite app_nil_r, He. auto.
Qed.

Lemma ber_trailer b c m t h x tr : ber b c m t h x tr -> tr = [] \/ tr = [0; 0].
Proof. intros []; auto. Qed.

Lemma parse_parts d i : bytes_ok d -> parse d false = Ok i ->
  (exists rest, d = (i_header i ++ i_contents i ++ i_trailer i) ++ rest) /\
  peek d = Ok (len (i_header i ++ i_contents i ++ i_trailer i)) /\
  (i_trailer i = [] \/ i_trailer i = [0; 0]) /\
  0 <= i_class i <= 3 /\ 0 <= i_method i <= 1 /\ 0 <= i_tag i.
Proof.
  intros Hok H. pose proof (parse_peek d i Hok H) as Hp.
  apply parse_iff in H as (B & r & Hr); auto.
  pose proof (ber_hdr _ _ _ _ _ _ _ B) as (_ & _ & ? & ? & ?).
  pose proof (ber_trailer _ _ _ _ _ _ _ B).
  split; [|split]; eauto.
Qed.

Lemma parse_extend x y i : bytes_ok x -> parse x false = Ok i ->
  parse (x ++ y) false = Ok i /\ peek (x ++ y) = peek x.
Proof.
  intros Hok H. rewrite (parse_peek x i) by auto.
  apply parse_iff in H as (B & r & Hr); auto. subst x.
  unfold parse, peek. rewrite <- app_assoc. rewrite parse__0_complete by auto. split; reflexivity.
Qed.

Lemma parse_total d s : bytes_ok d -> (exists i, parse d s = Ok i) \/ parse d s = Err ValueError.
Proof.
  intros Hok. unfold parse.
  destruct (parse_ d (len d) 0) as [[i e]|e] eqn:E; cbn [bind].
  - destruct (s && _); eauto.
  - right. apply parse__err in E; auto; [now subst|lia].
Qed.

Lemma peek_total d : bytes_ok d -> (exists n, peek d = Ok n) \/ peek d = Err ValueError.
Proof.
  intros Hok. unfold peek.
  destruct (parse_ d (len d) 0) as [[i e]|e] eqn:E; cbn [bind].
  - eauto.
  - right. apply parse__err in E; auto; [now subst|lia].
Qed.

Lemma strict_iff x : bytes_ok x ->
  ((exists i, parse x true = Ok i) <-> (exists i, parse x false = Ok i) /\ peek x = Ok (len x)) /\
  (forall i, parse x true = Ok i -> parse x false = Ok i).
Proof.
  intros Hok.
  assert (forall i, parse x true = Ok i -> parse x false = Ok i) as H1.
  { intros i H. apply parse_strict_iff in H as (B & E); auto. apply parse_iff; auto.
    split; auto. exists []. now rewrite app_nil_r. }
  split; auto. split.
  - intros (i & H). split; eauto. rewrite (parse_peek x i) by auto.
    apply parse_strict_iff in H as (B & E); auto. now rewrite <- E.
  - intros ((i & H) & Hp). rewrite (parse_peek x i) in Hp by auto. injection Hp as Hp.
    exists i. apply parse_strict_iff; auto. apply parse_iff in H as (B & r & E); auto.
    split; auto. subst x. rewrite len_app in Hp. assert (len r = 0) by lia.
    apply len_zero_nil in H. subst r. now rewrite app_nil_r.
Qed.

Lemma truncation y z : z <> [] -> bytes_ok (y ++ z) -> peek (y ++ z) = Ok (len (y ++ z)) ->
  forall s, parse y s = Err ValueError.
Proof.
  intros Hz Hok Hp s. apply bytes_ok_app in Hok as [Hy _].
  assert (F : forall i, parse y false = Ok i -> False).
  { intros i Hi. pose proof (parse_extend y z i Hy Hi) as (_ & E). rewrite E in Hp.
    pose proof (parse_parts y i Hy Hi) as ((r & Hr) & Hp2 & _).
    rewrite Hp2 in Hp. injection Hp as Hp. rewrite Hr in Hp at 1.
    rewrite !len_app in Hp. pose proof (len_nonneg r). destruct z; [easy|].
    rewrite len_cons in Hp. pose proof (len_nonneg z0). lia. }
  destruct (parse_total y s Hy) as [(i & Hi)|]; auto. exfalso.
  destruct s; [|eauto]. apply (proj2 (strict_iff y Hy)) in Hi. eauto.
Qed.

(* ---- minimality ---- *)
Lemma b128_digits_unique a : forall b,
  length a = length b -> Forall (fun d => 0 <= d < 128) a -> Forall (fun d => 0 <= d < 128) b ->
  b128_value a = b128_value b -> a = b.
Proof.
  induction a as [|x a IH]; intros [|y b] L Ha Hb E; cbn in L; try lia; auto.
  inversion Ha; inversion Hb; subst. cbn [b128_value] in E.
  assert (Hl : len a = len b) by (unfold len; lia). rewrite Hl in E.
  pose proof (b128_value_bound a ltac:(assumption)). pose proof (b128_value_bound b ltac:(assumption)).
  rewrite Hl in *. assert (x = y) by nia. subst. f_equal. apply IH; auto; lia.
Qed.

Lemma b128_len_mono a b :
  Forall (fun d => 0 <= d < 128) a -> Forall (fun d => 0 <= d < 128) b ->
  (match b with [] => False | d :: _ => d <> 0 end) ->
  b128_value a = b128_value b -> (length b <= length a)%nat.
Proof.
  intros Ha Hb Hn E. destruct (Nat.le_gt_cases (length b) (length a)); auto. exfalso.
  destruct b as [|d b]; [easy|]. inversion Hb; subst.
  pose proof (b128_value_bound a Ha). pose proof (b128_value_bound b ltac:(assumption)).
  cbn [b128_value] in E. assert (128 ^ len a <= 128 ^ len b).
  { apply Z.pow_le_mono_r; [lia|]. unfold len. cbn [length] in *. lia. }
  nia.
Qed.

Lemma b128_octets_unique t a b : 31 <= t -> b128_octets t a -> b128_octets t b -> a = b.
Proof.
  intros Ht (h1 & l1 & -> & F1 & M1 & V1) (h2 & l2 & -> & F2 & M2 & V2).
  assert (N : forall h l, Forall (fun d => 0 <= d < 128) (h ++ [l]) ->
      (match h with [] => True | d :: _ => d <> 0 end) -> b128_value (h ++ [l]) = t ->
      match h ++ [l] with [] => False | d :: _ => d <> 0 end).
  { intros h l F M V. destruct h as [|d h]; cbn [app] in *; auto. intros ->. cbn in V. lia. }
  pose proof (N _ _ F1 M1 V1) as N1. pose proof (N _ _ F2 M2 V2) as N2.
  assert (E : h1 ++ [l1] = h2 ++ [l2]).
  { apply b128_digits_unique; auto; [|congruence].
    pose proof (b128_len_mono _ _ F1 F2 N2 ltac:(congruence)).
    pose proof (b128_len_mono _ _ F2 F1 N1 ltac:(congruence)). lia. }
  apply app_inj_tail in E as [-> ->]. reflexivity.
Qed.

Lemma ident_unique c m t a b : ident c m t a -> ident c m t b -> a = b.
Proof.
  intros [? ? ?|l1 ? ? ? HA] [? ? ?|l2 ? ? ? HB]; try lia; auto.
  f_equal. eapply b128_octets_unique; eauto.
Qed.

Lemma emit_minimal c m t x d i :
  0 <= c <= 3 -> 0 <= m <= 1 -> 0 <= t -> bytes_ok x -> len x < 2 ^ 1008 ->
  bytes_ok d -> parse d false = Ok i ->
  i_class i = c -> i_method i = m -> i_tag i = t -> i_contents i = x -> i_trailer i = [] ->
  exists h, emit c m t x = Ok (h ++ x) /\
    (length h <= length (i_header i))%nat /\
    (length (i_header i) = length h -> i_header i = h).
Proof.
  intros Hc Hm Ht Hx Hl Hd Hp E1 E2 E3 E4 E5.
  destruct (emit_parse c m t x Hc Hm Ht Hx Hl) as (h' & He & _).
  exists (dump_header c m t x). 
  assert (Hee : emit c m t x = Ok (dump_header c m t x ++ x)).
  { unfold emit. destruct ((c <? 0) || (3 <? c)) eqn:F1; [lia|].
    destruct ((m <? 0) || (1 <? m)) eqn:F2; [lia|]. destruct (t <? 0) eqn:F3; [lia|]. reflexivity. }
  split; auto. clear h' He.
  destruct (dump_header_spec c m t x Hc Hm Ht Hl) as (i0 & l0 & E & Hi0 & Hl0 & S1 & S2).
  clear Hee.
  rewrite E. apply parse_iff in Hp as (B & _); auto. unfold ber_info in B.
  rewrite E1, E2, E3, E4, E5 in B. remember (i_header i) as h eqn:Hh.
  inversion B as [n c' m' t' i1 l1 x' Hi1 Hl1|]; subst c' m' t' x'.
  rewrite (ident_unique _ _ _ _ _ Hi1 Hi0) in *.
  destruct (Z.lt_ge_cases (len x) 128) as [Hs|Hs].
  - rewrite (S1 Hs). destruct Hl1 as [|lb Hok Hlb Hv].
    + split; auto.
    + rewrite !app_length. cbn [length]. split; [lia|]. unfold len in Hlb. lia.
  - destruct (S2 Hs) as (lb0 & -> & Hpos). destruct Hl1 as [|lb Hok Hlb Hv]; [lia|].
    inversion Hl0 as [|lb0' Hok0 Hlb0 Hv0 Eq]; [lia|]. subst lb0'.
    assert (lb <> []) by (intros ->; rewrite len_nil in Hlb; lia).
    destruct (shortest_be lb0 lb) as [G1 G2]; auto; [congruence|].
    rewrite !app_length. cbn [length]. split; [lia|].
    intros Eql. f_equal. rewrite G2 by lia. reflexivity.
Qed.

(* ---- streams ---- *)
(* the caller's loop: parse one value, skip the bytes peek reports, repeat *)
Fixpoint split_all (fuel : nat) (d : bytes) : res (list info) :=
  match d with
  | [] => Ok []
  | _ =>
      match fuel with
      | O => Err OutOfFuel
      | S f =>
          do i <- parse d false;
          do n <- peek d;
          do l <- split_all f (skipn (Z.to_nat n) d);
          Ok (i :: l)
      end
  end.

Lemma encoding_nonempty b i : ber_info b i -> encoding_of i <> [].
Proof.
  intros H. apply ber_hdr in H as (_ & Hl & _). intros E. unfold encoding_of in E.
  apply (f_equal (@len Z)) in E. rewrite len_app, len_nil in E.
  pose proof (len_nonneg (i_contents i ++ i_trailer i)). lia.
Qed.

Lemma split_all_concat (l : list info) : forall fuel,
  Forall (ber_info max_budget) l -> bytes_ok (concat (map encoding_of l)) -> (length l <= fuel)%nat ->
  split_all fuel (concat (map encoding_of l)) = Ok l.
Proof.
  induction l as [|i l IH]; intros fuel F Hok Hf.
  - destruct fuel; reflexivity.
  - inversion F; subst. cbn [map concat] in *.
    assert (Hne : encoding_of i ++ concat (map encoding_of l) <> []).
    { intros E. apply app_eq_nil in E as [E _]. eapply encoding_nonempty; eauto. }
    destruct fuel as [|f]; [cbn in Hf; lia|].
    destruct (encoding_of i ++ concat (map encoding_of l)) as [|b t] eqn:E; [easy|].
    cbn [split_all]. rewrite <- E in *.
    assert (Hp : parse (encoding_of i ++ concat (map encoding_of l)) false = Ok i).
    { apply parse_iff; auto. eauto. }
    rewrite Hp. cbn [bind]. rewrite (parse_peek _ i) by auto. cbn [bind].
    replace (Z.to_nat (len (encoding_of i))) with (length (encoding_of i)) by (unfold len; lia).
    rewrite skipn_app, skipn_all, Nat.sub_diag. cbn [skipn app].
    rewrite IH; auto.
    + apply bytes_ok_app in Hok. tauto.
    + cbn [length] in Hf. lia.
Qed.

Lemma split_all_values (l : list info) :
  Forall (fun i => bytes_ok (encoding_of i) /\ parse (encoding_of i) true = Ok i) l ->
  split_all (length l) (concat (map encoding_of l)) = Ok l.
Proof.
  intros H. apply split_all_concat; auto.
  - eapply Forall_impl; [|exact H]. intros i (Hok & Hp). apply parse_strict_iff in Hp; tauto.
  - induction H as [|i l (Hok & _) _ IH]; [constructor|]. cbn. apply bytes_ok_app; auto.
Qed.

(* ---- nesting limit ---- *)
(* h is the header of a constructed encoding of indefinite length *)
Definition indef_header (h : bytes) : Prop := exists c t i, ident c 1 t i /\ h = i ++ [128].

Lemma depth_core b : forall hs pre rest,
  Forall indef_header hs -> (b < length hs)%nat ->
  bytes_ok (pre ++ concat hs ++ rest) ->
  exists e, parse_core b (pre ++ concat hs ++ rest) (len (pre ++ concat hs ++ rest)) (len pre) = Err e.
Proof.
  induction b as [|b IH]; intros hs pre rest F Hl Hok; [cbn; eauto|].
  destruct hs as [|h hs]; [cbn in Hl; lia|]. cbn [length] in Hl.
  pose proof (Forall_inv_tail F) as F'. destruct (Forall_inv F) as (c & t & i & Hi & ->).
  cbn [concat] in *.
  set (data := pre ++ ((i ++ [128]) ++ concat hs) ++ rest) in *.
  assert (Hdata : data = pre ++ i ++ ([128] ++ concat hs ++ rest)).
  { unfold data. now rewrite <- !app_assoc. }
  pose proof (ident_ok _ _ _ _ Hi) as (_ & _ & _ & _ & Hil).
  assert (Hlen : len data = len pre + len i + 1 + len (concat hs ++ rest)).
  { rewrite Hdata, !len_app. cbn [len length]. change (len [128]) with 1. lia. }
  pose proof (len_nonneg (concat hs ++ rest)).
  destruct (parse_ident_complete c 1 t i pre ([128] ++ concat hs ++ rest) (len data) Hi) as (fo & Hid & Hc); [lia|].
  rewrite <- Hdata in Hid. cbn [parse_core]. rewrite Hid. cbn [bind].
  destruct (Z.ltb_spec (len data) (len pre + len i + 1)); [lia|].
  assert (Hat : at_ data (len pre + len i) = 128).
  { rewrite Hdata, app_assoc. cbn [app]. apply at_mid. now rewrite len_app. }
  rewrite Hat. change (Z.shiftr 128 7 =? 0) with false. cbn iota.
  change (Z.land 128 127 =? 0) with true. cbn [negb]. change (1 =? 0) with false. cbn iota.
  cbn [eoc_loop].
  assert (Hd2 : data = (pre ++ i ++ [128]) ++ concat hs ++ rest).
  { unfold data. now rewrite <- !app_assoc. }
  assert (Hp2 : len (pre ++ i ++ [128]) = len pre + len i + 1).
  { rewrite !len_app. change (len [128]) with 1. lia. }
  assert (Hc2 : (len data <? len pre + len i + 1 + 2)
     || negb (eqb_bytes (slice data (len pre + len i + 1) (len pre + len i + 1 + 2)) [0; 0]) = true).
  { destruct (Z.ltb_spec (len data) (len pre + len i + 1 + 2)) as [|Hge]; [reflexivity|]. cbn [orb].
    destruct hs as [|h2 hs]; [cbn in Hl; lia|].
    destruct (Forall_inv F') as (c2 & t2 & i2 & Hi2 & ->).
    destruct (eqb_bytes _ _) eqn:E; [|reflexivity]. exfalso.
    apply eqb_bytes_spec in E.
    assert (Hat2 : at_ data (len pre + len i + 1) = 0).
    { pose proof (len_nonneg pre). rewrite <- (Z.add_0_r (len pre + len i + 1)).
      assert (S2 : slice data (len pre + len i + 1) (len pre + len i + 1 + 2) =
        slice data (len pre + len i + 1) (len pre + len i + 1 + 1) ++
        slice data (len pre + len i + 1 + 1) (len pre + len i + 1 + 2)) by (rewrite slice_split by lia; reflexivity).
      rewrite E, slice_1 in S2 by lia. cbn in S2. injection S2 as S2 _. rewrite Z.add_0_r. auto. }
    rewrite Hd2 in Hat2. rewrite at_app_r in Hat2 by lia. rewrite Hp2, Z.sub_diag in Hat2.
    cbn [concat] in Hat2.
    destruct Hi2; cbn [app] in Hat2; unfold at_ in Hat2; cbn [nth Z.to_nat] in Hat2; lia. }
  cbn [length]. rewrite Hc2. clear Hc2.
  rewrite <- Hp2.
  destruct (IH hs (pre ++ i ++ [128]) rest F' ltac:(lia)) as (e & He).
  { rewrite <- Hd2. exact Hok. }
  rewrite <- Hd2 in *. rewrite He. cbn [bind]. eauto.
Qed.

Lemma depth_limit hs rest s :
  Forall indef_header hs -> (max_budget < length hs)%nat -> bytes_ok (concat hs ++ rest) ->
  parse (concat hs ++ rest) s = Err ValueError /\ peek (concat hs ++ rest) = Err ValueError.
Proof.
  intros F Hl Hok.
  destruct (depth_core max_budget hs [] rest F Hl Hok) as (e & He).
  cbn [app] in He. change (len (@nil Z)) with 0 in He.
  assert (e = ValueError) by (eapply parse_core_err; eauto; lia). subst e.
  unfold parse, peek, parse_. rewrite He. split; reflexivity.
Qed.

Lemma strict_iff_total x : bytes_ok x ->
  ((exists i, parse x true = Ok i) <-> (exists i, parse x false = Ok i) /\ peek x = Ok (len x)) /\
  (forall i, parse x true = Ok i -> parse x false = Ok i) /\
  (~ (exists i, parse x true = Ok i) -> parse x true = Err ValueError).
Proof.
  intros Hok. destruct (strict_iff x Hok) as [A B]. split; [|split]; auto.
  intros N. destruct (parse_total x true Hok); [easy|auto].
Qed.

Lemma emit_bad c m t x : ~ (0 <= c <= 3 /\ 0 <= m <= 1 /\ 0 <= t) -> emit c m t x = Err ValueError.
Proof.
  intros H. unfold emit. destruct ((c <? 0) || (3 <? c)) eqn:E1; auto.
  destruct ((m <? 0) || (1 <? m)) eqn:E2; auto. destruct (t <? 0) eqn:E3; auto. lia.
Qed.

Lemma split_emitted vs es :
  Forall2 (fun v e => let '(c, m, t, x) := v in
     0 <= c <= 3 /\ 0 <= m <= 1 /\ 0 <= t /\ bytes_ok x /\ len x < 2 ^ 1008 /\ emit c m t x = Ok e) vs es ->
  exists is_, split_all (length vs) (concat es) = Ok is_ /\
    map (fun i => (i_class i, i_method i, i_tag i, i_contents i)) is_ = vs.
Proof.
  intros F.
  assert (exists is_, es = map encoding_of is_ /\ length is_ = length vs /\
    Forall (fun i => bytes_ok (encoding_of i) /\ parse (encoding_of i) true = Ok i) is_ /\
    map (fun i => (i_class i, i_method i, i_tag i, i_contents i)) is_ = vs) as (is_ & E1 & E2 & E3 & E4).
  { induction F as [|[[[c m] t] x] e vs es (Hc & Hm & Ht & Hx & Hl & He) F (is_ & E1 & E2 & E3 & E4)].
    - exists []. repeat split; constructor.
    - destruct (emit_parse c m t x Hc Hm Ht Hx Hl) as (h & He' & Hp & _).
      rewrite He in He'. injection He' as ->.
      assert (Hh : bytes_ok h).
      { rewrite emit_good in He by auto. injection He as He. apply app_inv_tail in He. subst h.
        pose proof (dump_header_ber c m t x 0 Hc Hm Ht Hl) as B. apply ber_hdr in B. tauto. }
      exists (mkInfo c m t h x [] :: is_). cbn [map length i_class i_method i_tag i_contents].
      assert (En : encoding_of (mkInfo c m t h x []) = h ++ x) by (unfold encoding_of; cbn; now rewrite app_nil_r).
      rewrite En, E1, E4, E2. repeat split; auto.
      constructor; auto. rewrite En. split; auto. apply bytes_ok_app; auto. }
  exists is_. split; auto. rewrite E1, <- E2. now apply split_all_values.
Qed.
