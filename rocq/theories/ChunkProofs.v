(* Merging segmented strings. *)
Require Import Verif.Base Verif.BaseFacts Verif.IntModel Verif.IntSpec Verif.IntProofs
  Verif.ParserModel Verif.ParserSpec Verif.ParserProofs Verif.ParserFacts Verif.Text Verif.OidModel Verif.OidSpec
  Verif.OidProofs Verif.BitModel Verif.BitSpec Verif.BitProofs Verif.CodecModel Verif.CodecSpec Verif.CodecProofs
  Verif.Calendar Verif.TimeModel Verif.TimeSpec Verif.TimeProofs Verif.TimeFacts Verif.TagSpec Verif.TagProofs
  Verif.PrimModel Verif.PrimSpec Verif.PrimProofs Verif.PrimSet Verif.PrimDump Verif.PrimLoad Verif.HistSpec Verif.PrimHist
  Verif.ChunkSpec.

Fixpoint traverse {A B} (f : A -> res B) (l : list A) : res (list B) :=
  match l with
  | [] => Ok []
  | x :: r => do y <- f x; do ys <- traverse f r; Ok (y :: ys)
  end.

Lemma traverse_app {A B} (f : A -> res B) a b :
  traverse f (a ++ b) = do x <- traverse f a; do y <- traverse f b; Ok (x ++ y).
Proof.
  induction a as [|x a IH]; cbn [app traverse bind].
  - destruct (traverse f b); reflexivity.
  - destruct (f x); cbn [bind]; auto. rewrite IH. destruct (traverse f a); cbn [bind]; auto.
    destruct (traverse f b); reflexivity.
Qed.

(* tags a segment may have *)
Definition own_tag (cls : pcls) (t : Z) : Prop := t = k_tag cls \/ In t (k_bad cls).

Lemma segments_series c ok e n x xs : segments c ok e n x xs -> forall b, (n < b)%nat -> ber_series b x.
Proof.
  induction 1 as [n|n t i l x rest xs O I D N S IH|n t i x rest ys xs O I E S1 IH1 S2 IH2]; intros b Hb.
  - constructor.
  - destruct b as [|b]; [lia|]. replace (((i ++ l) ++ x) ++ rest) with (((i ++ l) ++ x ++ []) ++ rest) by (now rewrite app_nil_r).
    eapply ber_cons; [exact (ber_definite b c 0 t i l x I D)|exact N|now apply IH].
  - destruct b as [|b]; [lia|]. eapply ber_cons; [|intros Q; apply (f_equal (fun l => last l 0)) in Q; rewrite last_last in Q; discriminate|].
    + constructor; [exact I|]. apply IH1. lia.
    + now apply IH2.
Qed.

Lemma own_tag_bool cls t : own_tag cls t <-> negb (t =? k_tag cls) && negb (existsb (fun b => t =? b) (k_bad cls)) = false.
Proof.
  unfold own_tag. destruct (Z.eqb_spec t (k_tag cls)) as [E|E]; cbn [negb andb]; [tauto|].
  rewrite negb_false_iff, existsb_exists. split.
  - intros [?|I]; [contradiction|]. exists t. split; auto. apply Z.eqb_refl.
  - intros (x & I & Q). apply Z.eqb_eq in Q. subst. auto.
Qed.

Lemma build_segment k cls i : k_explicit cls = [] -> constructable k = true ->
  i_class i = k_class cls -> own_tag cls (i_tag i) ->
  (i_method i = 0 \/ (i_method i = 1 /\ i_trailer i = [0; 0])) ->
  exists o, build k cls no_params i = Ok o /\ contents o = Some (i_contents i) /\ e_indef (o_enc o) = negb (i_method i =? 0).
Proof.
  intros Hx Hk Hc Ht Hm. unfold build, has_explicit. cbn [p_no_explicit no_params negb andb]. rewrite Hx. cbn [p_explicit].
  unfold build_plain, init_tagging. cbn [p_explicit no_params p_implicit bind p_no_explicit t_class t_tag].
  rewrite Hc, Z.eqb_refl. cbn [negb]. apply own_tag_bool in Ht. rewrite Ht, Hk.
  destruct Hm as [M|[M T]]; rewrite M.
  - cbn. eexists. split; [reflexivity|]. cbn. auto.
  - rewrite T. cbn. eexists. split; [reflexivity|]. cbn. auto.
Qed.

Section MergeFacts.
  Variable X : Type.
  Variable as_chunk : bool -> bytes -> res (list X).
  Variable k : kind.
  Variable cls : pcls.
  Hypothesis Hx : k_explicit cls = [].
  Hypothesis Hk : constructable k = true.

  Definition collect (xs : list bytes) : res (list X) := do ys <- traverse (as_chunk false) xs; Ok (concat ys).

  Lemma merge_loop_segments (e : bool) n rest xs : (e = true -> as_chunk true [] = Ok []) ->
    segments (k_class cls) (own_tag cls) e n rest xs -> (n < 10)%nat ->
    forall pre acc f m, (length rest <= f)%nat -> (length rest < m)%nat ->
    (acc = None -> pre = [] /\ (e = false -> xs <> [])) ->
    merge_loop X as_chunk k cls m (merge X as_chunk k cls f) (pre ++ rest) (len pre) acc =
    do ys <- collect xs; Ok ((match acc with Some a => a | None => [] end) ++ ys).
  Proof.
    intros He H. induction H as [n|n t i l x rest xs O I D N S IH|n t i x rest ys xs O I E S1 IH1 S2 IH2];
      intros Hn pre acc f m Hf Hm Ha.
    - destruct m as [|m]; [lia|]. cbn [merge_loop]. rewrite app_nil_r, Z.ltb_irrefl. cbn [collect traverse bind].
      destruct acc as [a|]; cbn; [now rewrite app_nil_r|]. destruct (Ha eq_refl) as [-> Ha'].
      destruct e; [now rewrite He|]. exfalso. now apply Ha'.
    - destruct m as [|m]; [lia|]. cbn [merge_loop].
      set (j := mkInfo (k_class cls) 0 t (i ++ l) x []).
      assert (Bj : ber_info max_budget j) by (unfold ber_info, max_budget; cbn; now constructor).
      assert (Ej : encoding_of j = (i ++ l) ++ x) by (unfold encoding_of; cbn; now rewrite app_nil_r).
      pose proof (parse_complete j pre rest Bj) as P. rewrite Ej in P.
      assert (Ln : (length i > 0)%nat) by (inversion I; subst; cbn; lia).
      assert (Hp : len pre <? len (pre ++ ((i ++ l) ++ x) ++ rest) = true).
      { apply Z.ltb_lt. unfold len. rewrite !app_length. lia. }
      rewrite Hp. unfold parse_build. rewrite P. cbn [bind].
      destruct (build_segment k cls j Hx Hk eq_refl O (or_introl eq_refl)) as (o & Eb & Ec & Ei).
      rewrite Eb. cbn [bind]. rewrite Ec, Ei. change (negb (i_method j =? 0)) with false. change (i_contents j) with x.
      rewrite !app_length in Hf, Hm.
      assert (Em : merge X as_chunk k cls f false x = as_chunk false x) by (destruct f; [lia|reflexivity]). rewrite Em.
      unfold collect. cbn [traverse]. destruct (as_chunk false x) as [y|]; cbn [bind]; [|reflexivity].
      replace (pre ++ ((i ++ l) ++ x) ++ rest) with ((pre ++ (i ++ l) ++ x) ++ rest) by (now rewrite <- !app_assoc).
      replace (len pre + len ((i ++ l) ++ x)) with (len (pre ++ (i ++ l) ++ x)) by (now rewrite len_app).
      rewrite IH; [|lia|lia|lia|discriminate]. unfold collect.
      destruct (traverse (as_chunk false) xs); cbn [bind concat]; [|reflexivity].
      destruct acc; cbn [app]; [now rewrite <- app_assoc|reflexivity].
    - destruct m as [|m]; [lia|]. cbn [merge_loop].
      set (j := mkInfo (k_class cls) 1 t (i ++ [128]) x [0; 0]).
      assert (Bj : ber_info max_budget j).
      { unfold ber_info, max_budget; cbn. constructor; auto. eapply segments_series; [exact S1|lia]. }
      assert (Ej : encoding_of j = (i ++ [128]) ++ x ++ [0; 0]) by reflexivity.
      pose proof (parse_complete j pre rest Bj) as P. rewrite Ej in P.
      assert (Ln : (length i > 0)%nat) by (inversion I; subst; cbn; lia).
      assert (Hp : len pre <? len (pre ++ ((i ++ [128]) ++ x ++ [0; 0]) ++ rest) = true).
      { apply Z.ltb_lt. unfold len. rewrite !app_length. lia. }
      rewrite Hp. unfold parse_build. rewrite P. cbn [bind].
      destruct (build_segment k cls j Hx Hk eq_refl O (or_intror (conj eq_refl eq_refl))) as (o & Eb & Ec & Ei).
      rewrite Eb. cbn [bind]. rewrite Ec, Ei. change (negb (i_method j =? 0)) with true. change (i_contents j) with x.
      rewrite !app_length in Hf, Hm. cbn [length] in Hf, Hm.
      assert (Em : merge X as_chunk k cls f true x = do ys <- collect ys; Ok ys).
      { destruct f as [|f]; [lia|]. cbn [merge].
        pose proof (IH1 ltac:(lia) [] None f (Datatypes.S (length x)) ltac:(lia) ltac:(lia)) as Q.
        change (len (@nil Z)) with 0 in Q. change ([] ++ x) with x in Q. rewrite Q; [reflexivity|].
        intros _. split; [reflexivity|]. intros ->. destruct E; auto; discriminate. }
      rewrite Em. unfold collect. rewrite traverse_app.
      destruct (traverse (as_chunk false) ys) as [zs|]; cbn [bind]; [|reflexivity].
      replace (pre ++ ((i ++ [128]) ++ x ++ [0; 0]) ++ rest) with ((pre ++ (i ++ [128]) ++ x ++ [0; 0]) ++ rest)
        by (now rewrite <- !app_assoc).
      replace (len pre + len ((i ++ [128]) ++ x ++ [0; 0])) with (len (pre ++ (i ++ [128]) ++ x ++ [0; 0])) by (now rewrite len_app).
      rewrite IH2; [|lia|lia|lia|discriminate]. unfold collect.
      destruct (traverse (as_chunk false) xs); cbn [bind]; [|reflexivity]. rewrite concat_app.
      destruct acc; cbn [app]; [now rewrite <- app_assoc|reflexivity].
  Qed.

  Lemma merge_segments (e : bool) n cont xs : (e = true -> as_chunk true [] = Ok []) ->
    segments (k_class cls) (own_tag cls) e n cont xs -> (n < 10)%nat -> (e = false -> xs <> []) ->
    merge X as_chunk k cls (S (length cont)) true cont = collect xs.
  Proof.
    intros He H Hn Ne. cbn [merge].
    pose proof (merge_loop_segments e n cont xs He H Hn [] None (length cont) (S (length cont)) ltac:(lia) ltac:(lia)) as Q.
    change (len (@nil Z)) with 0 in Q. change ([] ++ cont) with cont in Q. rewrite Q by auto.
    unfold collect. destruct (traverse (as_chunk false) xs); reflexivity.
  Qed.
End MergeFacts.

(* ---- bit strings ---- *)
Lemma ones_bit u i : 0 <= u -> 0 <= i -> Z.testbit (Z.shiftl 1 u - 1) i = (i <? u).
Proof.
  intros Hu Hi. rewrite Z.shiftl_1_l. replace (2 ^ u - 1) with (Z.ones u) by (rewrite Z.ones_equiv; lia).
  destruct (Z.ltb_spec i u); [rewrite Z.ones_spec_low|rewrite Z.ones_spec_high]; auto; lia.
Qed.

Lemma masked_bits x u : 1 <= u <= 7 ->
  octet_bits (Z.land x (Z.lnot (Z.shiftl 1 u - 1))) = firstn (Z.to_nat (8 - u)) (octet_bits x) ++ repeat false (Z.to_nat u).
Proof.
  intros Hu. unfold octet_bits. rewrite !Z.land_spec, !Z.lnot_spec, !ones_bit by lia.
  assert (C : u = 1 \/ u = 2 \/ u = 3 \/ u = 4 \/ u = 5 \/ u = 6 \/ u = 7) by lia.
  repeat destruct C as [->|C]; try subst u; cbn -[Z.testbit]; rewrite ?andb_true_r, ?andb_false_r; reflexivity.
Qed.

Lemma low_bits x u : byte_ok x -> 1 <= u <= 7 ->
  int_to_bits (Z.land x (Z.shiftl 1 u - 1)) u = Ok (skipn (Z.to_nat (8 - u)) (octet_bits x)).
Proof.
  intros Hx Hu. set (b := skipn (Z.to_nat (8 - u)) (octet_bits x)). set (a := firstn (Z.to_nat (8 - u)) (octet_bits x)).
  assert (Lb : len b = u) by (unfold len, b; rewrite skipn_length; cbn [octet_bits length]; lia).
  assert (E : x = bits_int a * 2 ^ u + bits_int b).
  { rewrite <- Lb, <- bits_int_app. unfold a, b. rewrite firstn_skipn. symmetry. now apply octet_bits_int. }
  rewrite Z.shiftl_1_l. replace (2 ^ u - 1) with (Z.ones u) by (rewrite Z.ones_equiv; lia).
  rewrite Z.land_ones by lia. pose proof (bits_int_bound b) as B. rewrite Lb in B.
  rewrite E, Z.add_comm, Z.mod_add, Z.mod_small by lia. rewrite <- Lb at 1. apply int_to_bits_ok.
Qed.

(* reading an OctetBitString: the octets with the unused bits cleared *)
Lemma octetbits_chunk_ok u body : bytes_ok body -> 0 <= u <= 7 -> (u <> 0 -> body <> []) ->
  exists b a ub, octetbits_chunk (u :: body) = Ok (b, ub) /\ bytes_ok b /\ octets_bits body = a ++ ub /\ len ub = u /\
    octets_bits b = a ++ repeat false (Z.to_nat u).
Proof.
  intros Hok Hu Hne. unfold octetbits_chunk. destruct (Z.eqb_spec u 0) as [->|N].
  - exists body, (octets_bits body), []. cbn [Z.to_nat repeat]. rewrite app_nil_r. repeat split; auto.
  - destruct body as [|y r] using rev_ind; [now exfalso; apply Hne|]. clear IHr Hne.
    apply bytes_ok_app in Hok as [Hr Hy]. apply bytes_ok_cons in Hy as [Hy _].
    rewrite len_cons, len_app, len_cons, len_nil.
    destruct (Z.eqb_spec (1 + (len r + (1 + 0))) 1); [pose proof (len_nonneg r); lia|].
    destruct (Z.ltb_spec 7 u); [lia|].
    change (u :: r ++ [y]) with ((u :: r) ++ [y]). rewrite last_last, removelast_last.
    rewrite low_bits by (auto; lia). cbn [bind].
    eexists _, (octets_bits r ++ firstn (Z.to_nat (8 - u)) (octet_bits y)), _. split; [reflexivity|].
    unfold octets_bits. rewrite !flat_map_app. cbn [flat_map]. rewrite !app_nil_r. split; [|split; [|split]].
    + apply bytes_ok_app. split; auto. apply bytes_ok_cons. split; [|constructor]. unfold byte_ok in *.
      assert (0 <= Z.land y (Z.lnot (Z.shiftl 1 u - 1))) by (apply Z.land_nonneg; lia).
      split; [lia|]. 
      assert (Z.land y (Z.lnot (Z.shiftl 1 u - 1)) <= y); [|lia].
      rewrite Z.shiftl_1_l. replace (2 ^ u - 1) with (Z.ones u) by (rewrite Z.ones_equiv; lia).
      rewrite <- Z.ldiff_land. rewrite Z.ldiff_ones_r by lia. rewrite Z.shiftl_mul_pow2, Z.shiftr_div_pow2 by lia.
      pose proof (Z.mul_div_le y (2 ^ u) ltac:(apply Z.pow_pos_nonneg; lia)). lia.
    + now rewrite <- app_assoc, firstn_skipn.
    + unfold len. rewrite skipn_length. cbn [octet_bits length]. lia.
    + rewrite masked_bits by lia. now rewrite app_assoc.
Qed.

Lemma lor_shift a n b : 0 <= n -> 0 <= b < 2 ^ n -> Z.lor (Z.shiftl a n) b = a * 2 ^ n + b.
Proof.
  intros Hn Hb. rewrite Z.shiftl_mul_pow2 by lia. apply (lor_disjoint _ _ n); auto. now rewrite Z.mod_mul by lia.
Qed.

(* non-final segments *)
Lemma chunks_int_bodies bodies : forall v n tail, Forall bytes_ok bodies -> 0 <= n -> n mod 8 = 0 -> v = v ->
  chunks_int (map (fun b => (be_value b, 8 * len b, [])) bodies ++ tail) v n [] =
  chunks_int tail (v * 2 ^ (8 * len (concat bodies)) + be_value (concat bodies)) (n + 8 * len (concat bodies)) [].
Proof.
  induction bodies as [|b bodies IH]; intros v n tail Hok Hn Hm _; cbn [map app concat chunks_int].
  - change (len (@nil Z)) with 0. change (be_value []) with 0. f_equal; [|lia]. rewrite Z.mul_0_r, Z.pow_0_r. lia.
  - inversion Hok as [|? ? Hb Hr]; subst. pose proof (len_nonneg b). pose proof (len_nonneg (concat bodies)).
    assert (E : Z.land n 7 = 0) by (change 7 with (Z.ones 3); rewrite Z.land_ones by lia; exact Hm).
    rewrite E. cbn [Z.eqb negb]. change (negb (0 =? 0)) with false. cbn iota.
    rewrite IH; auto; [|lia|]. 2:{ replace (n + 8 * len b) with (n + len b * 8) by lia. now rewrite Z.mod_add by lia. }
    pose proof (be_value_bound b Hb) as B. rewrite pow256 in B by lia.
    rewrite lor_shift by lia. rewrite len_app, be_value_app. rewrite pow256 by lia.
    f_equal; [|lia]. rewrite Z.mul_add_distr_l, Z.pow_add_r by lia. ring.
Qed.

Lemma traverse_bodies bodies : Forall bytes_ok bodies ->
  traverse (int_chunk false) (map (cons 0) bodies) = Ok (map (fun b => [(be_value b, 8 * len b, [])]) bodies).
Proof.
  induction 1 as [|b r Hb Hr IH]; cbn [map traverse]; [reflexivity|].
  unfold int_chunk at 1, bit_chunk. change (0 =? 0) with true. cbn iota. cbn [bind]. rewrite IH. cbn [bind].
  rewrite int_from_bytes_unsigned, len_cons. replace ((1 + len b - 1) * 8) with (8 * len b) by lia. reflexivity.
Qed.

Lemma concat_single {A B} (f : A -> B) l : concat (map (fun b => [f b]) l) = map f l.
Proof. induction l; cbn; congruence. Qed.

Lemma split_unused u body : 0 <= u <= 7 -> (u <> 0 -> body <> []) ->
  exists a b, octets_bits body = a ++ b /\ len b = u.
Proof.
  intros Hu Hn. pose proof (octets_bits_len body) as Hl. pose proof (len_nonneg body).
  set (n := (length (octets_bits body) - Z.to_nat u)%nat).
  exists (firstn n (octets_bits body)), (skipn n (octets_bits body)). rewrite firstn_skipn. split; auto.
  unfold len in *. rewrite skipn_length. destruct (Z.eq_dec u 0); [lia|].
  assert (body <> []) by auto. destruct body; [contradiction|]. cbn [length] in *. lia.
Qed.

Section Natives.
  Variable k : kind.
  Variable cls : pcls.
  Hypothesis Hx : k_explicit cls = [].
  Hypothesis Hk : constructable k = true.

  Lemma merged_bytes_segments n cont xs : segments (k_class cls) (own_tag cls) true n cont xs -> (n < 10)%nat ->
    merged_bytes k cls true cont = Ok (concat xs).
  Proof.
    intros H Hn. unfold merged_bytes. rewrite (merge_segments Z bytes_chunk k cls Hx Hk true n cont xs); auto; [|discriminate].
    unfold collect. assert (E : traverse (B := list Z) (bytes_chunk false) xs = Ok xs); [|unfold bytes in *; now rewrite E].
    clear. induction xs as [|x r IH]; cbn [traverse]; [reflexivity|]. unfold bytes_chunk at 1. cbn [bind]. now rewrite IH.
  Qed.

  Lemma merged_int_segments n cont bodies u last : segments (k_class cls) (own_tag cls) true n cont (map (cons 0) bodies ++ [u :: last]) ->
    (n < 10)%nat -> Forall bytes_ok bodies -> bytes_ok last -> 0 <= u <= 7 -> (u <> 0 -> last <> []) ->
    merged_int k cls true cont = bit_chunk (u :: concat bodies ++ last).
  Proof.
    intros H Hn Hb Hl Hu Hne. unfold merged_int.
    rewrite (merge_segments _ int_chunk k cls Hx Hk true n cont _ (fun _ => eq_refl) H Hn); [|discriminate].
    unfold collect. rewrite traverse_app, traverse_bodies by auto. cbn [bind traverse].
    destruct (split_unused u last Hu Hne) as (a & b & E & Lb).
    unfold int_chunk at 1. rewrite (bit_chunk_ok u last a b) by auto. cbn [bind].
    rewrite concat_app, concat_single. cbn [concat app].
    rewrite (chunks_int_bodies bodies 0 0 [(bits_int a, len a, b)]); auto; [|lia]. cbn [chunks_int].
    set (L := 8 * len (concat bodies)).
    assert (E7 : Z.land (0 + L) 7 = 0).
    { change 7 with (Z.ones 3). rewrite Z.land_ones by lia. change (2 ^ 3) with 8. unfold L.
      replace (0 + 8 * len (concat bodies)) with (len (concat bodies) * 8) by lia. now rewrite Z.mod_mul by lia. }
    rewrite E7. change (negb (0 =? 0)) with false. cbn iota.
    assert (Hc : bytes_ok (concat bodies)) by (apply bytes_ok_concat || (clear -Hb; induction Hb; cbn; [constructor|apply bytes_ok_app; auto])).
    rewrite (bit_chunk_ok u (concat bodies ++ last) (octets_bits (concat bodies) ++ a) b); auto.
    - rewrite bits_int_app, octets_bits_int by auto. rewrite len_app, octets_bits_len.
      pose proof (bits_int_bound a). pose proof (len_nonneg a). rewrite lor_shift by lia.
      reflexivity.
    - apply bytes_ok_app; auto.
    - unfold octets_bits. rewrite flat_map_app. fold (octets_bits last). now rewrite E, <- app_assoc.
  Qed.

  Lemma merged_int_empty n cont : segments (k_class cls) (own_tag cls) true n cont [] -> (n < 10)%nat ->
    merged_int k cls true cont = bit_chunk [0].
  Proof.
    intros H Hn. unfold merged_int.
    rewrite (merge_segments _ int_chunk k cls Hx Hk true n cont _ (fun _ => eq_refl) H Hn); [|discriminate]. reflexivity.
  Qed.

  Lemma merged_octets_segments n cont bodies u last : segments (k_class cls) (own_tag cls) false n cont (map (cons 0) bodies ++ [u :: last]) ->
    (n < 10)%nat -> Forall bytes_ok bodies -> bytes_ok last -> 0 <= u <= 7 -> (u <> 0 -> last <> []) ->
    merged_octets k cls true cont = octetbits_chunk (u :: concat bodies ++ last).
  Proof.
    intros H Hn Hb Hl Hu Hne. unfold merged_octets.
    rewrite (merge_segments _ octet_chunk k cls Hx Hk false n cont _ ltac:(discriminate) H Hn); [|intros _; now destruct bodies].
    unfold collect. rewrite traverse_app.
    assert (E : traverse (octet_chunk false) (map (cons 0) bodies) = Ok (map (fun b => [(b, @nil bool)]) bodies)).
    { clear. induction bodies as [|b r IH]; cbn [map traverse]; [reflexivity|].
      unfold octet_chunk at 1, octetbits_chunk. change (0 =? 0) with true. cbn [bind]. now rewrite IH. }
    rewrite E. cbn [bind traverse].
    assert (U : forall ub l, octet_unused (map (fun b => (b, @nil bool)) bodies ++ [(l, ub)]) [] = Ok ub).
    { clear. intros ub l. induction bodies as [|b r IH]; cbn [map app octet_unused]; [reflexivity|exact IH]. }
    assert (M : forall (l : bytes) (ub : list bool), concat (map fst (map (fun b => (b, @nil bool)) bodies ++ [(l, ub)])) = concat bodies ++ l).
    { clear. intros l ub. induction bodies as [|b r IH]; cbn [map app concat fst]; [now rewrite app_nil_r|].
      rewrite IH. now rewrite app_assoc. }
    unfold octet_chunk at 1. destruct (Z.eq_dec u 0) as [->|Nu].
    - unfold octetbits_chunk. change (0 =? 0) with true. cbn [bind]. rewrite concat_app, concat_single. cbn [concat app].
      now rewrite U, M.
    - destruct last as [|y l] using rev_ind; [now exfalso; apply Hne|]. clear IHl.
      unfold octetbits_chunk. destruct (Z.eqb_spec u 0); [lia|]. rewrite !len_cons, !len_app, !len_cons.
      pose proof (len_nonneg l). pose proof (len_nonneg (concat bodies)). change (len (@nil Z)) with 0.
      destruct (Z.eqb_spec (1 + (len l + (1 + 0))) 1); [lia|]. destruct (Z.ltb_spec 7 u); [lia|].
      destruct (Z.eqb_spec (1 + (len (concat bodies) + (len l + (1 + 0)))) 1); [lia|].
      change (u :: l ++ [y]) with ((u :: l) ++ [y]).
      change (u :: concat bodies ++ l ++ [y]) with ((u :: concat bodies) ++ l ++ [y]).
      rewrite !(app_assoc _ l [y]), !last_last, !removelast_last.
      destruct (int_to_bits _ u) as [ub|]; [|reflexivity]. cbn [bind]. rewrite concat_app, concat_single. cbn [concat app].
      now rewrite U, M, app_assoc.
  Qed.
End Natives.

(* the whole value in one piece reads the same *)
Definition one_piece (t : tagging) (h : option bytes) (tr : bytes) (w : option Z) (c : bytes) : obj :=
  Obj t (Enc 0 h (Some c) tr false) no_cache w.
Definition in_segments (t : tagging) (h : option bytes) (tr : bytes) (w : option Z) (c : bytes) : obj :=
  Obj t (Enc 1 h (Some c) tr true) no_cache w.

Definition tolerant (k : kind) : bool := match k with KOctetBits => false | _ => true end.

Lemma segmented_native k cls n cont xs c t h tr w t' h' tr' : k_explicit cls = [] -> constructable k = true -> bytes_ok c ->
  segments (k_class cls) (own_tag cls) (tolerant k) n cont xs -> (n < 10)%nat -> (tolerant k = false -> xs <> []) ->
  joined k xs c ->
  snd (get_native k cls (in_segments t h tr w cont)) = snd (get_native k cls (one_piece t' h' tr' w c)).
Proof.
  intros Hx Hk Bc S Hn Ne J.
  assert (MB : tolerant k = true -> c = concat xs -> merged_bytes k cls true cont = Ok c).
  { intros T ->. rewrite T in S. eapply merged_bytes_segments; eauto. }
  assert (ok_split : forall bodies u last, bytes_ok (u :: concat bodies ++ last) -> Forall bytes_ok bodies /\ bytes_ok last).
  { clear. intros bodies u last H. apply bytes_ok_cons in H as [_ H]. apply bytes_ok_app in H as [H K]. split; auto.
    induction bodies as [|b r IH]; [constructor|]. cbn in H. apply bytes_ok_app in H as [? ?]. constructor; auto. }
  assert (MI : tolerant k = true -> (xs = [] /\ c = [0]) \/
      (exists bodies u last, xs = map (cons 0) bodies ++ [u :: last] /\ 0 <= u <= 7 /\ (u <> 0 -> last <> []) /\
        c = u :: concat bodies ++ last) -> merged_int k cls true cont = bit_chunk c).
  { intros T K. rewrite T in S. destruct K as [[-> ->]|(bodies & u & last & -> & Hu & Hne & ->)].
    - eapply merged_int_empty; eauto.
    - destruct (ok_split _ _ _ Bc). eapply merged_int_segments; eauto. }
  destruct k as [|m|m|m| | | | | |m|e| |pad|]; try discriminate Hk; unfold get_native, in_segments, one_piece, contents;
    cbn [o_enc e_contents e_indef joined tolerant] in *.
  - unfold bits_native. cbn [o_cache no_cache c_native o_enc e_indef]. rewrite MI by auto.
    unfold merged_int at 1. destruct (bit_chunk c) as [[[v nb] ub]|]; [|reflexivity]. destruct (int_to_bits v nb); reflexivity.
  - cbn [o_cache no_cache c_bytes]. destruct J as [[-> ->]|(bodies & u & last & -> & Hu & Hne & ->)]; [now exfalso; apply Ne|].
    destruct (ok_split _ _ _ Bc). rewrite (merged_octets_segments KOctetBits cls Hx Hk n cont bodies u last) by auto.
    unfold merged_octets. destruct (octetbits_chunk (u :: concat bodies ++ last)) as [[b ub]|]; reflexivity.
  - cbn [o_cache no_cache c_native]. rewrite MI by auto. unfold merged_int. destruct (bit_chunk c) as [[[v nb] ub]|]; reflexivity.
  - cbn [o_cache no_cache c_bytes]. rewrite MB by auto. reflexivity.
  - unfold cached. cbn [o_cache no_cache c_native]. rewrite MB by auto. reflexivity.
  - unfold get_unicode. cbn [o_cache no_cache c_unicode o_enc e_indef]. rewrite MB by auto.
    change (merged_bytes (KStr e) cls false c) with (@Ok bytes c). cbn [bind]. destruct (decode e c); reflexivity.
  - unfold time_native, get_unicode. cbn [o_cache no_cache c_native c_unicode o_enc e_indef]. rewrite MB by auto.
    change (merged_bytes KUtcTime cls false c) with (@Ok bytes c). cbn [bind]. destruct (decode Latin1 c) as [s|]; [|reflexivity].
    cbn [snd]. destruct (utctime_native s); reflexivity.
  - unfold time_native, get_unicode. cbn [o_cache no_cache c_native c_unicode o_enc e_indef]. rewrite MB by auto.
    change (merged_bytes (KGenTime pad) cls false c) with (@Ok bytes c). cbn [bind]. destruct (decode Latin1 c) as [s|]; [|reflexivity].
    cbn [snd]. destruct (gentime_native s); reflexivity.
Qed.

(* ---- unused bits before the end ---- *)
Definition good_chunk (x : bytes) : Prop :=
  exists u body, x = u :: body /\ bytes_ok body /\ 0 <= u <= 7 /\ (u <> 0 -> body <> []).

Lemma chunks_int_odd l v n ub : n mod 8 <> 0 -> l <> [] -> chunks_int l v n ub = Err ValueError.
Proof.
  intros H N. destruct l as [|[[c b] u] r]; [contradiction|]. cbn [chunks_int].
  change 7 with (Z.ones 3). rewrite Z.land_ones by lia. change (2 ^ 3) with 8.
  destruct (Z.eqb_spec (n mod 8) 0); [contradiction|reflexivity].
Qed.

Lemma good_traverse xs : Forall good_chunk xs -> exists l, traverse (int_chunk false) xs = Ok (map (fun z => [z]) l) /\
  Forall2 (fun x z => (snd (fst z) + hd 0 x) mod 8 = 0) xs l.
Proof.
  induction 1 as [|x xs (u & body & -> & B & Hu & Hn) Hxs (l & E & F)]; cbn [traverse].
  - exists []. split; [reflexivity|constructor].
  - destruct (split_unused u body Hu Hn) as (a & b & Ea & Lb). unfold int_chunk at 1.
    rewrite (bit_chunk_ok u body a b) by auto. cbn [bind]. rewrite E. cbn [bind].
    exists ((bits_int a, len a, b) :: l). split; [reflexivity|]. constructor; auto. cbn [fst snd hd].
    pose proof (octets_bits_len body) as L. rewrite Ea, len_app, Lb in L. rewrite L.
    rewrite Z.mul_comm. now apply Z.mod_mul.
Qed.

Lemma chunks_int_reject xs : forall l, Forall2 (fun x (z : Z * Z * list bool) => (snd (fst z) + hd 0 x) mod 8 = 0) xs l ->
  forall a x y b v n ub, xs = a ++ x :: y :: b -> 0 < hd 0 x < 8 -> chunks_int l v n ub = Err ValueError.
Proof.
  induction 1 as [|x0 z xs l Hz F IH]; intros a x y b v n ub E Hx.
  - destruct a; discriminate.
  - destruct z as [[c k] u]. cbn [chunks_int]. change 7 with (Z.ones 3). rewrite Z.land_ones by lia. change (2 ^ 3) with 8.
    destruct (Z.eqb_spec (n mod 8) 0) as [E0|E0]; [|reflexivity]. cbn [negb].
    destruct a as [|x1 a]; cbn [app] in E; injection E as -> E.
    + apply chunks_int_odd; [|subst xs; inversion F; discriminate]. cbn [fst snd] in Hz. intros Q.
      rewrite Z.add_mod in Q by lia. rewrite E0, Z.add_0_l, Z.mod_mod in Q by lia.
      rewrite Z.add_mod, Q, Z.add_0_l, Z.mod_mod in Hz by lia. rewrite Z.mod_small in Hz by lia. lia.
    + eapply IH; eauto.
Qed.

Lemma good_traverse_octets xs : Forall good_chunk xs -> exists l, traverse (octet_chunk false) xs = Ok (map (fun z => [z]) l) /\
  Forall2 (fun x z => len (snd z) = hd 0 x) xs l.
Proof.
  induction 1 as [|x xs (u & body & -> & B & Hu & Hn) Hxs (l & E & F)]; cbn [traverse].
  - exists []. split; [reflexivity|constructor].
  - destruct (octetbits_chunk_ok u body B Hu Hn) as (b & a & ub & Eo & _ & _ & Lu & _).
    unfold octet_chunk at 1. rewrite Eo. cbn [bind]. rewrite E. cbn [bind].
    exists ((b, ub) :: l). split; [reflexivity|]. constructor; auto.
Qed.

Lemma octet_unused_reject xs : forall l, Forall2 (fun x (z : bytes * list bool) => len (snd z) = hd 0 x) xs l ->
  forall a x y b u, xs = a ++ x :: y :: b -> 0 < hd 0 x < 8 -> octet_unused l u = Err ValueError.
Proof.
  induction 1 as [|x0 z xs l Hz F IH]; intros a x y b u E Hx.
  - destruct a; discriminate.
  - destruct z as [c ub]. cbn [octet_unused]. destruct u; [|reflexivity].
    destruct a as [|x1 a]; cbn [app] in E; injection E as -> E.
    + subst xs. inversion F as [|? [? ?] ? ? ? ?]; subst. cbn [octet_unused]. cbn [snd] in Hz.
      destruct ub; [rewrite len_nil in Hz; lia|reflexivity].
    + eapply IH; eauto.
Qed.

Lemma segmented_unused k cls n cont a x y b t h tr w : k_explicit cls = [] -> constructable k = true ->
  (k = KIntBits \/ k = KOctetBits \/ exists m, k = KBits m) ->
  segments (k_class cls) (own_tag cls) (tolerant k) n cont (a ++ x :: y :: b) -> (n < 10)%nat ->
  Forall good_chunk (a ++ x :: y :: b) -> hd 0 x <> 0 ->
  snd (get_native k cls (in_segments t h tr w cont)) = Err ValueError.
Proof.
  intros Hx Hk Kd S Hn G Hu.
  assert (Hx8 : 0 < hd 0 x < 8).
  { apply Forall_app in G as [_ G]. inversion G as [|? ? (u & body & -> & _ & U & _) _]; subst. cbn in *. lia. }
  assert (MI : tolerant k = true -> merged_int k cls true cont = Err ValueError).
  { intros T. rewrite T in S. unfold merged_int.
    rewrite (merge_segments _ int_chunk k cls Hx Hk true n cont _ (fun _ => eq_refl) S Hn); [|discriminate].
    destruct (good_traverse _ G) as (l & E & F). unfold collect. rewrite E. cbn [bind].
    rewrite (concat_single (fun z => z)), map_id. eapply chunks_int_reject; eauto. }
  destruct Kd as [->|[->|(m & ->)]]; unfold get_native, in_segments, contents; cbn [o_enc e_contents e_indef tolerant] in *.
  - cbn [o_cache no_cache c_native]. now rewrite MI.
  - cbn [o_cache no_cache c_bytes]. unfold merged_octets.
    rewrite (merge_segments _ octet_chunk KOctetBits cls Hx Hk false n cont _ ltac:(discriminate) S Hn); [|intros _; now destruct a].
    destruct (good_traverse_octets _ G) as (l & E & F). unfold collect. rewrite E. cbn [bind].
    rewrite (concat_single (fun z => z)), map_id. now rewrite (octet_unused_reject _ l F a x y b []).
  - unfold bits_native. cbn [o_cache no_cache c_native o_enc e_indef]. now rewrite MI.
Qed.

(* ---- only well-formed segments are accepted ---- *)
Lemma segments_mono c ok e n x xs : segments c ok e n x xs -> forall m, (n <= m)%nat -> segments c ok e m x xs.
Proof.
  induction 1 as [n|n t i l x rest xs O I D N S IH|n t i x rest ys xs O I E S1 IH1 S2 IH2]; intros m Hm.
  - constructor.
  - econstructor; eauto.
  - destruct m as [|m]; [lia|]. econstructor; eauto. apply IH1. lia.
Qed.

Lemma build_segment_inv k cls i o : k_explicit cls = [] -> build k cls no_params i = Ok o ->
  i_class i = k_class cls /\ own_tag cls (i_tag i) /\ contents o = Some (i_contents i) /\
  ((i_method i = 0 /\ e_indef (o_enc o) = false) \/ (i_method i = 1 /\ i_trailer i = [0; 0] /\ e_indef (o_enc o) = true)).
Proof.
  intros Hx. unfold build, has_explicit. cbn [p_no_explicit no_params negb andb]. rewrite Hx. cbn [p_explicit].
  unfold build_plain, init_tagging. cbn [p_explicit no_params p_implicit bind p_no_explicit t_class t_tag].
  destruct (Z.eqb_spec (i_class i) (k_class cls)) as [Ec|]; cbn [negb]; [|discriminate].
  destruct (negb (i_tag i =? k_tag cls) && negb (existsb (fun b => i_tag i =? b) (k_bad cls))) eqn:Et;
    destruct (Z.eqb_spec (i_method i) 0) as [M|M]; cbn [negb andb]; try discriminate.
  - destruct (negb ((i_method i =? 1) && eqb_bytes (i_trailer i) [0; 0] && constructable k)); discriminate.
  - intros Q. injection Q as <-. apply own_tag_bool in Et. rewrite M. repeat split; auto.
  - destruct ((i_method i =? 1) && eqb_bytes (i_trailer i) [0; 0] && constructable k) eqn:E; cbn [negb]; [|discriminate].
    intros Q. injection Q as <-. apply own_tag_bool in Et. apply andb_prop in E as [E _]. apply andb_prop in E as [E1 E2].
    apply Z.eqb_eq in E1. apply eqb_bytes_spec in E2. repeat split; auto.
Qed.

Section MergeSound.
  Variable X : Type.
  Variable as_chunk : bool -> bytes -> res (list X).
  Variable k : kind.
  Variable cls : pcls.
  Hypothesis Hx : k_explicit cls = [].
  (* the end-of-contents octets are not a segment *)
  Hypothesis Hc : forall t, own_tag cls t -> k_class cls = 0 -> t <> 0.
  Hypothesis He : forall r, as_chunk true [] = Ok r -> r = [].

  Lemma merge_sound f : forall cont r, bytes_ok cont -> merge X as_chunk k cls f true cont = Ok r ->
    exists n xs, segments (k_class cls) (own_tag cls) true n cont xs /\ collect X as_chunk xs = Ok r.
  Proof.
    induction f as [|f IH]; intros cont r B H; [discriminate|]. cbn [merge] in H.
    enough (G : forall m pre rest acc r, bytes_ok (pre ++ rest) -> (acc = None -> pre = []) ->
      merge_loop X as_chunk k cls m (merge X as_chunk k cls f) (pre ++ rest) (len pre) acc = Ok r ->
      exists n xs ys, segments (k_class cls) (own_tag cls) true n rest xs /\ collect X as_chunk xs = Ok ys /\
        r = (match acc with Some a => a | None => [] end) ++ ys).
    { destruct (G _ [] cont None r B ltac:(auto) H) as (n & xs & ys & S & C & ->). exists n, xs. auto. }
    clear cont r B H. induction m as [|m IHm]; intros pre rest acc r B Ha H; [discriminate|]. cbn [merge_loop] in H.
    destruct (Z.ltb_spec (len pre) (len (pre ++ rest))) as [Hl|Hl].
    - apply bind_ok in H as ([o p'] & Hp & H). apply bind_ok in H as (x & Hr & H).
      unfold parse_build in Hp. apply bind_ok in Hp as ([i e] & Hi & Hp). apply bind_ok in Hp as (o' & Hb & Hp).
      injection Hp as -> ->. apply parse_sound in Hi as (Bi & (rest' & Er) & ->); auto. subst rest.
      apply build_segment_inv in Hb as (Ec & Et & Eo & Em); auto.
      rewrite <- len_app, app_assoc in H. 
      apply IHm in H as (n & xs & ys & S & C & ->); [| now rewrite <- app_assoc | discriminate].
      assert (Bc : bytes_ok (i_contents i)).
      { apply bytes_ok_app in B as [_ B]. eapply contents_bytes; [exact B|reflexivity]. }
      rewrite Eo in Hr. unfold ber_info in Bi.
      destruct Em as [[M I]|(M & T & I)]; rewrite I in Hr.
      + destruct f as [|f']; [discriminate|]. cbn [merge] in Hr. rewrite M, Ec in Bi.
        inversion Bi as [? ? ? ? i0 l0 x0 Hid Hlen E1 E2 E3 E4 E5 E6 E7|]; subst.
        exists n, (i_contents i :: xs), (x ++ ys). split; [|split].
        * unfold encoding_of. rewrite <- E5, <- E7, app_nil_r. econstructor; eauto.
          intros Q. destruct (k_class cls =? 0) eqn:K0.
          -- apply Z.eqb_eq in K0. apply (Hc _ Et K0).
             inversion Hid; subst; cbn in Q; injection Q; intros; lia.
          -- apply Z.eqb_neq in K0. inversion Hid; subst; cbn in Q; injection Q; intros; lia.
        * unfold collect in *. cbn [traverse]. rewrite Hr. cbn [bind].
          destruct (traverse (as_chunk false) xs); [|discriminate]. cbn [bind concat] in *. congruence.
        * destruct acc; [now rewrite app_assoc|]. reflexivity.
      + apply IH in Hr as (n' & xs' & S' & C'); auto. rewrite M, T, Ec in Bi.
        inversion Bi as [|? ? ? i0 x0 Hid Hser E1 E2 E3 E4 E5]; subst.
        exists (Datatypes.S (Nat.max n n')), (xs' ++ xs), (x ++ ys). split; [|split].
        * unfold encoding_of. rewrite <- E5, T. econstructor; eauto.
          -- eapply segments_mono; [exact S'|lia].
          -- eapply segments_mono; [exact S|lia].
        * unfold collect in *. rewrite traverse_app.
          destruct (traverse (as_chunk false) xs'); [|discriminate]. destruct (traverse (as_chunk false) xs); [|discriminate].
          cbn [bind] in *. rewrite concat_app. congruence.
        * destruct acc; [now rewrite app_assoc|]. reflexivity.
    - rewrite len_app in Hl. assert (rest = []) as -> by (apply len_zero_nil; pose proof (len_nonneg rest); lia).
      exists O, [], []. split; [constructor|]. split; [reflexivity|]. rewrite app_nil_r in *.
      destruct acc as [a|]; [congruence|]. rewrite (Ha eq_refl) in H. now apply He.
  Qed.
End MergeSound.

Lemma merged_bytes_sound k cls cont b : k_explicit cls = [] -> (forall t, own_tag cls t -> k_class cls = 0 -> t <> 0) ->
  bytes_ok cont -> merged_bytes k cls true cont = Ok b ->
  exists n xs, segments (k_class cls) (own_tag cls) true n cont xs /\ b = concat xs.
Proof.
  intros Hx Hc B H. unfold merged_bytes in H. apply merge_sound in H as (n & xs & S & C); auto.
  - exists n, xs. split; auto. unfold collect in C.
    assert (E : traverse (B := list Z) (bytes_chunk false) xs = Ok xs).
    { clear. induction xs as [|x r IH]; cbn [traverse]; [reflexivity|]. unfold bytes_chunk at 1. cbn [bind]. now rewrite IH. }
    unfold bytes in *. rewrite E in C. cbn [bind] in C. congruence.
  - intros r Q. unfold bytes_chunk in Q. congruence.
Qed.
