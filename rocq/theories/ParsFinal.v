(* What follows for programs that use ParsableOctetString and ParsableOctetBitString. *)
Require Import Verif.Base Verif.BaseFacts Verif.IntModel Verif.IntSpec Verif.IntProofs
  Verif.ParserModel Verif.ParserSpec Verif.ParserProofs Verif.ParserFacts Verif.Text
  Verif.TagSpec Verif.TagProofs Verif.ChunkSpec Verif.ChunkProofs
  Verif.PrimModel Verif.PrimSpec Verif.PrimProofs Verif.PrimSet Verif.PrimDump Verif.PrimLoad Verif.HistSpec Verif.PrimHist
  Verif.PrimRead Verif.PrimMore Verif.PrimSide Verif.SegLoad Verif.ContModel Verif.ContSpec Verif.ContBase Verif.ContRep Verif.ContPrim Verif.ContSeq Verif.ContSeq2
  Verif.ContList Verif.ContChoice Verif.ContPath Verif.ContHistSpec Verif.ContHist Verif.ContHist2 Verif.ContFinal Verif.BerSpec Verif.BerProofs Verif.BerFinal
  Verif.ParsModel Verif.ParsSpec Verif.ParsProofs.

Section Final.
  Variable cls : nat -> spec.
  Variable guess : option params -> bytes -> res (nat * value).
  Variable bits : bool.
  Variable c : pcls.
  Notation k := (pkind bits).
  Notation p_bytes := (p_bytes bits c).
  Notation p_parse := (p_parse cls guess bits c).
  Notation p_parsed := (p_parsed cls guess bits c).
  Notation p_native := (p_native cls bits c).
  Notation p_dump := (p_dump cls bits c).
  Notation pstep := (pstep cls guess bits c).
  Notation pafter := (pafter cls guess bits c).
  Notation parse_with := (parse_with cls guess).
  Notation steady := (steady bits).

  Lemma make_steady p t v x : init_tagging c p = Ok t -> p_make bits c p v = Ok x -> steady t x.
  Proof.
    intros T H. unfold p_make, new_obj in H. rewrite T in H. cbn [bind] in H.
    assert (S : steady t (PObj (Obj t (Enc 0 None (initial_contents k) [] false) no_cache None) None)) by (split; [reflexivity|now left]).
    destruct v; try (injection H as <-; exact S); try discriminate.
    pose proof (p_set_steady bits t _ (NBytes b) S) as A. destruct (p_set bits _ (NBytes b)) as [y [[]|e]]; [|discriminate]. injection H as <-. exact A.
  Qed.
  Lemma begins_steady p t x : init_tagging c p = Ok t -> tags_compatible c p -> begins cls bits c p x -> steady t x.
  Proof.
    intros T C [d strict y B H|v y H|n v y H].
    - unfold p_load in H. apply bind_ok in H as (o & L & H). injection H as <-. split; cbn [q_obj]; [eapply load_tagging; eauto|eapply load_meth; eauto].
    - eapply make_steady; eauto.
    - unfold p_make_parsed in H. destruct (x_dump (methods (cls n)) false v) as [v' r]. apply bind_ok in H as (b & _ & H).
      apply bind_ok in H as (z & M & H). injection H as <-. pose proof (make_steady p t _ _ T M) as [A B]. split; auto.
  Qed.

  (* the state right after set() *)
  Lemma set_state t x b : steady t x -> let y := fst (p_set bits x (NBytes b)) in
    q_parsed y = q_parsed x /\ steady t y /\ snd (p_bytes y) = Ok b /\ e_indef (o_enc (q_obj y)) = false /\
    contents (q_obj y) = Some (whole bits b) /\ e_header (o_enc (q_obj y)) = None.
  Proof.
    intros S. pose proof (p_set_steady bits t x (NBytes b) S) as A. cbv zeta. unfold p_set in *. cbn [fst q_parsed q_obj] in *.
    split; auto. split; auto. unfold ParsModel.p_bytes. cbn [q_obj]. unfold store. rewrite pkind_con, pcontents_whole. cbn [andb].
    change (e_indef (o_enc (set_bytes (q_obj x) (Some b)))) with (e_indef (o_enc (q_obj x))).
    destruct (e_indef (o_enc (q_obj x))) eqn:E; cbn; auto.
  Qed.

  Definition der_of_string (t : tagging) (b : bytes) (r : res bytes) : Prop :=
    exists D, r = Ok D /\ (len D < 2 ^ 1008 -> der_object t (whole bits b) D).

  Lemma base_dump_string t o b : tagging_ok t -> o_tagging o = t -> meth_ok k o -> contents o = Some (whole bits b) -> e_header (o_enc o) = None ->
    der_of_string t b (snd (base_dump k o)).
  Proof.
    intros K T M C H. rewrite (base_dump_none k o (whole bits b)); auto. cbn [snd]. eexists. split; [reflexivity|]. rewrite T.
    intros L. now apply object_bytes_der.
  Qed.

  Theorem set_any p t x h b : init_tagging c p = Ok t -> tags_compatible c p -> tagging_ok t -> begins cls bits c p x ->
    let y := pafter (h ++ [PSet (NBytes b)]) x in
    snd (p_bytes y) = Ok b /\ der_of_string t b (snd (p_dump false y)) /\
    (q_parsed x = None -> forallb unparsing h = true -> q_parsed y = None /\ snd (p_native y) = Ok (APrim (NBytes b)) /\ der_of_string t b (snd (p_dump true y))).
  Proof.
    intros T C K B y. pose proof (steady_after cls guess bits c t h x (begins_steady p t x T C B)) as S.
    unfold y. rewrite pafter_app. cbn [ParsModel.pafter ParsModel.pstep]. set (z := pafter h x) in *.
    destruct (set_state t z b S) as (P & [S1 S2] & Y & I & Ct & Hd). set (w := fst (p_set bits z (NBytes b))) in *. split; auto.
    assert (Bd : der_of_string t b (snd (base_dump k (q_obj w)))) by (apply base_dump_string; auto).
    split.
    - unfold ParsModel.p_dump. rewrite I. cbn [orb]. destruct (base_dump k (q_obj w)). exact Bd.
    - intros N U. assert (Z : q_parsed z = None).
      { unfold z. clear -N U. revert x N. induction h as [|d h IH]; intros x N; auto. cbn [forallb] in U. apply andb_true_iff in U as [U1 U2].
        cbn [ParsModel.pafter]. apply IH; auto. destruct d; cbn [unparsing] in U1; try discriminate; cbn [ParsModel.pstep].
        - unfold p_set. destruct v; exact N.
        - destruct (p_bytes_frame bits c x) as [_ Q]. congruence.
        - unfold ParsModel.p_native. destruct (contents (q_obj x)); [|exact N]. rewrite N.
          destruct (p_bytes_frame bits c x) as [_ Q]. destruct (p_bytes x) as [x1 [r|r]]; cbn [fst] in *; congruence.
        - unfold ParsModel.p_dump. rewrite N. destruct (e_indef (o_enc (q_obj x)) || force).
          + destruct (contents (q_obj x)).
            * destruct (p_bytes_frame bits c x) as [_ Q]. destruct (p_bytes x) as [x1 [r|r]]; cbn [fst bind] in *; [|congruence].
              cbn [p_set]. destruct (base_dump k _). cbn [fst q_parsed]. congruence.
            * exact N.
          + destruct (base_dump k (q_obj x)). reflexivity.
        - rewrite N. exact N. }
      split; [congruence|]. split.
      + unfold ParsModel.p_native. rewrite Ct, P, Z. destruct (p_bytes w) as [w1 r]. cbn [snd] in *. now subst r.
      + unfold ParsModel.p_dump. rewrite P, Z, I. cbn [orb]. rewrite Ct.
        destruct (p_bytes_frame bits c w) as [(F1 & F2 & F3) Q]. pose proof (p_bytes_steady bits c t w (conj S1 S2)) as Sw. destruct (p_bytes w) as [w1 r]. cbn [snd fst] in *. subst r. cbn [bind].
        assert (S3 : steady t (PObj (set_contents (q_obj w1) None) (q_parsed w1))) by (destruct Sw; split; auto).
        destruct (set_state t _ b S3) as (_ & [S4 S5] & _ & _ & Ct2 & Hd2).
        destruct (p_set bits (PObj (set_contents (q_obj w1) None) (q_parsed w1)) (NBytes b)) as [w2 r] eqn:Ew. cbn [fst] in *.
        assert (r = Ok tt) as -> by (unfold p_set in Ew; now injection Ew as _ <-).
        pose proof (base_dump_string t (q_obj w2) b K S4 S5 Ct2 Hd2) as G. destruct (base_dump k (q_obj w2)). exact G.
  Qed.

  (* the object for which the octets stand, after any looking *)
  Lemma parsed_rep n p a d r l v : wf (cls n) -> taggable (cls n) (given_params p) -> ber_encodes (cls n) (stags (cls n) (given_params p)) a d ->
    parse_with (Some n) p (d ++ r) = Ok (n, v) -> reads l = true ->
    exists a' q, sim (cls n) a a' /\ rep q true (cls n) (stags (cls n) (given_params p)) a' (after (cls n) l v).
  Proof.
    intros W T H E L. destruct (load_rep (cls n) (given_params p) a d r false W T H) as (v' & a' & E' & S & R); [discriminate|].
    unfold ParsModel.parse_with in E. fold (given_params p) in E. rewrite E' in E. cbn [bind] in E. injection E as <-. exists a'.
    destruct (history_ok (cls n) _ W (tok _ _ W T) l a' Lost true v' (reading_safe _ l a' L) R) as (b & Lb & Rb).
    apply reading_leads in Lb; auto. subst b. rewrite (reading_stores l L) in Rb. cbn in Rb. eauto.
  Qed.

  Lemma dump_parsed t y q e force : tagging_ok t -> steady t y -> q_parsed y = Some q -> e_indef (o_enc (q_obj y)) || force = true ->
    snd (x_dump (methods (cls (q_class q))) true (q_value q)) = Ok e ->
    der_of_string t e (snd (p_dump force y)) /\
    let z := fst (p_dump force y) in
    snd (p_bytes z) = Ok e /\ contents (q_obj z) <> None /\ q_parsed z = Some (with_value q (fst (x_dump (methods (cls (q_class q))) true (q_value q)))) /\ steady t z.
  Proof.
    intros K Sy Q F E. pose proof (p_dump_steady cls bits c t force y Sy) as Sz. unfold ParsModel.p_dump in *. rewrite F, Q in *.
    destruct (x_dump (methods (cls (q_class q))) true (q_value q)) as [v r]. cbn [snd fst bind] in *. subst r. cbn [bind] in *.
    assert (S3 : steady t (PObj (set_contents (q_obj (PObj (q_obj y) (Some (with_value q v)))) None) (q_parsed (PObj (q_obj y) (Some (with_value q v)))))).
    { destruct Sy; split; auto. }
    destruct (set_state t _ e S3) as (P3 & [S4 S5] & By & _ & Ct2 & Hd2). cbn [q_obj q_parsed] in *.
    destruct (p_set bits (PObj (set_contents (q_obj y) None) (Some (with_value q v))) (NBytes e)) as [w2 r] eqn:Ew. cbn [fst] in *.
    assert (r = Ok tt) as -> by (unfold p_set in Ew; now injection Ew as _ <-).
    pose proof (base_dump_string t (q_obj w2) e K S4 S5 Ct2 Hd2) as G.
    pose proof (base_dump_keeps k (q_obj w2)) as (B1 & B2 & B3 & B4). destruct (base_dump k (q_obj w2)) as [o r]. cbn [fst snd q_obj q_parsed] in *.
    split; [exact G|]. split; [|split; [congruence|split; [congruence|exact Sz]]].
    rewrite <- By. apply p_bytes_dep; cbn [q_obj]; congruence.
  Qed.

  Theorem forced p0 t x n p a d r e h : init_tagging c p0 = Ok t -> tags_compatible c p0 -> tagging_ok t -> begins cls bits c p0 x ->
    q_parsed x = None -> snd (p_bytes x) = Ok (d ++ r) -> forallb (looks (e_indef (o_enc (q_obj x)))) h = true ->
    wf (cls n) -> taggable (cls n) (given_params p) -> ber_encodes (cls n) (stags (cls n) (given_params p)) a d ->
    der (cls n) (stags (cls n) (given_params p)) a e ->
    exists y v a', p_parse (Some n) p (pafter h x) = (y, Ok (n, v)) /\ sim (cls n) a a' /\
      (exists w, snd (p_native y) = Ok w /\ shows (cls n) a' w) /\
      forall force, e_indef (o_enc (q_obj x)) || force = true ->
        der_of_string t e (snd (p_dump force y)) /\ snd (p_bytes (fst (p_dump force y))) = Ok e /\
        exists w, snd (p_native (fst (p_dump force y))) = Ok w /\ shows (cls n) a' w.
  Proof.
    intros T C K Bg P B H W Tg Be De. pose proof (tok _ _ W Tg) as Ht.
    pose proof (seen_after cls guess bits c (q_obj x) _ h x H (seen_start cls guess bits c x _ P B)) as S.
    pose proof (steady_after cls guess bits c t h x (begins_steady p0 t x T C Bg)) as Sy.
    destruct (seen_parse cls guess bits c _ _ _ (Some n) p S) as [S1 R].
    assert (Q : forall n' v, snd (p_parse (Some n) p (pafter h x)) = Ok (n', v) -> n' = n /\
      exists q, q_parsed (fst (p_parse (Some n) p (pafter h x))) = Some q /\ q_class q = n /\ q_value q = v /\ q_spec q = Some n /\ q_params q = p).
    { intros n' v. unfold ParsModel.p_parse. set (y0 := pafter h x) in *.
      assert (G : snd (match p_bytes y0 with (x1, Ok b) => match parse_with (Some n) p b with Ok (n0, v0) => (PObj (q_obj x1) (Some (Parsed n0 v0 (Some n) p)), Ok (n0, v0)) | Err e0 => (x1, Err e0) end | (x1, Err e0) => (x1, Err e0) end) = Ok (n', v) ->
        n' = n /\ exists q, q_parsed (fst (match p_bytes y0 with (x1, Ok b) => match parse_with (Some n) p b with Ok (n0, v0) => (PObj (q_obj x1) (Some (Parsed n0 v0 (Some n) p)), Ok (n0, v0)) | Err e0 => (x1, Err e0) end | (x1, Err e0) => (x1, Err e0) end)) = Some q /\ q_class q = n /\ q_value q = v /\ q_spec q = Some n /\ q_params q = p).
      { destruct (p_bytes y0) as [x1 [b1|]]; [|discriminate]. destruct (parse_with (Some n) p b1) as [[n0 v0]|] eqn:Pw; [|discriminate].
        cbn [snd fst q_parsed]. intros E. injection E as -> ->. unfold ParsModel.parse_with in Pw. apply bind_ok in Pw as (u & _ & Pw). injection Pw as -> ->.
        split; auto. eexists. split; [reflexivity|]. auto. }
      destruct (q_parsed y0) as [q|] eqn:Qy; [|exact G]. destruct (same_key q (Some n) p) eqn:Ky; [|exact G].
      cbn [snd fst]. intros E. injection E as <- <-. apply same_key_eq in Ky as [Ks Kp].
      destruct (n_view _ _ _ _ _ _ _ S q Qy) as (l0 & v0 & _ & Pw & _). rewrite Ks in Pw. unfold ParsModel.parse_with in Pw.
      apply bind_ok in Pw as (u & _ & Pw). injection Pw as Pw _. split; [congruence|]. exists q. repeat split; auto. }
    destruct (load_rep (cls n) (given_params p) a d r false W Tg Be) as (v0 & a0 & E0 & _ & _); [discriminate|].
    assert (Pw0 : parse_with (Some n) p (d ++ r) = Ok (n, v0)) by (unfold ParsModel.parse_with; fold (given_params p); now rewrite E0).
    pose proof (p_parse_steady cls guess bits c t (Some n) p _ Sy) as Sp.
    destruct (p_parse (Some n) p (pafter h x)) as [y [[n' v]|e0]]; cbn [snd fst] in *; [|congruence].
    destruct R as (l & v1 & L & Pw & ->). destruct (Q _ _ eq_refl) as (-> & q & Qq & Qc & Qv & Qs & Qp).
    destruct (parsed_rep n p a d r l v1 W Tg Be Pw L) as (a' & m & Sm & Rp).
    exists y, (after (cls n) l v1), a'. split; auto. split; auto.
    assert (NC : contents (q_obj y) <> None).
    { intros Z. pose proof (n_bytes _ _ _ _ _ _ _ S1) as Bz. unfold ParsModel.p_bytes in Bz. rewrite Z in Bz. cbn [snd] in Bz.
      injection Bz as Bz. rewrite <- Bz in E0. vm_compute in E0. discriminate. }
    assert (NAT : forall z, contents (q_obj z) <> None -> forall v2 m2, (exists q2, q_parsed z = Some q2 /\ q_class q2 = n /\ q_value q2 = v2) ->
      rep m2 true (cls n) (stags (cls n) (given_params p)) a' v2 -> exists w, snd (p_native z) = Ok w /\ shows (cls n) a' w).
    { intros z Cz v2 m2 (q2 & Z1 & Z2 & Z3) R2. unfold ParsModel.p_native. destruct (contents (q_obj z)); [|congruence]. rewrite Z1, Z2, Z3.
      destruct (K_native (cls n) (contract_all _ W) _ _ _ _ _ Ht R2) as (v3 & w & E & _ & _ & _ & _ & Sh). rewrite E. exists w. auto. }
    split; [eapply NAT; eauto|].
    intros force F. rewrite <- (n_ind _ _ _ _ _ _ _ S1) in F.
    destruct (dump_parsed t y q e force K Sp Qq F) as (G1 & G2 & G3 & G4 & _).
    { rewrite Qc, Qv. eapply forced_dump_rep; eauto. eapply der_sim; eauto. }
    split; auto. split; auto. rewrite Qc, Qv in G4.
    destruct (K_dump (cls n) (contract_all _ W) _ _ _ _ _ true Ht Rp) as (v4 & d4 & E4 & _ & _ & R4 & _). rewrite E4 in G4. cbn [fst] in G4.
    eapply NAT; [exact G3| |exact R4]. eexists. split; [exact G4|]. cbn. auto.
  Qed.

  (* ---- built from an object ---- *)
  Theorem from_object p t n q i a d v : init_tagging c p = Ok t -> tagging_ok t ->
    wf (cls n) -> taggable (cls n) q -> denotes (cls n) i a -> der (cls n) (stags (cls n) q) a d -> x_make (methods (cls n)) q None i = Ok v ->
    exists x a', p_make_parsed cls bits c p n v = Ok x /\ snd (p_bytes x) = Ok d /\ sim (cls n) a a' /\
      (exists w, snd (p_native x) = Ok w /\ shows (cls n) a' w) /\ forall force, der_of_string t d (snd (p_dump force x)).
  Proof.
    intros T K W Tg Di D Ev. pose proof (tok _ _ W Tg) as Ht.
    destruct (either_rep (cls n) q i a d v W Tg Di D (or_introl Ev)) as (a1 & S1 & R1 & _).
    assert (D1 : der (cls n) (stags (cls n) q) a1 d) by (eapply der_sim; eauto).
    destruct (K_dump (cls n) (contract_all _ W) _ _ _ _ _ false Ht R1) as (v1 & d1 & E1 & _ & _ & R2 & En).
    assert (d1 = d) as -> by (eapply encodes_fun; [exact W|apply En; auto|now apply der_encodes]).
    unfold p_make_parsed. rewrite E1. cbn [bind]. unfold p_make, new_obj. rewrite T. cbn [bind].
    assert (S0 : steady t (PObj (Obj t (Enc 0 None (initial_contents k) [] false) no_cache None) None)) by (split; [reflexivity|now left]).
    destruct (set_state t _ d S0) as (P3 & Sx & By & Ind & Ct & Hd).
    destruct (p_set bits (PObj (Obj t (Enc 0 None (initial_contents k) [] false) no_cache None) None) (NBytes d)) as [y r] eqn:Ew. cbn [fst] in *.
    assert (r = Ok tt) as -> by (unfold p_set in Ew; now injection Ew as _ <-). cbn [bind].
    eexists. exists a1. split; [reflexivity|]. cbn [q_obj].
    split; [rewrite <- By; now apply p_bytes_dep|]. split; auto. split.
    - unfold ParsModel.p_native. cbn [q_obj q_parsed q_class q_value]. rewrite Ct.
      destruct (K_native (cls n) (contract_all _ W) _ _ _ _ _ Ht R2) as (v3 & w & E & _ & _ & _ & _ & Sh). rewrite E. exists w. auto.
    - intros [|].
      + apply dump_parsed with (q := Parsed n v1 (Some n) None); auto; [now rewrite orb_true_r|].
        cbn [q_class q_value]. eapply forced_dump_rep; eauto.
      + unfold ParsModel.p_dump. cbn [q_obj]. rewrite Ind. cbn [orb]. destruct Sx as [Sx1 Sx2].
        pose proof (base_dump_string t (q_obj y) d K Sx1 Sx2 Ct Hd) as G. destruct (base_dump k (q_obj y)). exact G.
  Qed.

  (* ---- the octets remembered are those of the contents ---- *)
  Definition coherent (x : pobj) : Prop := forall cont b, contents (q_obj x) = Some cont -> c_bytes (o_cache (q_obj x)) = Some b ->
    pmerged bits c (e_indef (o_enc (q_obj x))) cont = Ok b.
  Lemma coherent_dep x y : contents (q_obj x) = contents (q_obj y) -> c_bytes (o_cache (q_obj x)) = c_bytes (o_cache (q_obj y)) ->
    e_indef (o_enc (q_obj x)) = e_indef (o_enc (q_obj y)) -> coherent y -> coherent x.
  Proof. intros A B C H cont b. rewrite A, B, C. apply H. Qed.
  Lemma coherent_bytes x : coherent x -> coherent (fst (p_bytes x)).
  Proof.
    intros H. unfold ParsModel.p_bytes. destruct (contents (q_obj x)) as [cont|] eqn:E; [|exact H]. destruct (c_bytes (o_cache (q_obj x))) eqn:E2; [exact H|].
    destruct (pmerged bits c (e_indef (o_enc (q_obj x))) cont) as [l|] eqn:M; [|exact H]. cbn [fst]. intros cont' b'. cbn [q_obj].
    change (contents (set_bytes (q_obj x) (Some l))) with (contents (q_obj x)). change (e_indef (o_enc (set_bytes (q_obj x) (Some l)))) with (e_indef (o_enc (q_obj x))).
    rewrite E. intros Q. injection Q as <-. cbn. intros Q. injection Q as <-. exact M.
  Qed.
  Lemma coherent_set x v : coherent x -> coherent (fst (p_set bits x v)).
  Proof.
    intros H. unfold p_set. destruct v; try exact H. cbn [fst]. intros cont b'. cbn [q_obj]. unfold store. rewrite pkind_con. cbn [andb].
    change (e_indef (o_enc (set_bytes (q_obj x) (Some b)))) with (e_indef (o_enc (q_obj x))).
    unfold contents.
    destruct (e_indef (o_enc (q_obj x))) eqn:E; cbn [with_enc set_bytes o_enc e_contents o_cache c_bytes e_indef]; intros Q1 Q2;
      injection Q1 as <-; injection Q2 as <-; rewrite ?E, pcontents_whole; apply pmerged_whole.
  Qed.
  Lemma coherent_parse s p x : coherent x -> coherent (fst (p_parse s p x)).
  Proof.
    intros H. unfold ParsModel.p_parse. pose proof (coherent_bytes x H) as A.
    assert (G : coherent (fst (match p_bytes x with (x1, Ok b) => match parse_with s p b with Ok (n0, v0) => (PObj (q_obj x1) (Some (Parsed n0 v0 s p)), Ok (n0, v0)) | Err e0 => (x1, Err e0) end | (x1, Err e0) => (x1, Err e0) end))).
    { destruct (p_bytes x) as [x1 [b|e]]; [|exact A]. destruct (parse_with s p b) as [[]|]; exact A. }
    destruct (q_parsed x) as [q|]; [|exact G]. destruct (same_key q s p); [exact H|exact G].
  Qed.
  Lemma coherent_step d x : coherent x -> coherent (pstep d x).
  Proof.
    intros H. destruct d; cbn [ParsModel.pstep].
    - now apply coherent_set.
    - now apply coherent_parse.
    - unfold ParsModel.p_parsed. destruct (q_parsed x); [exact H|now apply coherent_parse].
    - now apply coherent_bytes.
    - unfold ParsModel.p_native. destruct (contents (q_obj x)); [|exact H]. destruct (q_parsed x) as [q|].
      + destruct (x_native (methods (cls (q_class q))) (q_value q)). exact H.
      + pose proof (coherent_bytes x H) as A. destruct (p_bytes x) as [x1 [r|r]]; exact A.
    - unfold ParsModel.p_dump.
      assert (F : forall y, coherent y -> coherent (fst (let '(o, r) := base_dump k (q_obj y) in (PObj o (q_parsed y), r)))).
      { intros y Hy. pose proof (base_dump_keeps k (q_obj y)) as (B1 & B2 & B3 & B4). destruct (base_dump k (q_obj y)) as [o r]. cbn [fst] in *.
        eapply coherent_dep; [| | |exact Hy]; cbn [q_obj]; congruence. }
      destruct (e_indef (o_enc (q_obj x)) || force); [|now apply F].
      match goal with |- context [let '(x1, r) := ?e in _] => assert (A : coherent (fst e)) end.
      { destruct (q_parsed x) as [q|].
        - destruct (x_dump (methods (cls (q_class q))) true (q_value q)) as [v r]. exact H.
        - destruct (contents (q_obj x)); [|exact H]. pose proof (coherent_bytes x H) as A. destruct (p_bytes x) as [x1 r]. exact A. }
      match goal with |- context [let '(x1, r) := ?e in _] => destruct e as [x1 r] end. cbn [fst] in A.
      destruct r as [n|e]; [|exact A].
      assert (B : coherent (fst (p_set bits (PObj (set_contents (q_obj x1) None) (q_parsed x1)) n))) by (apply coherent_set; intros cont b; discriminate).
      destruct (p_set bits (PObj (set_contents (q_obj x1) None) (q_parsed x1)) n) as [x2 [[]|e]]; [|exact B]. now apply F.
    - destruct (q_parsed x); exact H.
  Qed.
  Lemma coherent_after h : forall x, coherent x -> coherent (pafter h x).
  Proof. induction h as [|d h IH]; intros x S; auto. cbn [ParsModel.pafter]. apply IH. now apply coherent_step. Qed.
  Lemma make_coherent p v x : p_make bits c p v = Ok x -> coherent x.
  Proof.
    intros H. unfold p_make in H. apply bind_ok in H as (o & N & H).
    assert (S : coherent (PObj o None)).
    { unfold new_obj in N. apply bind_ok in N as (t & _ & N). injection N as <-. intros cont b. cbn. discriminate. }
    destruct v; try (injection H as <-; exact S); try discriminate.
    pose proof (coherent_set _ (NBytes b) S) as A. destruct (p_set bits _ (NBytes b)) as [y [[]|e]]; [|discriminate]. injection H as <-. exact A.
  Qed.
  Lemma begins_coherent p x : begins cls bits c p x -> coherent x.
  Proof.
    intros [d strict y B H|v y H|n v y H].
    - unfold p_load in H. apply bind_ok in H as (o & L & H). injection H as <-. destruct (load_fresh k c p d strict o B L) as (b0 & _ & _ & A & _).
      intros cont b. cbn [q_obj]. rewrite A. discriminate.
    - eapply make_coherent; eauto.
    - unfold p_make_parsed in H. destruct (x_dump (methods (cls n)) false v) as [v' r]. apply bind_ok in H as (b & _ & H).
      apply bind_ok in H as (z & M & H). injection H as <-. pose proof (make_coherent p _ _ M) as A. exact A.
  Qed.

  (* copies stand for the same octets and are written as DER *)
  Theorem copied p t x h b : init_tagging c p = Ok t -> tags_compatible c p -> tagging_ok t -> begins cls bits c p x ->
    let y := pafter h x in contents (q_obj y) <> None -> snd (p_bytes y) = Ok b ->
    match q_parsed y with
    | None => exists z, p_copy cls bits c y = Ok z /\ q_parsed z = None /\ snd (p_bytes z) = Ok b /\ snd (p_native z) = Ok (APrim (NBytes b)) /\ der_of_string t b (snd (p_dump false z))
    | Some q => forall v, x_copy (methods (cls (q_class q))) (q_value q) = Ok v ->
        exists z, p_copy cls bits c y = Ok z /\ q_parsed z = Some (with_value q v) /\ snd (p_bytes z) = Ok b /\ der_of_string t b (snd (p_dump false z))
    end.
  Proof.
    intros T C K Bg y N Yb. pose proof (steady_after cls guess bits c t h x (begins_steady p t x T C Bg)) as [S1 S2].
    pose proof (coherent_after h x (begins_coherent p x Bg)) as Co. fold y in S1, S2, Co.
    assert (G : exists r, (do (r, src) <- (if e_indef (o_enc (q_obj y)) then
                      match p_bytes y with
                      | (x1, Ok b) => match p_set bits (PObj (Obj (o_tagging (q_obj y)) (Enc 0 None (contents (q_obj y)) [] false) (Cache (c_native (o_cache (q_obj y))) None None [] None) None) None) (NBytes b) with
                                      | (r, Ok tt) => Ok (q_obj r, q_obj x1)
                                      | (_, Err e) => Err e
                                      end
                      | (_, Err e) => Err e
                      end
                    else Ok (Obj (o_tagging (q_obj y)) (Enc 0 None (contents (q_obj y)) [] false) (Cache (c_native (o_cache (q_obj y))) None None [] None) None, q_obj y)); Ok (set_bytes r (c_bytes (o_cache src)))) = Ok r /\
        o_tagging r = t /\ o_enc r = Enc 0 None (Some (whole bits b)) [] false /\ (c_bytes (o_cache r) = None \/ c_bytes (o_cache r) = Some b)).
    { destruct (e_indef (o_enc (q_obj y))) eqn:I.
      - unfold ParsModel.p_bytes in *. destruct (contents (q_obj y)) as [cont|] eqn:Ct; [|congruence].
        destruct (c_bytes (o_cache (q_obj y))) as [b0|] eqn:Cb; cbn [snd] in Yb.
        + injection Yb as ->. cbn. eexists. split; [reflexivity|]. unfold store; cbn; rewrite ?Cb; destruct bits; cbn; auto.
        + rewrite I in *. destruct (pmerged bits c true cont) as [b0|] eqn:M; [|discriminate]. cbn [snd] in Yb. injection Yb as ->. cbn.
          eexists. split; [reflexivity|]. unfold store; cbn; destruct bits; cbn; auto.
      - cbn [bind]. eexists. split; [reflexivity|]. cbn. split; auto.
        unfold ParsModel.p_bytes in Yb. destruct (contents (q_obj y)) as [cont|] eqn:Ct; [|congruence].
        assert (M : pmerged bits c false cont = Ok b /\ (c_bytes (o_cache (q_obj y)) = None \/ c_bytes (o_cache (q_obj y)) = Some b)).
        { destruct (c_bytes (o_cache (q_obj y))) as [b0|] eqn:Cb; cbn [snd] in Yb.
          - injection Yb as ->. split; auto. rewrite <- I. now apply Co.
          - rewrite I in Yb. destruct (pmerged bits c false cont) eqn:M; [|discriminate]. cbn [snd] in Yb. injection Yb as ->. auto. }
        destruct M as [M Cb]. split; auto. f_equal. f_equal. unfold pmerged in M. cbn [merge] in M. unfold pchunk, whole in *.
        destruct bits; [|now injection M as ->]. destruct cont as [|u r]; [discriminate|]. destruct (Z.eqb_spec u 0); [|discriminate]. injection M as ->. now subst u. }
    destruct G as (r & G & Gt & Ge & Gc). apply bind_ok in G as ([r0 src] & G & Gr). injection Gr as Gr.
    assert (F : forall q2, let z := PObj r q2 in snd (p_bytes z) = Ok b /\ der_of_string t b (snd (p_dump false z))).
    { intros q2 z. split.
      - unfold ParsModel.p_bytes, z, contents. cbn [q_obj]. rewrite Ge. cbn [e_contents e_indef]. destruct Gc as [-> | ->]; auto. now rewrite pmerged_whole.
      - unfold ParsModel.p_dump, z. cbn [q_obj]. rewrite Ge. cbn [e_indef orb].
        assert (Q : der_of_string t b (snd (base_dump k r))).
        { apply base_dump_string; auto; [left|unfold contents|]; now rewrite Ge. }
        destruct (base_dump k r). exact Q. }
    unfold p_copy. rewrite G. cbn [bind]. rewrite Gr. destruct (q_parsed y) as [q|].
    - intros v Ev. rewrite Ev. cbn [bind]. eexists. split; [reflexivity|]. split; [reflexivity|]. apply F.
    - cbn [bind]. eexists. split; [reflexivity|]. split; [reflexivity|]. destruct (F None) as [F1 F2]. split; auto. split; auto.
      unfold ParsModel.p_native. cbn [q_obj q_parsed]. unfold contents. rewrite Ge. cbn [e_contents]. destruct (p_bytes (PObj r None)) as [z1 rr]. cbn [snd] in F1. now subst rr.
  Qed.
End Final.
