(* Proofs about ParsableOctetString and ParsableOctetBitString. *)
Require Import Verif.Base Verif.BaseFacts Verif.IntModel Verif.IntSpec Verif.IntProofs
  Verif.ParserModel Verif.ParserSpec Verif.ParserProofs Verif.ParserFacts Verif.Text
  Verif.TagSpec Verif.TagProofs Verif.ChunkSpec Verif.ChunkProofs
  Verif.PrimModel Verif.PrimSpec Verif.PrimProofs Verif.PrimSet Verif.PrimDump Verif.PrimLoad Verif.HistSpec Verif.PrimHist
  Verif.PrimRead Verif.PrimSide Verif.SegLoad Verif.ContModel Verif.ContSpec Verif.ContBase Verif.ContRep Verif.ContPrim Verif.ContSeq Verif.ContSeq2
  Verif.ContList Verif.ContChoice Verif.ContPath Verif.ContHistSpec Verif.ContHist Verif.ContHist2 Verif.ContFinal Verif.BerSpec Verif.BerProofs Verif.BerFinal
  Verif.ParsModel Verif.ParsSpec.

Lemma eqb_pairs_eq a : forall b, eqb_pairs a b = true -> a = b.
Proof.
  induction a as [|[x y] a IH]; intros [|[u w] b] H; auto; try discriminate.
  unfold eqb_pairs in *. cbn [length combine forallb fst snd] in H.
  apply andb_true_iff in H as [L H]. apply andb_true_iff in H as [H1 H]. apply andb_true_iff in H1 as [H1 H2].
  apply Z.eqb_eq in H1, H2. subst. f_equal. apply IH. cbn in L. now rewrite L, H.
Qed.
Lemma eqb_params_eq a b : eqb_params a b = true -> a = b.
Proof.
  destruct a as [ea ia na], b as [eb ib nb]. unfold eqb_params. cbn [p_explicit p_implicit p_no_explicit].
  intros H. apply andb_true_iff in H as [H H3]. apply andb_true_iff in H as [H1 H2]. apply eqb_pairs_eq in H1. subst.
  apply Bool.eqb_prop in H3. subst. f_equal. destruct ia as [[]|], ib as [[]|]; try discriminate; auto. cbn in H2.
  apply andb_true_iff in H2 as [A B]. apply Z.eqb_eq in A, B. now subst.
Qed.
Lemma same_key_eq q s p : same_key q s p = true -> q_spec q = s /\ q_params q = p.
Proof.
  unfold same_key. intros H. apply andb_true_iff in H as [A B]. split.
  - destruct (q_spec q), s; try discriminate; auto. cbn in A. apply Nat.eqb_eq in A. now subst.
  - destruct (q_params q), p; try discriminate; auto. cbn in B. apply eqb_params_eq in B. now subst.
Qed.

Lemma after_app s g : forall h v, after s (g ++ h) v = after s h (after s g v).
Proof. induction g as [|[p x] g IH]; intros h v; cbn; auto. Qed.

Lemma pcontents_whole bits b : pcontents bits b = whole bits b.
Proof. now destruct bits. Qed.
Lemma pkind_con bits : constructable (pkind bits) = true.
Proof. now destruct bits. Qed.

(* ---- the octets of an encoded string ---- *)
Lemma pchunks bits xs : traverse (B := list Z) (pchunk bits false) (map (whole bits) xs) = Ok xs.
Proof.
  induction xs as [|x r IH]; cbn [map traverse]; auto.
  assert (E : pchunk bits false (whole bits x) = Ok x) by (now destruct bits).
  rewrite E. cbn [bind]. unfold bytes in *. now rewrite IH.
Qed.

Lemma pmerged_whole bits c b : pmerged bits c false (whole bits b) = Ok b.
Proof. unfold pmerged. cbn [merge]. now destruct bits. Qed.

Lemma pmerged_segments bits c n cont xs : k_explicit c = [] -> (n < 10)%nat ->
  segments (k_class c) (own_tag c) (negb bits) n cont (map (whole bits) xs) -> (bits = true -> xs <> []) ->
  pmerged bits c true cont = Ok (concat xs).
Proof.
  intros X N S NE. unfold pmerged.
  rewrite (merge_segments Z (pchunk bits) (pkind bits) c X (pkind_con bits) (negb bits) n cont (map (whole bits) xs)); auto.
  - unfold collect. pose proof (pchunks bits xs) as E. unfold bytes in *. rewrite E. reflexivity.
  - destruct bits; [discriminate|]. reflexivity.
  - destruct bits; [|discriminate]. intros _. specialize (NE eq_refl). now destruct xs.
Qed.

Section Facts.
  Variable cls : nat -> spec.
  Variable guess : option params -> bytes -> res (nat * value).
  Variable bits : bool.
  Variable c : pcls.
  Notation k := (pkind bits).
  Notation p_bytes := (p_bytes bits c).
  Notation p_parse := (p_parse cls guess bits c).
  Notation p_parsed := (p_parsed cls guess bits c).
  Notation p_native := (p_native cls bits c).
  Notation p_dump := (p_dump cls bits c).
  Notation pstep := (pstep cls guess bits c).
  Notation pafter := (pafter cls guess bits c).
  Notation parse_with := (parse_with cls guess).

  Lemma pafter_app g : forall h x, pafter (g ++ h) x = pafter h (pafter g x).
  Proof. induction g as [|d g IH]; intros h x; cbn; auto. Qed.

  (* what is not a cache *)
  Lemma p_bytes_frame x : frame (q_obj (fst (p_bytes x))) (q_obj x) /\ q_parsed (fst (p_bytes x)) = q_parsed x.
  Proof.
    unfold ParsModel.p_bytes. destruct (contents (q_obj x)); [|repeat split]. destruct (c_bytes (o_cache (q_obj x))); [repeat split|].
    destruct (pmerged bits c (e_indef (o_enc (q_obj x))) b); repeat split.
  Qed.
  Lemma p_bytes_again x : snd (p_bytes (fst (p_bytes x))) = snd (p_bytes x).
  Proof.
    unfold ParsModel.p_bytes at 2 3. destruct (contents (q_obj x)) as [cont|] eqn:E; cbn [fst snd]; [|unfold ParsModel.p_bytes; now rewrite E].
    destruct (c_bytes (o_cache (q_obj x))) eqn:E2; cbn [fst snd]; [unfold ParsModel.p_bytes; now rewrite E, E2|].
    destruct (pmerged bits c (e_indef (o_enc (q_obj x))) cont) as [y|y] eqn:M; cbn [fst snd]; unfold ParsModel.p_bytes.
    - cbn [q_obj]. change (contents (set_bytes (q_obj x) (Some y))) with (contents (q_obj x)). rewrite E. reflexivity.
    - now rewrite E, E2, M.
  Qed.
  (* the octets only depend on the object of the string *)
  Lemma p_bytes_obj o q q' : snd (p_bytes (PObj o q)) = snd (p_bytes (PObj o q')) /\
    q_obj (fst (p_bytes (PObj o q))) = q_obj (fst (p_bytes (PObj o q'))).
  Proof.
    unfold ParsModel.p_bytes. cbn [q_obj q_parsed]. destruct (contents o); [|split; reflexivity]. destruct (c_bytes (o_cache o)); [split; reflexivity|].
    destruct (pmerged bits c (e_indef (o_enc o)) b); split; reflexivity.
  Qed.

  (* ---- looking ---- *)
  Definition reads (l : list deed) : bool := forallb (fun x => reading (snd x)) l.
  Definition view (b : bytes) (q : parsed) : Prop := exists l v, reads l = true /\
    parse_with (q_spec q) (q_params q) b = Ok (q_class q, v) /\ q_value q = after (cls (q_class q)) l v.

  Lemma native_is_read s v : fst (x_native (methods s) v) = after s [([], ARead)] v.
  Proof.
    cbn [after through]. unfold perform. destruct v; cbn [fst reply]; try reflexivity.
    destruct s; try reflexivity.
  Qed.

  Lemma dump_is_read s v f : fst (x_dump (methods s) f v) = after s [([], ADump f)] v.
  Proof.
    cbn [after through]. unfold perform. destruct v; cbn [fst reply]; try reflexivity.
    destruct s; destruct f; reflexivity.
  Qed.

  Lemma p_bytes_dep x y : contents (q_obj x) = contents (q_obj y) -> c_bytes (o_cache (q_obj x)) = c_bytes (o_cache (q_obj y)) ->
    e_indef (o_enc (q_obj x)) = e_indef (o_enc (q_obj y)) -> snd (p_bytes x) = snd (p_bytes y).
  Proof.
    intros A B C. unfold ParsModel.p_bytes. rewrite A, B, C. destruct (contents (q_obj y)); auto. destruct (c_bytes (o_cache (q_obj y))); auto.
    destruct (pmerged bits c (e_indef (o_enc (q_obj y))) b); auto.
  Qed.

  Lemma base_dump_keeps kk o : contents (fst (base_dump kk o)) = contents o /\ o_cache (fst (base_dump kk o)) = o_cache o /\
    e_indef (o_enc (fst (base_dump kk o))) = e_indef (o_enc o) /\ o_tagging (fst (base_dump kk o)) = o_tagging o.
  Proof.
    unfold base_dump. destruct (e_contents (o_enc o)) as [x|] eqn:E; [|repeat split; auto].
    destruct (if ends_80 (e_header (o_enc o)) then None else e_header (o_enc o)); cbn [fst]; repeat split. unfold contents. now rewrite E.
  Qed.
  Lemma base_dump_again kk o : snd (base_dump kk (fst (base_dump kk o))) = snd (base_dump kk o).
  Proof.
    unfold base_dump at 2 3. destruct (e_contents (o_enc o)) as [x|] eqn:E; cbn [fst snd]; [|unfold base_dump; now rewrite E].
    destruct (if ends_80 (e_header (o_enc o)) then None else e_header (o_enc o)) eqn:H; cbn [fst snd]; unfold base_dump; [now rewrite E, H|].
    cbn [with_enc o_enc e_contents e_header e_method e_indef o_tagging e_trailer].
    set (m := if constructable kk && e_indef (o_enc o) then 0 else e_method (o_enc o)).
    destruct (ends_80 (Some (full_header (o_tagging o) m x))); cbn [snd]; [|now rewrite app_nil_r].
    replace (if constructable kk && e_indef (o_enc o) then 0 else m) with m; auto. unfold m. now destruct (constructable kk && e_indef (o_enc o)).
  Qed.
  Lemma base_dump_dep kk o o' : o_enc o = o_enc o' -> o_tagging o = o_tagging o' -> snd (base_dump kk o) = snd (base_dump kk o').
  Proof.
    intros A B. unfold base_dump. rewrite A, B. destruct (e_contents (o_enc o')); auto.
    destruct (if ends_80 (e_header (o_enc o')) then None else e_header (o_enc o')); reflexivity.
  Qed.

  Record seen (o0 : obj) (b : bytes) (x : pobj) : Prop := Seen {
    n_bytes : snd (p_bytes x) = Ok b;
    n_tag : o_tagging (q_obj x) = o_tagging o0;
    n_cont : contents (q_obj x) = contents o0;
    n_ind : e_indef (o_enc (q_obj x)) = e_indef (o_enc o0);
    n_dump : snd (base_dump k (q_obj x)) = snd (base_dump k o0);
    n_view : forall q, q_parsed x = Some q -> view b q }.

  Lemma seen_bytes o0 b x : seen o0 b x -> seen o0 b (fst (p_bytes x)) /\ snd (p_bytes x) = Ok b.
  Proof.
    intros [B T C I D V]. destruct (p_bytes_frame x) as [(F1 & F2 & F3) P]. split; auto. split.
    - now rewrite p_bytes_again.
    - congruence.
    - unfold contents in *. congruence.
    - congruence.
    - rewrite <- D. now apply base_dump_dep.
    - rewrite P. exact V.
  Qed.
  Lemma seen_view o0 b o q q' : seen o0 b (PObj o q) -> (forall r, q' = Some r -> view b r) -> seen o0 b (PObj o q').
  Proof.
    intros [B T C I D V] H. split; auto. destruct (p_bytes_obj o q q') as [E _]. congruence.
  Qed.

  Lemma seen_parse o0 b x s p : seen o0 b x -> seen o0 b (fst (p_parse s p x)) /\
    match snd (p_parse s p x) with
    | Ok (n, v) => exists l v0, reads l = true /\ parse_with s p b = Ok (n, v0) /\ v = after (cls n) l v0
    | Err e => parse_with s p b = Err e
    end.
  Proof.
    intros S. assert (A : forall y, seen o0 b y ->
      let r := match p_bytes y with
      | (x1, Err e) => (x1, Err e)
      | (x1, Ok b) => match parse_with s p b with
                      | Err e => (x1, Err e)
                      | Ok (n, v) => (PObj (q_obj x1) (Some (Parsed n v s p)), Ok (n, v))
                      end
      end in seen o0 b (fst r) /\ match snd r with
    | Ok (n, v) => exists l v0, reads l = true /\ parse_with s p b = Ok (n, v0) /\ v = after (cls n) l v0
    | Err e => parse_with s p b = Err e
    end).
    { intros y Sy. destruct (seen_bytes _ _ _ Sy) as [S1 E]. destruct (p_bytes y) as [x1 r]. cbn [fst snd] in *. subst r.
      cbv zeta. destruct (parse_with s p b) as [[n v]|e] eqn:Q; cbn [fst snd]; [|split; auto].
      split; [|exists [], v; repeat split; auto]. destruct x1 as [o1 q1]. cbn [q_obj]. eapply seen_view; [exact S1|].
      intros r R. injection R as <-. exists [], v. repeat split; auto. }
    unfold ParsModel.p_parse. destruct (q_parsed x) as [q|] eqn:Q; [|exact (A x S)].
    destruct (same_key q s p) eqn:K; [|exact (A x S)].
    cbn [fst snd]. split; auto. apply same_key_eq in K as [<- <-]. destruct S as [_ _ _ _ _ V]. destruct (V q Q) as (l & v & L & P & E).
    exists l, v. auto.
  Qed.

  Lemma seen_inner o0 b x q l : seen o0 b x -> q_parsed x = Some q -> reads l = true ->
    seen o0 b (PObj (q_obj x) (Some (with_value q (after (cls (q_class q)) l (q_value q))))).
  Proof.
    intros S Q L. destruct x as [o q0]. cbn [q_obj q_parsed] in *. subst q0. eapply seen_view; [exact S|].
    intros r R. injection R as <-. destruct S as [_ _ _ _ _ V]. destruct (V q eq_refl) as (l0 & v & L0 & P & E).
    exists (l0 ++ l), v. split; [unfold reads in *; rewrite forallb_app; apply andb_true_iff; auto|]. cbn. split; auto. now rewrite after_app, <- E.
  Qed.

  Lemma seen_step o0 b x d : looks (e_indef (o_enc o0)) d = true -> seen o0 b x -> seen o0 b (pstep d x).
  Proof.
    intros H S. destruct d; cbn [looks] in H; try discriminate; cbn [ParsModel.pstep].
    - now apply seen_parse.
    - unfold ParsModel.p_parsed. destruct (q_parsed x); [exact S|]. now apply seen_parse.
    - now apply seen_bytes.
    - unfold ParsModel.p_native. destruct (contents (q_obj x)); [|exact S]. destruct (q_parsed x) as [q|] eqn:Q.
      + pose proof (native_is_read (cls (q_class q)) (q_value q)) as E. destruct (x_native (methods (cls (q_class q))) (q_value q)) as [v r].
        cbn [fst] in *. subst v. now apply seen_inner.
      + pose proof (proj1 (seen_bytes _ _ _ S)) as A. destruct (p_bytes x) as [x1 [r|r]]; exact A.
    - apply andb_true_iff in H as [F I]. unfold ParsModel.p_dump. destruct S as [B T C I' D V].
      rewrite I'. destruct force, (e_indef (o_enc o0)) eqn:I0; try discriminate. cbn [orb].
      pose proof (base_dump_keeps k (q_obj x)) as (K1 & K2 & K3 & K4). pose proof (base_dump_again k (q_obj x)) as K5.
      destruct (base_dump k (q_obj x)) as [o r]. cbn [fst snd] in *. split; cbn [q_obj q_parsed]; try congruence; auto.
      rewrite <- B. apply p_bytes_dep; cbn [q_obj]; congruence.
    - destruct (q_parsed x) as [q|] eqn:Q; [|exact S]. now apply seen_inner.
  Qed.

  Lemma seen_after o0 b h : forall x, forallb (looks (e_indef (o_enc o0))) h = true -> seen o0 b x -> seen o0 b (pafter h x).
  Proof.
    induction h as [|d h IH]; intros x H S; auto. cbn [forallb] in H. apply andb_true_iff in H as [H1 H2]. cbn [ParsModel.pafter].
    apply IH; auto. now apply seen_step.
  Qed.

  Lemma seen_start x b : q_parsed x = None -> snd (p_bytes x) = Ok b -> seen (q_obj x) b x.
  Proof. intros P B. split; auto. intros q Q. congruence. Qed.

  (* whatever was looked at before: the octets, what parsing gives, what dump() gives *)
  Theorem looking x b h : q_parsed x = None -> snd (p_bytes x) = Ok b -> forallb (looks (e_indef (o_enc (q_obj x)))) h = true ->
    let y := pafter h x in
    snd (p_bytes y) = Ok b /\
    (forall s p, match snd (p_parse s p y) with
                 | Ok (n, v) => exists l v0, reads l = true /\ parse_with s p b = Ok (n, v0) /\ v = after (cls n) l v0
                 | Err e => parse_with s p b = Err e
                 end) /\
    (e_indef (o_enc (q_obj x)) = false -> snd (p_dump false y) = snd (p_dump false x)).
  Proof.
    intros P B H y. pose proof (seen_after (q_obj x) b h x H (seen_start x b P B)) as S. fold y in S.
    split; [apply (n_bytes _ _ _ S)|]. split; [intros s p; exact (proj2 (seen_parse _ _ _ s p S))|].
    intros I. unfold ParsModel.p_dump. rewrite (n_ind _ _ _ S), I. cbn [orb]. pose proof (n_dump _ _ _ S) as D.
    destruct (base_dump k (q_obj y)), (base_dump k (q_obj x)). exact D.
  Qed.

  (* ---- loading ---- *)
  Lemma p_load_string p t b d strict : init_tagging c p = Ok t -> tags_compatible c p -> k_explicit c = [] -> string_of bits c t b d ->
    exists x, p_load bits c p d strict = Ok x /\ q_parsed x = None /\ snd (p_bytes x) = Ok b /\ contents (q_obj x) <> None /\
      o_tagging (q_obj x) = t /\ meth_ok k (q_obj x).
  Proof.
    intros T C X S. destruct S as [b d D|n i cont xs E I N S NE]; unfold p_load.
    - destruct (load_own k c p t (whole bits b) d strict T C D) as (h & L & _). rewrite L. cbn [bind]. eexists. split; [reflexivity|].
      split; auto. split; [|split; [discriminate|split; [reflexivity|now left]]].
      unfold ParsModel.p_bytes, loaded, contents. cbn [q_obj o_enc e_contents o_cache no_cache c_bytes e_indef].
      now rewrite pmerged_whole.
    - assert (G : segments (k_class c) (own_tag c) (tolerant k) n cont (map (whole bits) xs)) by (destruct bits; exact S).
      rewrite (load_segments k c p t n cont _ i strict T E C (pkind_con bits) I G N). cbn [bind]. eexists. split; [reflexivity|].
      split; auto. split; [|split; [discriminate|split; [reflexivity|right; split; [apply pkind_con|reflexivity]]]].
      unfold ParsModel.p_bytes, in_segments, contents. cbn [q_obj o_enc e_contents o_cache no_cache c_bytes e_indef].
      rewrite (pmerged_segments bits c n cont xs); auto.
  Qed.

  (* ---- the method octet stays right ---- *)
  Definition steady (t : tagging) (x : pobj) : Prop := o_tagging (q_obj x) = t /\ meth_ok k (q_obj x).
  Lemma p_set_steady t x v : steady t x -> steady t (fst (p_set bits x v)).
  Proof.
    intros [T M]. unfold p_set. destruct v; try (split; assumption). cbn [fst]. split; cbn [q_obj].
    - unfold store. destruct (constructable k && e_indef _); exact T.
    - unfold store. rewrite pkind_con. cbn [andb]. change (e_indef (o_enc (set_bytes (q_obj x) (Some b)))) with (e_indef (o_enc (q_obj x))).
      destruct (e_indef (o_enc (q_obj x))) eqn:E; cbn [with_enc o_enc]; [left; reflexivity|].
      destruct M as [M|[_ M]]; [left; exact M|congruence].
  Qed.
  Lemma p_bytes_steady t x : steady t x -> steady t (fst (p_bytes x)).
  Proof. intros [T M]. destruct (p_bytes_frame x) as [(F1 & F2 & F3) _]. split; [congruence|]. unfold meth_ok in *. now rewrite F2. Qed.
  Lemma p_parse_steady t s p x : steady t x -> steady t (fst (p_parse s p x)).
  Proof.
    intros S. unfold ParsModel.p_parse. destruct (match q_parsed x with Some q => if same_key q s p then true else false | None => false end) eqn:K.
    - destruct (q_parsed x) as [q|]; [|discriminate]. destruct (same_key q s p); [exact S|discriminate].
    - pose proof (p_bytes_steady t x S) as A. destruct (p_bytes x) as [x1 r] eqn:B. cbn [fst] in A.
      assert (G : steady t (fst (match r with Err e => (x1, Err e) | Ok b => match parse_with s p b with
                      | Err e => (x1, Err e)
                      | Ok (n, v) => (PObj (q_obj x1) (Some (Parsed n v s p)), Ok (n, v)) end end))).
      { destruct r as [b|e]; [|exact A]. destruct (parse_with s p b) as [[n v]|e]; exact A. }
      destruct (q_parsed x) as [q|]; [destruct (same_key q s p); [discriminate|]|]; destruct r; exact G.
  Qed.
  Lemma base_dump_steady t o : o_tagging o = t -> meth_ok k o -> o_tagging (fst (base_dump k o)) = t /\ meth_ok k (fst (base_dump k o)).
  Proof.
    intros T M. unfold base_dump. destruct (e_contents (o_enc o)); [|auto]. destruct (if ends_80 (e_header (o_enc o)) then None else e_header (o_enc o)); [auto|].
    cbn [fst]. split; [exact T|]. unfold meth_ok in *. cbn. destruct M as [->|[-> ->]]; [left; now destruct (constructable k && e_indef (o_enc o))|now left].
  Qed.
  Lemma p_dump_steady t f x : steady t x -> steady t (fst (p_dump f x)).
  Proof.
    intros S. unfold ParsModel.p_dump.
    assert (F : forall y, steady t y -> steady t (fst (let '(o, r) := base_dump k (q_obj y) in (PObj o (q_parsed y), r)))).
    { intros y [T M]. pose proof (base_dump_steady t _ T M) as A. destruct (base_dump k (q_obj y)). exact A. }
    destruct (e_indef (o_enc (q_obj x)) || f); [|now apply F].
    match goal with |- context [let '(x1, r) := ?e in _] => assert (A : steady t (fst e)) end.
    { destruct (q_parsed x) as [q|].
      - destruct (x_dump (methods (cls (q_class q))) true (q_value q)) as [v r]. exact S.
      - destruct (contents (q_obj x)); [|exact S]. pose proof (p_bytes_steady t x S) as A. destruct (p_bytes x) as [x1 r]. exact A. }
    match goal with |- context [let '(x1, r) := ?e in _] => destruct e as [x1 r] end. cbn [fst] in A.
    destruct r as [n|e]; [|exact A].
    assert (B : steady t (fst (p_set bits (PObj (set_contents (q_obj x1) None) (q_parsed x1)) n))) by (apply p_set_steady; exact A).
    destruct (p_set bits (PObj (set_contents (q_obj x1) None) (q_parsed x1)) n) as [x2 [[]|e]]; [|exact B]. now apply F.
  Qed.
  Lemma steady_step t d x : steady t x -> steady t (pstep d x).
  Proof.
    intros S. destruct d; cbn [ParsModel.pstep].
    - now apply p_set_steady.
    - now apply p_parse_steady.
    - unfold ParsModel.p_parsed. destruct (q_parsed x); [exact S|now apply p_parse_steady].
    - now apply p_bytes_steady.
    - unfold ParsModel.p_native. destruct (contents (q_obj x)); [|exact S]. destruct (q_parsed x) as [q|].
      + destruct (x_native (methods (cls (q_class q))) (q_value q)). exact S.
      + pose proof (p_bytes_steady t x S) as A. destruct (p_bytes x) as [x1 [r|r]]; exact A.
    - now apply p_dump_steady.
    - destruct (q_parsed x); exact S.
  Qed.
  Lemma steady_after t h : forall x, steady t x -> steady t (pafter h x).
  Proof. induction h as [|d h IH]; intros x S; auto. cbn [ParsModel.pafter]. apply IH. now apply steady_step. Qed.
End Facts.
