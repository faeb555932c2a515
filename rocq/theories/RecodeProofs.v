(* Proofs about encoding anew what was read: dump(force=True) of what is loaded from an encoding
   is the DER encoding of the same value, in every environment that passes the check of ReadProofs.v. *)
Require Import Verif.Base Verif.BaseFacts Verif.IntModel Verif.ParserModel Verif.ParserSpec Verif.ParserProofs Verif.ParserFacts Verif.Text
  Verif.TagSpec Verif.TagProofs Verif.ChunkSpec Verif.ChunkProofs Verif.PrimModel Verif.PrimSpec Verif.PrimLoad Verif.PrimHist Verif.PrimProofs Verif.PrimDump
  Verif.ContModel Verif.ContSpec Verif.ContBase Verif.ContRep Verif.ContList Verif.ContPrim Verif.ContHistSpec Verif.BerSpec Verif.BerProofs Verif.BerFinal
  Verif.ParsModel Verif.ParsSpec Verif.ParsProofs
  Verif.OidSpec Verif.OidModel Verif.OidProofs Verif.GenModel Verif.GenSpec Verif.GenProofs Verif.LibProofs Verif.ReadModel Verif.ReadSpec Verif.ReadProofs
  Verif.RecodeModel Verif.RecodeSpec.
Require Import Coq.Bool.Bool Sorting.Permutation Sorting.Sorted.

(* ---- primitive values ---- *)
Lemma tags_fine c p : cls_ok c -> k_explicit c = [] -> params_ok p -> tagging_ok (tags_of c p).
Proof.
  intros Hc Kx Hp. assert (W : wf (SPrim KBool c)) by (split; [exact Logic.I|auto]).
  apply (stags_ok (SPrim KBool c) p W). split; auto. split; [right; auto|discriminate].
Qed.
Lemma prim_kind_built kd c p v i : kind_ok kd -> cls_ok c -> k_explicit c = [] -> params_ok p -> ber_info max_budget i ->
  ber_of (SPrim kd c) (tags_of c p) (APrim v) i ->
  exists o, build kd c p i = Ok o /\ (forall x d, der_value kd None v x -> der_object (tags_of c p) x d -> snd (dump kd c o true) = Ok d) /\
    o_tagging o = tags_of c p /\ exists o' v', get_native kd c o = (o', Ok v') /\ same_value kd v v'.
Proof.
  intros Hk Hc Kx Hp B H. assert (W : wf (SPrim kd c)) by (split; auto).
  assert (T : taggable (SPrim kd c) p). { split; auto. split; [right; auto|discriminate]. }
  destruct (loads_prim kd c W p None i (APrim v) T Logic.I B H) as (y & a' & E & S & (R & _)).
  assert (TO : tagging_ok (tags_of c p)) by (apply (stags_ok _ _ W T)).
  assert (Hh : holds kd None v). { destruct a' as [|v'| | | |]; cbn in S; try contradiction. apply S. }
  assert (F : forall x d, der_value kd None v x -> der_object (tags_of c p) x d -> snd (x_dump (methods (SPrim kd c)) true y) = Ok d).
  { intros x d Dv Do. assert (D : der (SPrim kd c) (tags_of c p) a' d). { eapply der_sim; eauto. cbn. split; auto. exists x. auto. }
    exact (forced_dump_rep _ _ _ _ _ _ _ W TO R D). }
  cbn [methods prim_ops x_build] in E. apply bind_ok in E as (o & Eb & X). injection X as <-. exists o. split; auto.
  cbn [methods prim_ops x_dump on_prim] in F. split; [intros x d; specialize (F x d); destruct (dump kd c o true); exact F|].
  destruct a' as [|v'| | | |]; try contradiction. cbn [rep] in R. destruct R as (Hh' & R). cbn in S. destruct S as (_ & _ & S). split.
  - destruct R as [R|(_ & _ & R & _)]; auto. apply R.
  - destruct (prep_reads Stale kd c (tags_of c p) v' o R) as (o' & v2 & G & S' & _).
    exists o', v2. split; auto. eapply same_value_trans; eauto.
Qed.

Lemma oid_empty : kind_ok (KOid []).
Proof. split; [constructor|split; [constructor|intros ? []]]. Qed.
Lemma rev_some m s d : preferred m d s -> tmap_rev m s = Some d.
Proof.
  intros (pre & post & -> & N). assert (Q : forall l, ~ In s (map snd l) -> tmap_rev l s = None).
  { induction l as [|[a v] l IH]; cbn; auto. intros H. rewrite IH by tauto. destruct (eqb_text v s) eqn:E; auto. apply eqb_text_iff in E. tauto. }
  induction pre as [|[a v] pre IH]; cbn.
  - rewrite (Q _ N). assert (eqb_text s s = true) as -> by (now apply eqb_text_iff). reflexivity.
  - now rewrite IH.
Qed.
Lemma rev_none m s : ~ In s (map snd m) -> tmap_rev m s = None.
Proof. induction m as [|[a v] l IH]; cbn; auto. intros H. rewrite IH by tauto. destruct (eqb_text v s) eqn:E; auto. apply eqb_text_iff in E. tauto. Qed.

(* the identifier that stands for the name is written *)
Lemma oid_written m c o arcs x s nm : legal_oid arcs -> oid_octets (subidentifiers arcs) x -> c_native (o_cache o) = None -> e_method (o_enc o) = 0 ->
  (exists o', get_native (KOid []) c o = (o', Ok (NText s))) -> nm = (match tmap_get m s with Some n => n | None => s end) ->
  (match tmap_rev m nm with Some d => d | None => nm end) = dotted_text arcs ->
  snd (dump (KOid m) c o true) = Ok (object_bytes (o_tagging o) x).
Proof.
  intros L O Nc M (o' & G) En R. unfold dump in *. cbn [orb] in *.
  assert (G' : exists o2, get_native (KOid m) c o = (o2, Ok (NText nm)) /\ o_tagging o2 = o_tagging o /\ o_enc o2 = o_enc o).
  { unfold get_native in *. destruct (contents o) as [y|]; [|discriminate]. rewrite Nc in *. destruct (get_dotted o y) as [o1 s1] eqn:Gd. cbn [tmap_get ret] in *.
    assert (o_tagging o1 = o_tagging o /\ o_enc o1 = o_enc o) as [T1 T2].
    { unfold get_dotted in Gd. destruct (c_dotted (o_cache o)); injection Gd as <- _; auto. }
    injection G as _ ->. rewrite En. destruct (tmap_get m s); eexists; (split; [reflexivity|]); cbn; auto. }
  destruct G' as (o2 & -> & Et & Ee). cbn [set_value] in *. rewrite R.
  destruct (oid_encode_legal arcs L) as (x' & Ex & O'). unfold oid_encode in Ex. destruct (oid_set_parts (dotted_text arcs)) as [y [e|]]; [discriminate|]. injection Ex as ->.
  rewrite (oid_octets_unique _ _ _ O O'). cbn [done]. destruct o2 as [t2 e2 c2 w2]. cbn [o_tagging o_enc] in Et, Ee. subst t2 e2.
  destruct o as [t e ca w]. cbn [o_tagging o_enc] in *. destruct e as [me h ct tr ind]. cbn in M. subst me. reflexivity.
Qed.

Lemma build_fresh k c p i o : build k c p i = Ok o -> c_native (o_cache o) = None.
Proof.
  assert (P : forall q j b, build_plain k c q j = Ok b -> c_native (o_cache b) = None).
  { intros q j b. unfold build_plain. destruct (init_tagging c q); cbn [bind]; [|discriminate].
    repeat match goal with |- context [if ?x then _ else _] => destruct x; try discriminate end. now intros [= <-]. }
  unfold build. destruct (has_explicit c p); [|apply P]. destruct (init_tagging c p); cbn [bind]; [|discriminate].
  destruct (peel _ _ _ _) as [[[j hd] tl]|]; cbn [bind]; [|discriminate]. destruct (build_plain k c (Params [] None true) j) as [b|] eqn:E; cbn [bind]; [|discriminate].
  intros [= <-]. cbn. eapply P; eauto.
Qed.

Lemma build_oid m c p i o : build (KOid m) c p i = Ok o -> e_method (o_enc o) = 0.
Proof.
  assert (P : forall q j b, build_plain (KOid m) c q j = Ok b -> e_method (o_enc b) = 0).
  { intros q j b. unfold build_plain. destruct (init_tagging c q); cbn [bind]; [|discriminate]. destruct (negb (i_class j =? t_class a)); [discriminate|].
    cbn [constructable]. rewrite andb_false_r. cbn [negb]. rewrite andb_true_r. destruct (Z.eqb_spec (i_method j) 0) as [E|]; cbn [negb]; [|discriminate].
    destruct (_ && _); [discriminate|]. now intros [= <-]. }
  unfold build. destruct (has_explicit c p); [|apply P]. destruct (init_tagging c p); cbn [bind]; [|discriminate].
  destruct (peel _ _ _ _) as [[[j hd] tl]|]; cbn [bind]; [|discriminate]. destruct (build_plain (KOid m) c (Params [] None true) j) as [b|] eqn:E; cbn [bind]; [|discriminate].
  intros [= <-]. cbn. eapply P; eauto.
Qed.

Lemma text_value k v s : same_value k (NText s) v -> v = NText s.
Proof. destruct v; cbn; try discriminate. congruence. Qed.

Lemma prim_built kd c p v i : readableb kd = true -> cls_ok c -> k_explicit c = [] -> params_ok p -> ber_info max_budget i ->
  ber_of (SPrim kd c) (tags_of c p) (APrim v) i ->
  exists o, build kd c p i = Ok o /\ (forall x d, der_contents kd v x -> der_object (tags_of c p) x d -> snd (dump kd c o true) = Ok d) /\
    o_tagging o = tags_of c p /\ exists o' v', get_native kd c o = (o', Ok v') /\ same_value kd v v'.
Proof.
  intros R. destruct (match kd with KOid m => true | _ => false end) eqn:E.
  - destruct kd as [| | | | | | | | |m| | | |]; try discriminate E. intros Hc Kx Hp B H. cbn in R. pose proof (nodupb_sound _ eqb_text_iff _ R) as N.
    destruct (oid_ber m c p v i N H) as (s & K & ->). clear H.
    destruct (prim_kind_built (KOid []) c p (NText s) i oid_empty Hc Kx Hp B K) as (o & Eb & _ & T & o' & v' & G & S).
    apply text_value in S. subst v'. exists o. change (build (KOid m) c p i) with (build (KOid []) c p i). split; [exact Eb|].
    pose proof (build_fresh _ _ _ _ _ Eb) as Fr. split; [|split; [exact T|]].
    + intros x d (arcs & L & O & P) Do. apply der_object_eq in Do; [|now apply tags_fine]. subst d. rewrite <- T.
      refine (oid_written m c o arcs x s _ L O Fr (build_oid _ _ _ _ _ Eb) (ex_intro _ o' G) eq_refl _).
      destruct P as [P|(P1 & P2 & P3)]; [now rewrite (rev_some _ _ _ P)|]. now rewrite (rev_none _ _ P3).
    + unfold get_native in *. destruct (contents o) as [y|]; [|discriminate]. rewrite Fr in *. destruct (get_dotted o y) as [o1 s1]. cbn [tmap_get ret] in *.
      injection G as _ ->. destruct (tmap_get m s); eexists _, _; (split; [reflexivity|]); reflexivity.
  - intros Hc Kx Hp B H. destruct (prim_kind_built kd c p v i) as (o & Eb & D & T & G); auto; [apply kind_okb_sound; destruct kd; auto; discriminate|].
    exists o. split; auto. split; auto. intros x d Dc. apply D. destruct kd; auto. discriminate.
Qed.

Lemma prim_dump_ok kd c own p v i x d : readableb kd = true -> cls_ok c -> k_explicit c = [] -> params_ok p -> ber_info max_budget i ->
  ber_of (SPrim kd c) (tags_of c p) (APrim v) i -> der_object (tags_of c p) x d ->
  match own with
  | None => der_contents kd v x
  | Some f => match v with NBytes y => f y = Ok x | NNone => f [] = Ok x | _ => False end
  end -> prim_dump kd c own p i = Ok d.
Proof.
  intros Hk Hc Kx Hp B H Do P. destruct (prim_built kd c p v i Hk Hc Kx Hp B H) as (o & Eb & D & T & o' & v' & G & S).
  unfold prim_dump. rewrite Eb. cbn [bind]. destruct own as [f|]; [|eauto]. rewrite G. cbn [snd bind]. rewrite T.
  apply der_object_eq in Do; [|now apply tags_fine]. subst d.
  destruct v; try contradiction; destruct v'; cbn in S; try discriminate S; try (injection S as <-); rewrite P; reflexivity.
Qed.

(* ---- values of unknown type ---- *)
Section Env.
Variable env : ref -> option rclass.
Variable pad : bool.
Variable redo : ref -> option (bytes -> res bytes).
Variable default_of : rfield -> option bytes.
Variable untouched : ref -> bool.
Notation recoded := (recoded env pad redo default_of untouched).
Notation redump := (redump env pad redo default_of untouched).
Notation stands := (stands env pad).
Notation uder := (uder pad).

Lemma uder_uber u : forall i, ber_info max_budget i -> uder u (encoding_of i) -> uber pad u i.
Proof.
  induction u as [tag k v|l IH] using uval_ind'; intros i B H.
  - apply leaf_der in H as (S & H). split; auto. pose proof (leaf_wf _ _ _ S) as W.
    destruct (der_is_ber _ W no_params (APrim v) (encoding_of i) (leaf_taggable _ _)) as (j & Bj & E & K); [exact H|].
    now rewrite (same_info0 i j B Bj E).
  - destruct (seq_parts pad true l i B H) as (H1 & H2 & H3 & ds & E & A & _). cbn [uber]. do 3 (split; auto). exists ds. split; auto.
    clear - IH A. revert ds A. induction IH as [|u l Hu _ IHl]; intros [|y ds]; cbn; try tauto. intros [P A]. split; auto.
    destruct (piece_info _ true _ _ P) as (j & Bj & -> & F). exists j. auto.
Qed.

Lemma gen_dump_ok u i : ber_info max_budget i -> uder u (encoding_of i) -> gen_dump pad i = Ok (encoding_of i).
Proof.
  intros B H. unfold gen_dump. destruct (build_ok pad true u i B H) as (o & E & R & _). rewrite E. cbn [bind].
  destruct (dump_ok pad true u o true R) as (o' & d & E' & _ & U). rewrite E'. cbn [snd]. f_equal. exact (uder_fun pad u _ _ (U eq_refl) H).
Qed.

Lemma any_within c p u w i : params_ok p -> ber_info max_budget i -> uder u w -> der_wrapped (t_explicit (tags_of c p)) w (encoding_of i) ->
  within (rev (t_explicit (tags_of c p))) (fun j => encoding_of j = w) i.
Proof.
  intros Hp B U D. destruct (piece_info pad true u w U) as (j & Bj & -> & _).
  destruct (wrapped_within _ (fun j' => encoding_of j' = encoding_of j) _ _ Bj eq_refl D) as (i' & B' & E & W).
  now rewrite (same_info0 i i' B B' E).
Qed.
Lemma within_ber ex Q : forall i, ber_info max_budget i -> within ex Q i -> within ex (fun j => ber_info max_budget j /\ Q j) i.
Proof.
  induction ex as [|[c t] ex IH]; cbn [within]; auto. intros i B (H1 & H2 & H3 & j & Bj & Ej & H). do 3 (split; auto). exists j. auto.
Qed.

Lemma any_dump_ok c p u w i : cls_ok c -> params_ok p -> p_implicit p = None -> k_explicit c = [] -> ber_info max_budget i -> uder u w ->
  der_wrapped (t_explicit (tags_of c p)) w (encoding_of i) -> any_dump pad c p i = Ok (encoding_of i).
Proof.
  intros Hc Hp Ni Kx B U D. pose proof (any_within c p u w i Hp B U D) as W.
  destruct (stripped_ok c p _ i Hp Kx B W) as (j & t & hd & tl & E & Bj & Q & _ & _ & It & Un & Ed).
  unfold any_dump. rewrite E. cbn [bind]. rewrite It. cbn [bind]. rewrite Ed.
  pose proof (parse__0_complete i [] B) as P. rewrite app_nil_r in P. rewrite P. cbn [bind].
  destruct (params_shape p Hp) as [(c0 & t0 & -> & H1 & H2)|[([c0 t0] & -> & H1 & H2)| ->]]; [discriminate Ni| |].
  2: { cbn in D. rewrite Kx in D. cbn in *. rewrite Kx. cbn. subst w. now apply (gen_dump_ok u). }
  assert (Ex : t_explicit (tags_of c (Params [(c0, t0)] None false)) = [(c0, t0)]) by (cbn; now rewrite Kx).
  rewrite Ex in W, Un, D. rewrite Ex. cbn [rev app] in Un. rewrite Un. cbn [bind]. cbn [rev app within] in W. destruct W as (W1 & W2 & W3 & j' & Bj' & Ej & Ew).
  assert (j' = j) as ->.
  { cbn [unwrapped] in Un. rewrite Ej in Un. pose proof (parse__0_complete j' [] Bj') as P'. rewrite app_nil_r in P'. rewrite P' in Un. cbn [bind] in Un. congruence. }
  assert (He : encoding_of i = i_header i ++ encoding_of j ++ i_trailer i) by (unfold encoding_of at 1; now rewrite Ej).
  destruct u as [tag k v|l].
  - destruct (leaf_der pad tag k v w U) as (S & U1). clear U. rename U1 into U. destruct (simple_cases _ _ _ S) as (Un' & Hk & Ht). pose proof (leaf_wf _ _ _ S) as Wf.
    set (p' := Params [(c0, t0)] None false). assert (T : taggable (SPrim k (leaf tag)) p') by (split; [exact Hp|]; split; [left; reflexivity|discriminate]).
    cbn in U. destruct U as (Hv & x & Dv & Do).
    assert (Dd : der (SPrim k (leaf tag)) (stags (SPrim k (leaf tag)) p') (APrim v) (encoding_of i)).
    { cbn. split; auto. exists x. split; auto. destruct Do as (inner & D1 & D2). cbn in D2. subst inner. exists w. split; auto. }
    destruct (der_is_ber _ Wf p' (APrim v) (encoding_of i) T Dd) as (i' & Bi' & Ei & K). rewrite <- (same_info0 i i' B Bi' Ei) in K.
    pose proof Wf as (_ & Hc'). destruct (prim_kind_built k (leaf tag) p' v i Hk Hc' eq_refl (proj1 T) B K) as (o & Eb & Fd & _).
    destruct Dd as (_ & x' & Dv' & Do'). specialize (Fd x' _ Dv' Do').
    assert (Eg : gbuild pad j = Ok (OPrim k (leaf tag) (Obj (Tagging (i_class j) (i_tag j) false [])
                         (Enc (i_method j) (Some (i_header j)) (Some (i_contents j)) (i_trailer j) ((i_method j =? 1) && eqb_bytes (i_trailer j) [0; 0] && constructable k)) no_cache None)) /\
             i_class j = 0 /\ i_tag j = tag /\ i_method j = 0).
    { destruct Do as (inner & D1 & D2). cbn in D2, D1. subst inner. destruct (tlv_info _ _ _ _ _ D1) as (h & Bk & Ek).
      assert (J : j = mkInfo 0 0 tag h x []) by (apply same_info0; auto; now rewrite Ek). rewrite J. cbn [i_class i_tag i_method i_header i_contents i_trailer]. unfold gbuild. cbn [i_tag]. rewrite Un'. auto. }
    destruct Eg as (Eg & J1 & J2 & J3). rewrite Eg. cbn [bind rewrapped gdump o_tagging o_enc t_class t_tag t_implicit e_method e_header e_contents e_trailer e_indef option_map o_cache o_width].
    assert (Eo : o = Obj (Tagging (i_class j) (i_tag j) false [(c0, t0)])
       (Enc (i_method j) (Some (i_header i ++ i_header j)) (Some (i_contents j)) (i_trailer j ++ i_trailer i) ((i_method j =? 1) && eqb_bytes (i_trailer j) [0; 0] && constructable k)) no_cache None).
    { unfold build in Eb. change (has_explicit (leaf tag) p') with true in Eb. cbn iota in Eb.
      rewrite (init_tags (leaf tag) p' Hp) in Eb. change (tags_of (leaf tag) p') with (Tagging 0 tag false [(c0, t0)]) in Eb. cbn [bind t_explicit rev app peel] in Eb.
      rewrite W1, W2, W3, !Z.eqb_refl, Ej in Eb. cbn [negb] in Eb. pose proof (parse__0_complete j [] Bj) as P'. rewrite app_nil_r in P'. rewrite P' in Eb. cbn [bind] in Eb.
      unfold build_plain in Eb. change (init_tagging (leaf tag) (Params [] None true)) with (Ok (Tagging 0 tag false [])) in Eb. cbn [bind t_class t_tag] in Eb.
      rewrite J1, J2, J3 in Eb. cbn [Z.eqb negb andb] in Eb. rewrite (Z.eqb_refl tag) in Eb. cbn [negb andb bind o_enc o_tagging t_class t_tag t_implicit e_method e_contents e_indef o_cache o_width] in Eb.
      injection Eb as <-. rewrite J1, J2, J3. reflexivity. }
    rewrite <- Eo. destruct (dump k (leaf tag) o true); exact Fd.
  - destruct U as (ds & A & Dt). destruct (tlv_info _ _ _ _ _ Dt) as (h & Bk & Ek).
    assert (J : j = mkInfo 0 1 16 h (concat ds) []) by (apply same_info0; auto; now rewrite Ek).
    unfold gbuild. rewrite J. cbn [i_class i_tag i_method i_header i_contents i_trailer]. change (universal pad 16) with (Some (GNode NSeq)).
    cbn [bind rewrapped gdump t_class t_tag t_implicit e_method e_header e_contents e_trailer e_indef option_map]. rewrite andb_false_r.
    unfold node_dump. cbn [e_header e_method e_trailer e_indef cont_of e_contents].
    assert (Dc : der_constructed (Tagging 0 16 false [(c0, t0)]) (concat ds) (encoding_of i)) by (exists w; split; auto).
    destruct (ends_80 (Some (i_header i ++ h))).
    + cbn [snd]. f_equal. symmetry. apply der_constructed_bytes in Dc as [Dc _]; [exact Dc|].
      apply (tags_fine (Cls 0 16 [] []) (Params [(c0, t0)] None false)); auto. repeat split; cbn; try lia; constructor.
    + cbn [snd]. f_equal. rewrite He, J. unfold encoding_of. cbn. rewrite app_nil_r, <- !app_assoc. reflexivity.
Qed.

(* ---- what is encoded anew was read ---- *)
Section Level.
Variable n : nat.
Hypothesis IH : forall r p ins a i d, ber_info max_budget i -> recoded n r p ins a i d -> stands n r p ins i a.
Lemma elem_stands f pk a i w : ber_info max_budget i -> element_recoded (recoded n) f pk a i w -> element_of (stands n) f pk i a.
Proof. unfold element_recoded, element_of. intros B H. destruct pk, (g_class f); try contradiction; eauto. Qed.
Lemma field_stands_of t na yz : field_recoded default_of (recoded n) t na yz -> field_stands (stands n) t na (fst yz).
Proof.
  intros (E & [(-> & H)|(i & w & B & Y & H & _)]); (split; [exact E|]).
  - left. auto.
  - right. exists i. split; auto. split; auto. eapply elem_stands; eauto.
Qed.
Lemma fields_stand_of ts : forall l yzs, all3 (field_recoded default_of (recoded n)) ts l yzs -> all3 (field_stands (stands n)) ts l (map fst yzs).
Proof. induction ts as [|t ts IHt]; intros [|na l] [|yz yzs]; cbn; try tauto. intros [H K]. split; auto. now apply field_stands_of. Qed.
End Level.

Lemma recoded_stands : forall n r p ins a i d, ber_info max_budget i -> recoded n r p ins a i d -> stands n r p ins i a.
Proof.
  induction n as [|n IH]; intros r p ins a i d B H; [contradiction|]. cbn [RecodeSpec.recoded] in H. cbn [ReadSpec.stands].
  destruct (env r) as [k|]; [|contradiction]. destruct H as (b & Eo & H). exists b. split; auto.
  destruct (r_def k) as [kd| |bits|fs sel|item|alts fx]; destruct ins as [r'|]; try contradiction.
  - destruct H as (v & x & H & E & _). exists v. auto.
  - destruct H as (u & w & U & D & -> & ->). destruct (piece_info pad true u w U) as (j & Bj & -> & F).
    destruct (wrapped_within _ (fun j => exists u0, uber pad u0 j /\ open_value u = open_value u0) _ _ Bj (ex_intro _ u (conj (uder_uber u j Bj F) eq_refl)) D) as (i' & B' & E & W).
    now rewrite (same_info0 i i' B B' E).
  - destruct H as (j & w & Bj & H & W & _). exists j. eauto.
  - destruct H as (x & W & _ & E). exists x. auto.
  - destruct H as (z & W & _). eapply within_impl; [|exact W]. intros j (J1 & J2 & J3 & l & ts & yzs & -> & Ex & _ & T & H). repeat (split; auto).
    exists l, ts, (map fst yzs). repeat (split; auto). now apply fields_stand_of.
  - destruct H as (z & W & _). eapply within_impl; [|exact W]. intros j (J1 & J2 & J3 & l & yzs & zs & -> & Ex & _ & _ & H). repeat (split; auto).
    exists l, (map fst yzs). repeat (split; auto). clear - H IH. revert yzs H. induction l as [|b l IHl]; intros [|yz yzs]; cbn; try tauto.
    intros [(i & B & Y & H) K]. split; auto. exists i. split; auto. split; auto. destruct item as [r|]; [eauto|].
    destruct H as (E & u & U & ->). exists u. split; auto. apply uder_uber; auto. now rewrite <- Y, <- E.
  - destruct H as (w & W & _). apply within_ber in W; auto. eapply within_impl; [|exact W]. intros j (Bj & Tr & m & f & Hm & Nf & H). split; auto.
    exists m, f. split; auto. split; auto. eapply elem_stands; eauto.
Qed.

(* ---- structures ---- *)
Hypothesis Ok_env : env_ok env.
(* only classes without fields are left as they are *)
Hypothesis Bare : forall r k fs sel, env r = Some k -> r_def k = DSeq fs sel -> untouched r = true -> fs = [].

Section Step.
Variable n : nat.
Variable rd : ref -> params -> option ref -> info -> res aval.
Hypothesis Rd : forall r p ins i a, params_fine env r p -> ber_info max_budget i -> stands n r p ins i a -> exists a', rd r p ins i = Ok a' /\ alike a a'.
Variable dmp : ref -> params -> option ref -> info -> res bytes.
Hypothesis Dm : forall r p ins a i d, params_fine env r p -> ber_info max_budget i -> recoded n r p ins a i d -> dmp r p ins i = Ok d.

Lemma elem_dump f pk a i w : pick_okb env f pk = true -> ber_info max_budget i -> element_recoded (recoded n) f pk a i w -> field_dump pad dmp f pk i = Ok w.
Proof.
  unfold pick_okb, element_recoded, field_dump. intros K B H. destruct pk as [|r|r]; destruct (g_class f) as [r'|]; try contradiction;
    apply params_fineb_sound in K; eapply Dm; eauto.
Qed.

(* an element of the encoding and what is written for it *)
Definition part_ok (t : rfield * pick) (x : option info) (z : bytes) : Prop :=
  part_dump pad default_of dmp (fst t) (snd t) x = Ok z.
Lemma part_of t na yz x : fine_t env t -> field_recoded default_of (recoded n) t na yz -> fst yz = octets x ->
  match x with Some i => ber_info max_budget i | None => True end -> part_ok t x (snd yz).
Proof.
  intros (Pk & _) (_ & H) E B. unfold part_ok, part_dump. destruct H as [(-> & _)|(i & w & Bi & Y & H & D)].
  - cbn in E. destruct x as [i|]; auto. apply encoding_pos in B. cbn in E. rewrite <- E in B. discriminate B.
  - destruct x as [j|].
    + cbn [octets] in E. assert (j = i) as -> by (apply same_info0; auto; congruence). rewrite (elem_dump _ _ _ _ _ Pk Bi H). cbn [bind]. f_equal.
      destruct D as [(-> & ->)|(N & ->)].
      * assert (eqb_bytes w w = true) as -> by (now apply eqb_bytes_spec). reflexivity.
      * destruct (default_of (fst t)) as [w'|]; auto. destruct (eqb_bytes w' w) eqn:Q; auto. apply eqb_bytes_spec in Q. subst. congruence.
    + cbn in E. rewrite Y in E. apply encoding_pos in Bi. rewrite E in Bi. discriminate Bi.
Qed.

Lemma parts_ok fs : forall o pk l yzs xs, Forall (fine_t env) (typed_opt o pk fs) -> all3 (field_recoded default_of (recoded n)) (typed_opt o pk fs) l yzs ->
  map fst yzs = map octets xs -> Forall (fun x => match x with Some i => ber_info max_budget i | None => True end) xs ->
  parts pad default_of dmp fs o pk xs = Ok (map snd yzs).
Proof.
  induction fs as [|f fs IHf]; intros o pk l yzs xs.
  - assert (typed_opt o pk [] = []) as -> by (destruct o as [[]|]; reflexivity). destruct l, yzs; cbn [all3]; try tauto.
  - assert (typed_opt o pk (f :: fs) = (f, match o with Some O => pk | _ => Keep end) :: typed_opt (match o with Some (S m) => Some m | _ => None end) pk fs) as ->
      by (destruct o as [[|m]|]; reflexivity).
    destruct l as [|na l], yzs as [|yz yzs]; cbn [all3]; try tauto. intros F [H1 H2] E B. destruct xs as [|x xs]; [discriminate|]. cbn [map] in E. injection E as E1 E2.
    inversion F as [|? ? F1 F2]; subst. inversion B as [|? ? B1 B2]; subst. cbn [parts]. pose proof (part_of _ _ _ _ F1 H1 E1 B1) as P. unfold part_ok in P. cbn [fst snd] in P.
    rewrite P. cbn [bind]. rewrite (IHf _ pk l yzs xs F2 H2 E2 B2). reflexivity.
Qed.
Lemma parts_absent fs : forall m pk xs, match nth_error xs m with Some (Some _) => False | _ => True end ->
  parts pad default_of dmp fs (Some m) Keep xs = parts pad default_of dmp fs (Some m) pk xs.
Proof.
  assert (G : forall fs pk pk' xs, parts pad default_of dmp fs None pk xs = parts pad default_of dmp fs None pk' xs).
  { induction fs0 as [|f fs0 IHf]; intros pk pk' xs; cbn [parts]; auto. destruct xs; auto. destruct (part_dump pad default_of dmp f Keep o); cbn [bind]; auto. now rewrite (IHf pk pk'). }
  induction fs as [|f fs IHf]; intros m pk xs H; cbn [parts]; auto. destruct xs as [|x xs]; auto. destruct m as [|m]; cbn [nth_error] in H.
  - destruct x; [contradiction|]. cbn [part_dump bind]. now rewrite (G fs Keep pk).
  - destruct (part_dump pad default_of dmp f Keep x); cbn [bind]; auto. now rewrite (IHf m pk).
Qed.
Lemma given_ber ts : forall l xs, all3 (given_to env pad n) ts l xs -> Forall (fun x => match x with Some i => ber_info max_budget i | None => True end) xs.
Proof.
  induction ts as [|t ts IHt]; intros [|na l] [|x xs]; cbn; try tauto; [constructor|]. intros [(_ & H) K]. constructor; eauto. destruct x; auto. apply H.
Qed.

Lemma seq_contents_ok k fs sel a x z : class_okb env k = true -> r_def k = DSeq fs sel -> fields_recoded default_of (recoded n) fs sel a x z ->
  seq_contents env pad default_of rd dmp fs sel x = Ok z.
Proof.
  intros K D (l & ts & yzs & -> & -> & -> & T & H).
  pose proof (fields_stand_of n (fun r p ins a i d B => recoded_stands n r p ins a i d B) ts l yzs H) as Hs.
  destruct (chosen_ok env pad Ok_env n rd Rd k fs sel l ts _ K D T Hs) as (xs & pk & pk' & Ex & Ey & -> & Ft & G & Ep & Or).
  unfold seq_contents. refine (eq_trans (f_equal (fun q => bind q _) Ex) _). cbn [bind]. rewrite Ep. cbn [bind].
  pose proof (parts_ok fs _ pk l yzs xs Ft H Ey (given_ber _ _ _ G)) as P.
  assert (Er : parts pad default_of dmp fs (option_map s_field sel) pk' xs = Ok (map snd yzs)).
  { destruct Or as [->|(-> & Q)]; auto. destruct sel as [s|]; cbn [option_map] in *.
    - now rewrite (parts_absent fs (s_field s) pk xs Q).
    - refine (eq_trans _ P). clear. revert xs. induction fs as [|f fs IHf]; intros xs; cbn [parts]; auto. destruct xs; auto.
      destruct (part_dump pad default_of dmp f Keep o); cbn [bind]; auto. now rewrite IHf. }
  rewrite Er. reflexivity.
Qed.

Lemma loop_dump f (P : aval -> info -> bytes -> Prop) : (forall a i w, ber_info max_budget i -> P a i w -> f i = Ok w) ->
  forall l yzs, all2 (fun a yz => exists i, ber_info max_budget i /\ fst yz = encoding_of i /\ P a i (snd yz)) l yzs -> forall m pre,
  (length (concat (map fst yzs)) < m)%nat -> kids_loop f m (pre ++ concat (map fst yzs)) (len pre) = Ok (map snd yzs).
Proof.
  intros F. induction l as [|a l IHl]; intros [|[y z] yzs]; cbn [all2]; try tauto.
  - intros _ [|m] pre L; cbn in L; [lia|]. cbn [kids_loop concat map]. now rewrite app_nil_r, Z.ltb_irrefl.
  - intros [(i & B & Y & H) H2] [|m] pre L; [lia|]. cbn [fst snd] in Y, H. subst y. cbn [kids_loop concat map fst snd]. pose proof (encoding_pos i B) as Lb.
    cbn [concat map fst] in L. rewrite app_length in L. unfold len in Lb.
    assert (Lp : len pre <? len (pre ++ encoding_of i ++ concat (map fst yzs)) = true) by (rewrite !len_app; unfold len; lia).
    rewrite Lp. rewrite (parse_complete i pre (concat (map fst yzs)) B). cbn [bind]. rewrite (F a i z B H). cbn [bind].
    pose proof (IHl yzs H2 m (pre ++ encoding_of i) ltac:(lia)) as E'. rewrite len_app, <- app_assoc in E'. rewrite E'. reflexivity.
Qed.

Lemma of_contents_ok set item a x z : items_recoded pad (recoded n) set item a x z -> of_contents pad dmp set item x = Ok z.
Proof.
  intros (l & yzs & zs & -> & -> & -> & Sd & H). unfold of_contents.
  set (f := fun i => match item with Some r => dmp r no_params None i | None => gen_dump pad i end).
  set (P := fun (b : aval) (i : info) (w : bytes) => match item with Some r => recoded n r no_params None b i w | None => w = encoding_of i /\ exists u, uder u w end).
  assert (F : forall a i w, ber_info max_budget i -> P a i w -> f i = Ok w).
  { intros a i w B Q. unfold P in Q. unfold f. destruct item as [r|].
    - apply (Dm r no_params None a i w); auto. split; [|reflexivity]. split; [reflexivity|]. split; [constructor|]. cbn. auto.
    - destruct Q as (-> & u & U). now apply (gen_dump_ok u). }
  assert (Q : all2 (fun a yz => exists i, ber_info max_budget i /\ fst yz = encoding_of i /\ P a i (snd yz)) l yzs).
  { eapply all2_impl; [|exact H]. intros b yz _ (i & B & Y & K). exists i. split; auto. split; auto. unfold P. destruct item as [r|]; auto.
    destruct K as (E & u & U & _). split; [congruence|]. exists u. exact U. }
  pose proof (loop_dump f P F l yzs Q (S (length (concat (map fst yzs)))) [] ltac:(apply Nat.lt_succ_diag_r)) as E. cbn [app] in E. change (len (@nil Z)) with 0 in E.
  refine (eq_trans (f_equal (fun q => bind q _) E) _). cbn [bind]. do 2 f_equal. destruct set; [|auto]. destruct Sd as (Pm & St).
  apply sorted_unique; auto; [|apply sort_sorted]. eapply perm_trans; [apply Permutation_sym, sort_perm|exact Pm].
Qed.

Lemma choice_dump_ok k alts fx p a w d i : class_okb env k = true -> r_def k = DChoice alts fx -> params_ok p -> p_implicit p = None -> ber_info max_budget i ->
  within (rev (t_explicit (tags_of (r_cls k) p))) (alternative_recoded (recoded n) alts fx a w) i -> der_wrapped (t_explicit (tags_of (r_cls k) p)) w d ->
  choice_dump env pad dmp (r_cls k) alts fx p i = Ok d.
Proof.
  intros K D Hp Ni B H Dw. pose proof (class_ok_parts env k K) as (Hc & Kx & _).
  destruct (stripped_ok (r_cls k) p _ i Hp Kx B H) as (j & t & hd & tl & E & Bj & (Tr & m & f & Hm & Nf & Q) & _ & _ & It & _).
  destruct (alts_fine env k alts fx f K D (nth_error_In _ _ Hm)) as (r' & x & G & Pf & Fi & N).
  unfold choice_dump. rewrite Ni. cbn [bind]. rewrite It. cbn [bind]. rewrite E. cbn [bind].
  assert (Q' := elem_stands n (fun r p ins a i d B => recoded_stands n r p ins a i d B) f Keep a j w Bj Q). unfold element_of in Q'. rewrite G in Q'.
  assert (Ij : (i_class j, i_tag j) = x). { eapply stands_id; eauto. rewrite <- (field_ref env f r' G). exact Fi. }
  pose proof (alt_found env alts 0 m f x N Hm Fi) as Ea. rewrite <- Ij in Ea. cbn [fst snd] in Ea. rewrite Ea. cbn [Nat.add].
  assert (R : recheck pad fx m (i_contents j) = Ok m).
  { unfold recheck. destruct fx as [q|]; auto. destruct (Nat.eqb q m) eqn:Eq; auto. apply Nat.eqb_eq in Eq. congruence. }
  rewrite R. cbn [bind]. rewrite Hm.
  assert (Ed : i_header j ++ i_contents j = encoding_of j) by (unfold encoding_of; now rewrite Tr, app_nil_r).
  rewrite Ed. pose proof (parse__0_complete j [] Bj) as P. rewrite app_nil_r in P. rewrite P. cbn [bind].
  assert (Ew : field_dump pad dmp f Keep j = Ok w).
  { apply (elem_dump f Keep a); auto. unfold pick_okb. rewrite G.
    apply class_ok_parts in K as (_ & _ & K). unfold def_okb in K. rewrite D in K. apply andb_true_iff in K as [K _]. rewrite forallb_forall in K.
    specialize (K f (nth_error_In _ _ Hm)). unfold alt_okb in K. rewrite G in K. now apply andb_true_iff in K as [K _]. }
  rewrite Ew. cbn [bind]. f_equal. symmetry. apply (der_wrapped_wrap _ [] w d); auto. apply (tags_fine _ _ Hc Kx Hp).
Qed.
End Step.

Theorem redump_ok : forall n m r p ins a i d, (n <= m)%nat -> params_fine env r p -> ber_info max_budget i -> recoded n r p ins a i d ->
  redump m r p ins i = Ok d.
Proof.
  induction n as [|n IH]; intros m r p ins a i d L Hp B H; [contradiction|]. destruct m as [|m]; [lia|]. apply le_S_n in L.
  pose proof (recoded_stands _ _ _ _ _ _ _ B H) as Hs.
  cbn [RecodeSpec.recoded] in H. cbn [RecodeModel.redump]. pose proof Hp as (Hp1 & Hp2). unfold is_open, def_of in Hp2.
  destruct (env r) as [k|] eqn:Ek; [|contradiction]. destruct (Ok_env r k Ek) as (Kok & _). destruct (class_ok_parts env k Kok) as (Hc & Kx & Kd).
  destruct H as (b & _ & H). cbn [option_map] in Hp2. pose proof (tags_fine _ _ Hc Kx Hp1) as TO.
  assert (Dm : forall r p ins a i d, params_fine env r p -> ber_info max_budget i -> recoded n r p ins a i d -> redump m r p ins i = Ok d) by (intros; eapply IH; eauto).
  assert (Rd : forall r p ins i a, params_fine env r p -> ber_info max_budget i -> stands n r p ins i a -> exists a', read env pad m r p ins i = Ok a' /\ alike a a')
    by (intros; eapply read_ok; eauto).
  assert (St : forall (bits : bool) x, der_object (tags_of (r_cls k) p) ((if bits then [0] else []) ++ x) d -> string_dump bits (r_cls k) p x = Ok d).
  { intros bits x Do. unfold string_dump. rewrite (init_tags (r_cls k) p Hp1). cbn [bind]. apply der_object_eq in Do; auto. subst d. reflexivity. }
  assert (Nd : forall x, der_constructed (tags_of (r_cls k) p) x d -> node_octets (r_cls k) p x = Ok d).
  { intros x Do. unfold node_octets. rewrite (init_tags (r_cls k) p Hp1). cbn [bind]. apply der_constructed_bytes in Do as [-> _]; auto. }
  destruct (r_def k) as [kd| |bits|fs sel|item|alts fx] eqn:D; destruct ins as [r'|]; try contradiction.
  - destruct H as (v & x & H & _ & Do & P). eapply prim_dump_ok; eauto. unfold def_okb in Kd. now rewrite D in Kd.
  - destruct H as (u & w & U & Dw & -> & _). eapply any_dump_ok; eauto.
  - destruct H as (j & w & Bj & Hj & W & Do). rewrite (octets_ok bits _ p _ i Kx Hp1 B W). cbn [bind].
    pose proof (parse__0_complete j [] Bj) as P. rewrite app_nil_r in P. rewrite P. cbn [bind].
    rewrite (Dm r' no_params None b j w); [cbn [bind]; auto| |auto|auto]. split; [|reflexivity]. split; [reflexivity|]. split; [constructor|]. cbn. auto.
  - destruct H as (x & W & Do & _). rewrite (octets_ok bits _ p _ i Kx Hp1 B W). cbn [bind]. auto.
  - destruct H as (z & W & Dc & Un). destruct (opened_ok _ p _ i Hp1 Kx B W) as (x & E & F).
    destruct (untouched r) eqn:Ut.
    + destruct (stripped_ok (r_cls k) p _ i Hp1 Kx B W) as (j & t & hd & tl & Es & Bj & Q & _ & _ & _ & _ & Ed). rewrite Es. cbn [bind]. rewrite E. cbn [bind].
      pose proof (Bare r k fs sel Ek D Ut) as ->. destruct F as (l & ts & yzs & _ & -> & -> & T & F).
      assert (ts = []) as -> by (unfold field_types in T; destruct sel as [s|]; [destruct T as (? & ? & _ & _ & ->); destruct (s_field s); reflexivity|exact T]).
      destruct l, yzs; cbn in F; try contradiction. cbn [map concat] in *. destruct (ends_80 (Some hd)); [now apply Nd|]. now rewrite Ed, (Un eq_refl).
    + rewrite E. cbn [bind]. rewrite (seq_contents_ok n (read env pad m) Rd (redump m) Dm k fs sel b x z Kok D F). cbn [bind]. now apply Nd.
  - destruct H as (z & W & Dc). destruct (opened_ok _ p _ i Hp1 Kx B W) as (x & E & F). rewrite E. cbn [bind].
    rewrite (of_contents_ok n (redump m) Dm _ _ _ _ _ F). cbn [bind]. now apply Nd.
  - destruct H as (w & W & Dw). eapply choice_dump_ok; eauto.
Qed.

(* cls.load(data).dump(force=True) *)
Theorem recode_ok n m r a i d strict rest : (n <= m)%nat -> ber_info max_budget i -> recoded n r no_params None a i d -> (strict = true -> rest = []) ->
  recode env pad redo default_of untouched m r (encoding_of i ++ rest) strict = Ok d.
Proof.
  intros L B H S. unfold recode. rewrite (parse__0_complete i rest B). cbn [bind].
  assert (E : strict && negb (len (encoding_of i) =? len (encoding_of i ++ rest)) = false).
  { destruct strict; auto. rewrite (S eq_refl), app_nil_r, Z.eqb_refl. reflexivity. }
  rewrite E. eapply redump_ok; eauto. split; [|reflexivity]. split; [reflexivity|]. split; [constructor|]. cbn. auto.
Qed.
End Env.
