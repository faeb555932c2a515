(* Further facts about primitive objects: loading and dumping, failed assignments,
   equality, copies and the exceptions of reading. *)
Require Import Verif.Base Verif.BaseFacts Verif.IntModel Verif.IntSpec Verif.IntProofs
  Verif.ParserModel Verif.ParserSpec Verif.ParserProofs Verif.ParserFacts Verif.Text Verif.OidModel Verif.OidSpec
  Verif.OidProofs Verif.BitModel Verif.BitSpec Verif.BitProofs Verif.CodecModel Verif.CodecSpec Verif.CodecProofs
  Verif.Calendar Verif.TimeModel Verif.TimeSpec Verif.TimeProofs Verif.TimeFacts Verif.TagSpec Verif.TagProofs
  Verif.PrimModel Verif.PrimSpec Verif.PrimProofs Verif.PrimSet Verif.PrimDump Verif.PrimLoad Verif.HistSpec Verif.PrimHist
  Verif.ChunkSpec Verif.ChunkProofs Verif.PrimRead.


(* ---- the tagging of a loaded object ---- *)
Lemma load_tagging k cls p d s o t : load k cls p d s = Ok o -> init_tagging cls p = Ok t -> tags_compatible cls p ->
  o_tagging o = t.
Proof.
  intros H Hi Hc. unfold load in H. apply bind_ok in H as ([i e] & _ & H).
  destruct (s && negb (e =? len d)); [discriminate|]. unfold build in H. destruct (has_explicit cls p) eqn:He.
  - destruct (has_explicit_true _ _ _ Hi He) as [Nx Np]. rewrite Hi in H. cbn [bind] in H.
    apply bind_ok in H as ([[j P] T] & _ & H). apply bind_ok in H as (o' & Hb & H). injection H as <-. cbn [o_tagging].
    assert (Hp : p_explicit p <> [] \/ p_implicit p = None).
    { destruct Hc as [Hc|[Hc|[Hc|Hc]]]; auto; [congruence|].
      rewrite (init_explicit _ _ _ Hi), Np, Hc in Nx. left. exact Nx. }
    destruct (init_plain _ _ _ Hi Hp) as (C1 & C2 & C3).
    unfold build_plain in Hb. cbn [init_tagging p_explicit p_implicit bind p_no_explicit t_class t_tag t_implicit] in Hb.
    destruct (negb _) in Hb; [discriminate|]. destruct (negb _ && _) in Hb; [discriminate|]. destruct (negb _ && _) in Hb; [discriminate|].
    injection Hb as <-. cbn [o_tagging t_class t_tag t_implicit]. destruct t. cbn in *. congruence.
  - unfold build_plain in H. rewrite Hi in H. cbn [bind] in H.
    destruct (negb _) in H; [discriminate|]. destruct (negb _ && _) in H; [discriminate|]. destruct (negb _ && _) in H; [discriminate|].
    injection H as <-. reflexivity.
Qed.

(* ---- dump after load ---- *)
Lemma exact_info n d : exact_ber max_budget n d ->
  exists i, ber_info max_budget i /\ d = encoding_of i /\
    match n with O => True | Datatypes.S n' => i_method i = 1 /\ exact_ber max_budget n' (i_contents i) end.
Proof.
  intros H. destruct H as [c m t h x tr B|n c t h x tr B H].
  - exists (mkInfo c m t h x tr). auto.
  - exists (mkInfo c 1 t h x tr). auto.
Qed.

Lemma encoding_prefix i j r : ber_info max_budget i -> ber_info max_budget j -> encoding_of i = encoding_of j ++ r ->
  i = j /\ r = [].
Proof.
  intros Bi Bj E. pose proof (parse__0_complete i [] Bi) as Qi. pose proof (parse__0_complete j r Bj) as Qj.
  rewrite app_nil_r in Qi. rewrite <- E, Qi in Qj. injection Qj as -> L. split; auto.
  rewrite E in L at 1. rewrite len_app in L. destruct r; auto. rewrite len_cons in L. pose proof (len_nonneg r). lia.
Qed.

Lemma exact_step n i : ber_info max_budget i -> i_method i = 1 ->
  (exact_ber max_budget (Datatypes.S n) (encoding_of i) <-> exact_ber max_budget n (i_contents i)).
Proof.
  intros B M. split.
  - intros H. apply exact_info in H as (j & Bj & E & _ & H).
    rewrite <- (app_nil_r (encoding_of j)) in E. destruct (encoding_prefix i j [] B Bj E) as [<- _]. exact H.
  - intros H. unfold encoding_of. apply exact_wrap with (c := i_class i) (t := i_tag i); auto. rewrite <- M. exact B.
Qed.

Lemma peel_exact ex : forall i P T j hd tl, bytes_ok (i_contents i) -> ber_info max_budget i ->
  peel ex i (P ++ i_header i) (i_trailer i ++ T) = Ok (j, hd, tl) ->
  ber_info max_budget j /\ exists x, hd ++ i_contents j ++ tl = P ++ x ++ T /\ len x <= len (encoding_of i) /\
    (x = encoding_of i <-> exact_ber max_budget (length ex) (encoding_of i)).
Proof.
  induction ex as [|[c t] ex IH]; intros i P T j hd tl Bi B H; cbn [peel] in H.
  - injection H as <- <- <-. split; [exact B|]. exists (encoding_of i). unfold encoding_of.
    split; [now rewrite <- !app_assoc|]. split; [lia|]. split; auto. intros _. econstructor. exact B.
  - destruct (negb (i_class i =? c)); [discriminate|]. destruct (Z.eqb_spec (i_method i) 1) as [M|M]; [|discriminate].
    cbn [negb] in H. destruct (negb (i_tag i =? t)); [discriminate|]. apply bind_ok in H as ([j' e] & Hp & H).
    apply parse__0 in Hp as (B' & (r & Er) & _); auto.
    assert (Bc' : bytes_ok (i_contents j')) by (eapply contents_bytes; [exact Bi|exact Er]).
    apply IH in H as (Bj & x & Ex & Lx & Iff); auto. split; [exact Bj|].
    exists (i_header i ++ x ++ i_trailer i). split; [rewrite Ex, <- !app_assoc; reflexivity|].
    pose proof (len_nonneg r). assert (Lc : len (i_contents i) = len (encoding_of j') + len r) by (rewrite Er at 1; apply len_app).
    split.
    { unfold encoding_of at 1. rewrite !len_app. lia. }
    cbn [length]. rewrite (exact_step _ _ B M). split.
    + intros E. unfold encoding_of in E at 1. apply app_inv_head in E. apply app_inv_tail in E. subst x.
      rewrite Lc in Lx. assert (r = []) as -> by (destruct r; [auto|rewrite len_cons in Lx; pose proof (len_nonneg r); lia]).
      rewrite app_nil_r in Er. rewrite Er in *. apply Iff. reflexivity.
    + intros E. unfold encoding_of at 1. f_equal. f_equal. pose proof E as E0.
      apply exact_info in E0 as (i' & Bi' & Ei & _). rewrite Er in Ei.
      destruct (encoding_prefix i' j' r Bi' B' (eq_sym Ei)) as [-> ->]. rewrite app_nil_r in Er. rewrite Er in *. now apply Iff.
Qed.

Lemma ends_80_none h : ends_80 h = false -> (if ends_80 h then None else h) = h.
Proof. now intros ->. Qed.

(* what dump returns for a loaded object: the octets read, without what the wrappers
   held after the value *)
Lemma load_dump k cls p d s o : bytes_ok d -> load k cls p d s = Ok o ->
  exists i t rest, ber_info max_budget i /\ d = encoding_of i ++ rest /\ (s = true -> rest = []) /\
    init_tagging cls p = Ok t /\
    (ends_80 (e_header (o_enc o)) = false -> exists x, dump k cls o false = (o, Ok x) /\ len x <= len (encoding_of i) /\
      (x = encoding_of i <-> exact_ber max_budget (length (t_explicit t)) (encoding_of i))).
Proof.
  intros B H. unfold load in H. apply bind_ok in H as ([i e] & Hp & H).
  apply parse__0 in Hp as (Bi & (rest & Er) & Ee); auto.
  destruct (s && negb (e =? len d)) eqn:Es; [discriminate|].
  assert (Bc : bytes_ok (i_contents i)) by (eapply contents_bytes; eauto).
  assert (Hs : s = true -> rest = []).
  { intros ->. cbn [andb] in Es. rewrite negb_false_iff, Z.eqb_eq in Es. rewrite Er, len_app in Es.
    destruct rest; auto. rewrite len_cons in Es. pose proof (len_nonneg rest). lia. }
  exists i. unfold build in H. destruct (has_explicit cls p) eqn:He.
  - destruct (init_tagging cls p) as [t|] eqn:Hi; [|discriminate]. cbn [bind] in H.
    apply bind_ok in H as ([[j P] T] & Hq & H). apply bind_ok in H as (o' & Hb & H).
    exists t, rest. repeat split; auto. intros E8.
    apply build_plain_contents in Hb as (E1 & _ & _).
    change (i_header i) with ([] ++ i_header i) in Hq. rewrite <- (app_nil_r (i_trailer i)) in Hq.
    apply peel_exact in Hq as (Bj & x & Ex & Lx & Iff); auto. cbn [app] in Ex. rewrite app_nil_r in Ex.
    rewrite rev_length in Iff. exists x. split; auto.
    unfold dump. rewrite E8. cbn [orb]. unfold base_dump. rewrite (ends_80_none _ E8).
    injection H as <-. cbn [o_enc e_header e_contents e_trailer] in *. unfold contents in E1. rewrite E1. now rewrite Ex.
  - unfold build_plain in H. apply bind_ok in H as (t & Hi & H). exists t, rest. repeat split; auto. intros E8.
    pose proof (has_explicit_false _ _ _ Hi He) as Nx.
    destruct (negb _) in H; [discriminate|]. destruct (negb _ && _) in H; [discriminate|]. destruct (negb _ && _) in H; [discriminate|].
    unfold dump. rewrite E8. cbn [orb]. unfold base_dump. rewrite (ends_80_none _ E8).
    injection H as <-. cbn [o_enc e_header e_contents e_trailer] in *. exists (encoding_of i). split; [reflexivity|]. split; [lia|].
    split; auto. intros _. rewrite Nx. econstructor. exact Bi.
Qed.

(* a wrapper that does not start with an encoding is refused *)
Lemma wrapper_refused k cls p t d s : bytes_ok d -> init_tagging cls p = Ok t -> has_explicit cls p = true ->
  (forall i rest j rest', ber_info max_budget i -> d = encoding_of i ++ rest -> ber_info max_budget j ->
     i_contents i <> encoding_of j ++ rest') ->
  load k cls p d s = Err ValueError.
Proof.
  intros B Hi He N. destruct (has_explicit_true _ _ _ Hi He) as [Nx _].
  unfold load. destruct (parse_ d (len d) 0) as [[i e]|x] eqn:E; cbn [bind].
  2:{ apply parse__err in E; auto; [congruence|lia]. }
  apply parse__0 in E as (Bi & (rest & Er) & _); auto. destruct (s && negb (e =? len d)); [reflexivity|].
  unfold build. rewrite He, Hi. cbn [bind].
  assert (Bc : bytes_ok (i_contents i)) by (eapply contents_bytes; eauto).
  destruct (rev (t_explicit t)) as [|[c tg] ex] eqn:Ex.
  { apply (f_equal (@rev _)) in Ex. rewrite rev_involutive in Ex. contradiction. }
  cbn [peel]. destruct (negb (i_class i =? c)); [reflexivity|]. destruct (negb (i_method i =? 1)); [reflexivity|].
  destruct (negb (i_tag i =? tg)); [reflexivity|].
  destruct (parse_ (i_contents i) (len (i_contents i)) 0) as [[j e']|x] eqn:E; cbn [bind].
  - apply parse__0 in E as (Bj & (r' & Er') & _); auto. exfalso. exact (N i rest j r' Bi Er Bj Er').
  - apply parse__err in E; auto; [now subst|lia].
Qed.

(* ---- reading a loaded object does not change it ---- *)
Definition is_read (x : op) : Prop := match x with ORead => True | ODump f => f = false | OSet _ => False end.

Lemma reads_stable k cls b ops : kind_ok k -> Forall is_read ops -> forall o, contents o = Some b ->
  e_header (o_enc o) <> None -> ends_80 (e_header (o_enc o)) = false ->
  Forall (fun xy => match xy with
                    | (ORead, RNative r) => r = snd (get_native k cls o)
                    | (ODump _, RBytes r) => r = snd (dump k cls o false)
                    | _ => False end) (trace k cls o ops).
Proof.
  intros Hk. induction ops as [|x ops IH]; intros F o Ec Hh E8; [constructor|].
  inversion F as [|? ? Fx Fr]; subst. cbn [trace]. destruct x as [|f|v]; cbn [is_read] in Fx; try contradiction; cbn [step].
  - pose proof (get_frame k cls o b Ec) as (Ft & Fe & Fw). pose proof (get_idem k cls o b Hk Ec) as Id.
    destruct (get_native k cls o) as [o' r] eqn:E. cbn [fst snd] in *. constructor; [reflexivity|].
    assert (G : Forall (fun xy => match xy with
                    | (ORead, RNative r) => r = snd (get_native k cls o')
                    | (ODump _, RBytes r) => r = snd (dump k cls o' false)
                    | _ => False end) (trace k cls o' ops)).
    { apply IH; auto; unfold contents; rewrite Fe; auto. }
    eapply Forall_impl; [|exact G]. intros [[|f|v] [r'|r'|r']] Q; auto.
    + rewrite Id in Q. exact Q.
    + rewrite Q. unfold dump. rewrite Fe, E8. cbn [orb]. unfold base_dump. rewrite Fe, E8.
      destruct (e_contents (o_enc o)); [|reflexivity]. destruct (e_header (o_enc o)); [reflexivity|contradiction].
  - subst f. assert (Ed : dump k cls o false = (o, snd (dump k cls o false))).
    { unfold dump. rewrite E8. cbn [orb]. unfold base_dump. rewrite (ends_80_none _ E8).
      unfold contents in Ec. rewrite Ec. destruct (e_header (o_enc o)) as [h|] eqn:E; [reflexivity|contradiction]. }
    pose proof (IH Fr o Ec Hh E8) as G.
    destruct (dump k cls o false) as [o' r]. cbn [snd] in *. injection Ed as ->. constructor; [reflexivity|exact G].
Qed.

Lemma load_header k cls p d s o : load k cls p d s = Ok o -> e_header (o_enc o) <> None.
Proof.
  intros H. unfold load in H. apply bind_ok in H as ([i e] & _ & H).
  destruct (s && negb (e =? len d)); [discriminate|]. unfold build in H. destruct (has_explicit cls p).
  - apply bind_ok in H as (t & _ & H). apply bind_ok in H as ([[j P] T] & _ & H).
    apply bind_ok in H as (o' & _ & H). injection H as <-. discriminate.
  - unfold build_plain in H. apply bind_ok in H as (t & _ & H).
    destruct (negb _) in H; [discriminate|]. destruct (negb _ && _) in H; [discriminate|]. destruct (negb _ && _) in H; [discriminate|].
    injection H as <-. discriminate.
Qed.

Lemma loaded_reads k cls p d s o ops : kind_ok k -> bytes_ok d -> load k cls p d s = Ok o ->
  ends_80 (e_header (o_enc o)) = false -> Forall is_read ops ->
  Forall (fun xy => match xy with
                    | (ORead, RNative r) => r = snd (get_native k cls o)
                    | (ODump _, RBytes r) => r = snd (dump k cls o false)
                    | _ => False end) (trace k cls o ops).
Proof.
  intros Hk B H E8 F. destruct (load_fresh k cls p d s o B H) as (b & Ec & _).
  eapply reads_stable; eauto. eapply load_header; eauto.
Qed.
