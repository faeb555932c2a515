(* Proofs about reading structures by reference: what ReadModel reads is what the encoding
   stands for, in every environment that passes the check [class_okb]. *)
Require Import Verif.Base Verif.BaseFacts Verif.IntModel Verif.ParserModel Verif.ParserSpec Verif.ParserProofs Verif.ParserFacts Verif.Text
  Verif.TagSpec Verif.ChunkSpec Verif.ChunkProofs Verif.PrimModel Verif.PrimSpec Verif.PrimLoad Verif.PrimHist Verif.PrimProofs Verif.PrimDump
  Verif.ContModel Verif.ContSpec Verif.ContBase Verif.ContRep Verif.ContPrim Verif.ContHistSpec Verif.BerSpec Verif.BerProofs
  Verif.ParsModel Verif.ParsSpec Verif.ParsProofs
  Verif.OidSpec Verif.GenModel Verif.GenSpec Verif.GenProofs Verif.LibProofs Verif.ReadModel Verif.ReadSpec.
Require Import Coq.Bool.Bool.

(* ---- alike ---- *)
Lemma alike_text t b : alike (APrim (NText t)) b -> b = APrim (NText t).
Proof. destruct b; cbn; try contradiction. intros (k & H). destruct v; cbn in H; try discriminate. now injection H as ->. Qed.
Lemma alike_bytes t b : alike (APrim (NBytes t)) b -> b = APrim (NBytes t).
Proof. destruct b; cbn; try contradiction. intros (k & H). destruct v; cbn in H; try discriminate. now injection H as ->. Qed.
Lemma alike_prim k v v' : same_value k v v' -> alike (prim_value v) (native_of v').
Proof. intros H. destruct v, v'; cbn in H; try discriminate H; cbn; try exact Logic.I; exists k; exact H. Qed.

(* ---- values of unknown type ---- *)
Section Open.
  Fixpoint keyed (n : Z) (l : list uval) : list (text * aval) :=
    match l with [] => [] | u :: r => (dec n, open_value u) :: keyed (n + 1) r end.
  Lemma open_seq l : open_value (USeq l) = ADict (keyed 0 l).
  Proof. reflexivity. Qed.
  Lemma open_alike u : forall a, unative u a -> alike (open_value u) a.
  Proof.
    induction u as [tag k v|l IH] using uval_ind'; intros a H.
    - cbn in H. destruct H as (v' & S & ->). cbn [open_value]. exact (alike_prim k v v' S).
    - destruct a as [| |m| | |]; try contradiction. rewrite open_seq. cbn [alike unative] in *. revert m H. generalize 0.
      induction IH as [|u l Hu _ IHl]; intros n [|[key x] m]; cbn; try tauto. intros (-> & H1 & H2). split; auto.
  Qed.
End Open.

Section Env.
Variable env : ref -> option rclass.
Variable pad : bool.
Notation field_id := (field_id env).
Notation takes := (takes env).
Notation alt_at := (alt_at env).
Notation gen_native := (gen_native pad).
Notation stands := (stands env pad).
Notation read := (read env pad).

Lemma gen_ok u i : ber_info max_budget i -> uber pad u i -> exists a, gen_native i = Ok a /\ alike (open_value u) a.
Proof.
  intros B H. unfold ReadModel.gen_native. destruct (build_ok pad false u i B H) as (o & E & R & _). rewrite E. cbn [bind].
  destruct (whole_ok pad false u o R) as (o' & a & E' & N & _). rewrite E'. cbn [snd]. exists a. split; auto. now apply open_alike.
Qed.

(* ---- checks ---- *)
Definition is_open (r : ref) : bool := match def_of env r with Some DAny | Some (DChoice _ _) => true | _ => false end.
Definition params_fine (r : ref) (p : params) : Prop := params_ok p /\ (is_open r = true -> p_implicit p = None).
Definition params_fineb (r : ref) (p : params) : bool :=
  params_okb p && (negb (is_open r) || match p_implicit p with None => true | _ => false end).
Lemma params_fineb_sound r p : params_fineb r p = true -> params_fine r p.
Proof.
  unfold params_fineb. rewrite andb_true_iff, orb_true_iff. intros [H K]. split; [now apply params_okb_sound|]. intros O. rewrite O in K.
  destruct K as [K|K]; [discriminate|]. now destruct (p_implicit p).
Qed.

(* ids an element under a class and params can have; None: any *)
Definition ref_id (r : ref) (p : params) : option (Z * Z) :=
  match p_explicit p with x :: _ => Some x | [] => match p_implicit p with Some x => Some x | None => class_id env r end end.
Fixpoint somes {A} (l : list (option A)) : list A :=
  match l with [] => [] | Some x :: r => x :: somes r | None :: r => somes r end.
Definition ref_ids (r : ref) (p : params) : option (list (Z * Z)) :=
  match ref_id r p with
  | Some x => Some [x]
  | None => match def_of env r with
            | Some DAny => None
            | Some (DChoice alts _) => Some (somes (map field_id alts))
            | _ => Some []
            end
  end.
Definition pick_ids (f : rfield) (pk : pick) : option (list (Z * Z)) :=
  match pk, g_class f with
  | Keep, Some r => ref_ids r (g_params f)
  | As r, _ => ref_ids r (g_params f)
  | Inside _, Some r => ref_ids r (g_params f)
  | _, None => Some []
  end.
(* ids of elements an optional field takes; None: any *)
Definition taken (f : rfield) : option (list (Z * Z)) :=
  match g_class f with
  | Some r => match def_of env r with
              | Some DAny => None
              | Some (DChoice alts _) =>
                  Some (match ref_id r (g_params f) with Some x => [x] | None => somes (map field_id alts) end)
              | _ => Some (match ref_id r (g_params f) with Some x => [x] | None => [] end)
              end
  | None => Some (match field_id f with Some x => [x] | None => [] end)
  end.

Definition wide_field := (rfield * list pick)%type.
Fixpoint wide (n : option nat) (pks : list pick) (fs : list rfield) : list wide_field :=
  match fs with
  | [] => []
  | f :: r => (f, match n with Some O => pks | _ => [Keep] end) :: wide (match n with Some (S m) => Some m | _ => None end) pks r
  end.
Definition picks (s : selector) : list pick := map snd (s_table s) ++ match s_else s with Some x => [x] | None => [] end.
Definition widened (fs : list rfield) (sel : option selector) : list wide_field :=
  wide (option_map s_field sel) (match sel with Some s => picks s | None => [] end) fs.

Definition greqb (f : rfield) : bool := match g_pres f with GReq => true | _ => false end.
Fixpoint reachw (l : list wide_field) : list wide_field :=
  match l with [] => [] | w :: r => if greqb (fst w) then [w] else w :: reachw r end.
Definition subb (a b : list (Z * Z)) : bool := forallb (fun x => memb id_eqb x b) a.
Definition own_okb (w : wide_field) : bool :=
  match taken (fst w) with
  | None => true
  | Some l => forallb (fun pk => match pick_ids (fst w) pk with Some m => subb m l | None => false end) (snd w)
  end.
Definition apartb (f : rfield) (w : wide_field) : bool :=
  match taken f with
  | None => false
  | Some l => forallb (fun pk => match pick_ids (fst w) pk with Some m => disjointb id_eqb l m | None => false end) (snd w)
  end.
Fixpoint distinctw (l : list wide_field) : bool :=
  match l with
  | [] => true
  | w :: r => (greqb (fst w) || (own_okb w && forallb (apartb (fst w)) (reachw r))) && distinctw r
  end.

Fixpoint steadyb (a : aval) : bool :=
  match a with
  | ANone => true
  | APrim (NTime _) => false
  | APrim _ => true
  | ADict l => forallb (fun x => steadyb (snd x)) l
  | AList l => forallb steadyb l
  | _ => false
  end.
Definition pick_okb (f : rfield) (pk : pick) : bool :=
  match pk, g_class f with
  | Keep, Some r => params_fineb r (g_params f)
  | As r, _ => params_fineb r (g_params f)
  | Inside _, Some r => params_fineb r (g_params f)
  | _, None => true
  end.
Definition field_okb (w : wide_field) : bool :=
  forallb (pick_okb (fst w)) (snd w) && match g_pres (fst w) with GDef d => steadyb d | _ => true end.
Definition sel_okb (fs : list rfield) (s : selector) : bool :=
  nodupb eqb_text (map fst (s_table s)) &&
  match s_key s with
  | [] => false
  | n :: _ => match index_of (fun f => eqb_text (g_name f) n) fs 0 with Some k => Nat.ltb k (s_field s) | None => false end
  end.
Definition optid_eqb (a b : option (Z * Z)) : bool :=
  match a, b with Some x, Some y => id_eqb x y | None, None => true | _, _ => false end.
Definition alt_okb (f : rfield) : bool :=
  match g_class f with
  | Some r => params_fineb r (g_params f) && match field_id f with Some _ => true | None => false end
  | None => false
  end.
(* several object identifiers may have the same name, which is no obstacle to reading *)
Definition readableb (k : kind) : bool := match k with KOid m => nodupb eqb_text (map fst m) | _ => kind_okb k end.
Definition def_okb (k : rclass) : bool :=
  match r_def k with
  | DPrim kd => readableb kd
  | DAny => true
  | DParse bits => true
  | DSeq fs sel =>
      forallb field_okb (widened fs sel) && distinctw (widened fs sel) &&
      match sel with Some s => sel_okb fs s | None => true end
  | DOf item => true
  | DChoice alts _ => forallb alt_okb alts && nodupb id_eqb (somes (map field_id alts))
  end.
Definition class_okb (k : rclass) : bool := cls_okb (r_cls k) && nilb (k_explicit (r_cls k)) && def_okb k.

(* a native of its own does not depend on what alike leaves open *)
Definition respects (f : aval -> res aval) : Prop :=
  forall a b x, alike a b -> f a = Ok x -> exists y, f b = Ok y /\ alike x y.
Definition env_ok : Prop := forall r k, env r = Some k -> class_okb k = true /\ respects (r_out k).

Lemma class_ok_parts k : class_okb k = true -> cls_ok (r_cls k) /\ k_explicit (r_cls k) = [] /\ def_okb k = true.
Proof.
  unfold class_okb. rewrite !andb_true_iff. intros [[H K] L]. split; [now apply cls_okb_sound|]. split; auto. now apply nilb_iff.
Qed.

Lemma steady_alike : forall a, steadyb a = true -> alike a a.
Proof.
  fix IH 1. intros [|v|l|l|n a|p a] H; cbn in *; try discriminate; auto.
  - exists KBool. destruct v; try discriminate; try reflexivity; cbn; tauto.
  - induction l as [|[n a] l IHl]; cbn; auto. cbn in H. apply andb_true_iff in H as [H K]. split; auto.
  - induction l as [|a l IHl]; cbn; auto. cbn in H. apply andb_true_iff in H as [H K]. split; auto.
Qed.

(* ---- opening ---- *)
Lemma within_parts ex Q : forall i hd tl, ber_info max_budget i -> within ex Q i ->
  exists j hd' tl' a z, peel ex i (hd ++ i_header i) (i_trailer i ++ tl) = Ok (j, hd', tl') /\ ber_info max_budget j /\ Q j /\
    unwrapped ex i = Ok j /\ hd' ++ i_contents j ++ tl' = hd ++ encoding_of i ++ tl /\ a = hd' /\ z = tl'.
Proof.
  induction ex as [|[c t] ex IH]; intros i hd tl B H; cbn [within] in H.
  - exists i, (hd ++ i_header i), (i_trailer i ++ tl), (hd ++ i_header i), (i_trailer i ++ tl). cbn [peel unwrapped].
    repeat split; auto. unfold encoding_of. now rewrite !app_assoc.
  - destruct H as (H1 & H2 & H3 & j & Bj & Ej & H). cbn [peel unwrapped]. rewrite H1, H2, H3, !Z.eqb_refl. cbn [negb]. rewrite Ej.
    pose proof (parse__0_complete j [] Bj) as P. rewrite app_nil_r in P. rewrite P. cbn [bind].
    destruct (IH j (hd ++ i_header i) (i_trailer i ++ tl) Bj H) as (j' & hd' & tl' & a & z & E1 & E2 & E3 & E4 & E5 & _).
    rewrite <- !app_assoc in *. exists j', hd', tl', hd', tl'. repeat split; auto. rewrite E5. unfold encoding_of at 2. rewrite Ej, <- !app_assoc. reflexivity.
Qed.

Lemma stripped_ok c p Q i : params_ok p -> k_explicit c = [] -> ber_info max_budget i ->
  within (rev (t_explicit (tags_of c p))) Q i ->
  exists j t hd tl, stripped c p i = Ok (j, t, hd, tl) /\ ber_info max_budget j /\ Q j /\
    t_class t = t_class (tags_of c p) /\ t_tag t = t_tag (tags_of c p) /\
    init_tagging c p = Ok (tags_of c p) /\ unwrapped (rev (t_explicit (tags_of c p))) i = Ok j /\ hd ++ i_contents j ++ tl = encoding_of i.
Proof.
  intros Hp Kx B H. pose proof (init_tags c p Hp) as It.
  destruct (within_parts _ _ i [] [] B H) as (j & hd & tl & _ & _ & P & Bj & Qj & U & E & _). cbn [app] in P, E. rewrite app_nil_r in P, E.
  unfold stripped. destruct (has_explicit c p) eqn:He.
  - rewrite It. cbn [bind]. rewrite P. cbn [bind]. change (init_tagging c (Params [] None true)) with (Ok (Tagging (k_class c) (k_tag c) false [])). cbn [bind].
    exists j, (Tagging (k_class c) (k_tag c) false []), hd, tl. split; auto. split; auto. split; auto.
    assert (Sh : tags_of c p = Tagging (k_class c) (k_tag c) false (t_explicit (tags_of c p))).
    { destruct (has_explicit_true _ _ _ It He) as [Nx _]. unfold tags_of in *.
      destruct (params_shape p Hp) as [(c0 & t0 & -> & H1 & H2)|[(y & -> & H1 & H2)| ->]]; cbn in *; auto. rewrite Kx in Nx. contradiction. }
    rewrite Sh. cbn [t_class t_tag t_explicit]. repeat split; auto; try (rewrite <- Sh; auto).
  - rewrite It. cbn [bind]. pose proof (has_explicit_false _ _ _ It He) as Ex. rewrite Ex in P, U |- *. cbn in P, U. injection P as <- <- <-.
    exists i, (tags_of c p), (i_header i), (i_trailer i). repeat split; auto.
Qed.

Lemma opened_ok c p X i : params_ok p -> k_explicit c = [] -> ber_info max_budget i ->
  within (rev (t_explicit (tags_of c p))) (ber_constructed (tags_of c p) X) i ->
  exists x, opened c p i = Ok x /\ X x.
Proof.
  intros Hp Kx B H. destruct (stripped_ok c p _ i Hp Kx B H) as (j & t & hd & tl & E & _ & (J1 & J2 & J3 & J4) & T1 & T2 & _).
  unfold opened. rewrite E. cbn [bind]. unfold check_tags. rewrite T1, T2, J1, J2, J3, !Z.eqb_refl. cbn. eauto.
Qed.

Lemma unwrapped_ex ex : forall ex' i, length ex = length ex' -> unwrapped ex i = unwrapped ex' i.
Proof.
  induction ex as [|x ex IH]; intros [|y ex'] i L; cbn in *; try discriminate; auto.
  destruct (parse_ (i_contents i) (len (i_contents i)) 0) as [[j e]|]; cbn; auto.
Qed.
Lemma any_ok c p u i : params_ok p -> k_explicit c = [] -> ber_info max_budget i ->
  within (rev (t_explicit (tags_of c p))) (uber pad u) i -> exists a, any_native pad c p i = Ok a /\ alike (open_value u) a.
Proof.
  intros Hp Kx B H. destruct (stripped_ok c p _ i Hp Kx B H) as (j & t & hd & tl & E & Bj & Q & _ & _ & It & U & Ed).
  unfold any_native. rewrite E. cbn [bind]. rewrite It. cbn [bind]. rewrite Ed.
  pose proof (parse__0_complete i [] B) as P. rewrite app_nil_r in P. rewrite P. cbn [bind].
  rewrite (unwrapped_ex _ (rev (t_explicit (tags_of c p)))) by (now rewrite rev_length). rewrite U. cbn [bind]. now apply gen_ok.
Qed.

Lemma within_open ex b : forall i, within ex (fun j => exists u, uber pad u j /\ b = open_value u) i -> exists u, within ex (uber pad u) i /\ b = open_value u.
Proof.
  induction ex as [|[c t] ex IH]; cbn [within]; auto. intros i (H1 & H2 & H3 & j & Bj & Ej & H). destruct (IH j H) as (u & K & E). exists u.
  split; auto. split; auto. split; auto. split; auto. exists j. auto.
Qed.

Lemma tmap_in (m : list (text * text)) d s : NoDup (map fst m) -> In (d, s) m -> tmap_get m d = Some s.
Proof.
  induction m as [|[k x] m IH]; cbn; [contradiction|]. intros N H. inversion N as [|? ? N1 N2]; subst. destruct (eqb_text k d) eqn:E.
  - apply eqb_text_iff in E. subst k. destruct H as [H|H]; [congruence|]. exfalso. apply N1. apply in_map_iff. exists (d, s). auto.
  - destruct H as [H|H]; [|auto]. injection H as -> ->. assert (eqb_text d d = true) by (now apply eqb_text_iff). congruence.
Qed.
Lemma tmap_out (m : list (text * text)) d : ~ In d (map fst m) -> tmap_get m d = None.
Proof.
  induction m as [|[k x] m IH]; cbn; auto. intros H. destruct (eqb_text k d) eqn:E; [|tauto]. apply eqb_text_iff in E. subst. tauto.
Qed.
Lemma oid_native m c p i s : prim_native (KOid []) c p i = Ok (APrim (NText s)) ->
  prim_native (KOid m) c p i = Ok (APrim (NText (match tmap_get m s with Some n => n | None => s end))).
Proof.
  unfold prim_native. change (build (KOid m) c p i) with (build (KOid []) c p i). destruct (build (KOid []) c p i) as [o|]; cbn [bind]; [|discriminate].
  unfold get_native. destruct (contents o) as [x|]; [|discriminate].
  destruct (match c_native (o_cache o) with Some v => (o, v) | None => let '(o', s0) := get_dotted o x in (set_native o' (Some (NText s0)), NText s0) end) as [o' v].
  destruct v; cbn [tmap_get ret bind snd]; try discriminate. intros [= <-]. destruct (tmap_get m s0); reflexivity.
Qed.
Lemma oid_ber m c p v i : NoDup (map fst m) -> ber_of (SPrim (KOid m) c) (tags_of c p) (APrim v) i ->
  exists d, ber_of (SPrim (KOid []) c) (tags_of c p) (APrim (NText d)) i /\ v = NText (match tmap_get m d with Some n => n | None => d end).
Proof.
  intros N (_ & H & W). destruct v as [| | |s| | | |]; try contradiction.
  assert (G : within (rev (t_explicit (tags_of c p))) (fun j => exists d, ber_prim (KOid []) c (tags_of c p) (NText d) j /\
    holds (KOid []) None (NText d) /\ s = match tmap_get m d with Some n => n | None => d end) i).
  { eapply within_impl; [|exact W]. intros j (J1 & J2 & J3). destruct J3 as [(M & Bo & V)|(_ & _ & X & _)]; [|discriminate X].
    destruct V as [V|V]; [|contradiction]. cbn in V. destruct V as (arcs & L & O & V). exists (dotted_text arcs).
    split; [split; [exact J1|split; [exact J2|left; split; [exact M|split; [exact Bo|left]]]]|].
    - exists arcs. split; [exact L|]. split; [exact O|]. right. split; [reflexivity|intros []].
    - split; [right; exists arcs; cbn; auto|]. destruct V as [V|(-> & V)]; [now rewrite (tmap_in m _ s N V)|].
      rewrite tmap_out; auto. destruct H as [(a2 & _ & H)|(a2 & _ & _ & H & _)]; auto. exfalso. apply V. apply in_map_iff. exists (dotted_text a2, dotted_text arcs). auto. }
  assert (G' : exists d, within (rev (t_explicit (tags_of c p))) (ber_prim (KOid []) c (tags_of c p) (NText d)) i /\
     holds (KOid []) None (NText d) /\ s = match tmap_get m d with Some n => n | None => d end).
  { clear - G. revert i G. induction (rev (t_explicit (tags_of c p))) as [|[cl tg] ex IH]; cbn [within]; auto.
    intros i (H1 & H2 & H3 & j & Bj & Ej & H). destruct (IH j H) as (d & K & R). exists d. split; auto. split; auto. split; auto. split; auto. exists j. auto. }
  destruct G' as (d & K & Hd & ->). exists d. split; auto. split; [discriminate|]. auto.
Qed.

Lemma prim_kind_ok kd c p v i : kind_ok kd -> cls_ok c -> k_explicit c = [] -> params_ok p -> ber_info max_budget i ->
  ber_of (SPrim kd c) (tags_of c p) (APrim v) i -> exists a, prim_native kd c p i = Ok a /\ alike (prim_value v) a.
Proof.
  intros Hk Hc Kx Hp B H. assert (W : wf (SPrim kd c)) by (split; auto).
  assert (T : taggable (SPrim kd c) p). { split; auto. split; [right; auto|discriminate]. }
  destruct (loads_prim kd c W p None i (APrim v) T Logic.I B H) as (x & a' & E & S & (R & _)).
  assert (TO : tagging_ok (tags_of c p)) by (apply (stags_ok _ _ W T)).
  destruct (K_native _ (contract_prim kd c W) _ _ _ _ _ TO R) as (w & y & E' & R' & _ & _ & _ & Sh).
  cbn [methods prim_ops x_build x_native on_prim] in E, E'. destruct (build kd c p i) as [o|] eqn:Eb; cbn [bind] in E; [|discriminate]. injection E as <-.
  cbn [on_prim] in E'. unfold prim_native. rewrite Eb. cbn [bind]. destruct (get_native kd c o) as [o' [nv|]]; cbn [bind snd] in *; [|discriminate].
  injection E' as _ Ey. exists (native_of nv). split; auto. cbn in S. destruct a' as [|v'| | | |]; try contradiction.
  destruct (Sh eq_refl) as (v2 & S2 & ->). subst. rewrite Ey. apply (alike_prim kd). destruct S as (_ & _ & S). eapply same_value_trans; eauto.
Qed.

Lemma prim_ok kd c p v i : readableb kd = true -> cls_ok c -> k_explicit c = [] -> params_ok p -> ber_info max_budget i ->
  ber_of (SPrim kd c) (tags_of c p) (APrim v) i -> exists a, prim_native kd c p i = Ok a /\ alike (prim_value v) a.
Proof.
  intros R. destruct (match kd with KOid m => true | _ => false end) eqn:E.
  - destruct kd as [| | | | | | | | |m| | | |]; try discriminate E. intros Hc Kx Hp B H. cbn in R. pose proof (nodupb_sound _ eqb_text_iff _ R) as N.
    destruct (oid_ber m c p v i N H) as (d & K & ->). assert (O : kind_ok (KOid [])) by (split; [constructor|split; [constructor|intros ? []]]).
    destruct (prim_kind_ok (KOid []) c p (NText d) i O Hc Kx Hp B K) as (a & Ea & A). cbn [prim_value] in A. apply alike_text in A. subst a.
    eexists. split; [exact (oid_native m c p i d Ea)|]. cbn. exists KBool. reflexivity.
  - intros. apply prim_kind_ok; auto. apply kind_okb_sound. destruct kd; auto. discriminate.
Qed.
Lemma prim_ids kd c p v i : readableb kd = true -> cls_ok c -> ber_info max_budget i ->
  ber_of (SPrim kd c) (tags_of c p) (APrim v) i -> In (i_class i, i_tag i) (outer_ids (SPrim kd c) p).
Proof.
  intros R Hc B H. destruct (match kd with KOid m => true | _ => false end) eqn:E.
  - destruct kd as [| | | | | | | | |m| | | |]; try discriminate E. cbn in R. destruct (oid_ber m c p v i (nodupb_sound _ eqb_text_iff _ R) H) as (d & K & _).
    assert (W : wf (SPrim (KOid []) c)) by (split; [split; [constructor|split; [constructor|intros ? []]]|auto]).
    exact (ber_ids _ W p _ _ B K).
  - assert (W : wf (SPrim kd c)) by (split; [apply kind_okb_sound; destruct kd; auto; discriminate|auto]). exact (ber_ids _ W p _ _ B H).
Qed.

Lemma octets_ok bits c p b i : k_explicit c = [] -> params_ok p -> ber_info max_budget i ->
  within (rev (t_explicit (tags_of c p))) (string_of bits c (tags_of c p) b) i -> octets_in bits c p i = Ok b.
Proof.
  intros Kx Hp B H. pose proof (pkind_con bits) as Ck. unfold octets_in.
  assert (M : forall j, string_of bits c (tags_of c p) b j ->
    pmerged bits c ((i_method j =? 1)) (i_contents j) = Ok b /\ ((i_method j = 0) \/ (i_method j = 1 /\ i_trailer j = [0; 0]))).
  { intros j (_ & _ & [(M & E)|(M & Tr & n & xs & S & N & NE & ->)]); rewrite M.
    - change (0 =? 1) with false. split; auto. rewrite E. exact (pmerged_whole bits c b).
    - change (1 =? 1) with true. split; auto. apply (pmerged_segments bits c n); auto. }
  destruct (ber_cases c p _ i Hp (or_intror Kx) B H) as (j & hd & tl & Bj & Q & C); destruct (M j Q) as (Mj & Mt); destruct Q as (J1 & J2 & _);
    destruct C as [(He & Pe & -> & -> & ->)|(He & Sh & P)].
  - unfold build, build_plain. rewrite He, (init_tags c p Hp). cbn [bind]. rewrite J1, J2, !Z.eqb_refl. cbn [negb andb].
    destruct Mt as [Mt|[Mt Tr]]; rewrite Mt in *.
    + change (0 =? 0) with true. cbn [negb andb bind o_enc e_indef contents e_contents]. exact Mj.
    + change (1 =? 0) with false. change (1 =? 1) with true. rewrite Tr, Ck. cbn [negb andb eqb_bytes]. rewrite !Z.eqb_refl. cbn [andb negb bind o_enc e_indef contents e_contents]. exact Mj.
  - unfold build. rewrite He, (init_tags c p Hp). cbn [bind]. rewrite P. cbn [bind]. unfold build_plain.
    change (init_tagging c (Params [] None true)) with (Ok (Tagging (k_class c) (k_tag c) false [])). cbn [bind t_class t_tag].
    rewrite Sh in J1, J2. cbn [t_class t_tag] in J1, J2. rewrite J1, J2, !Z.eqb_refl. cbn [negb andb].
    destruct Mt as [Mt|[Mt Tr]]; rewrite Mt in *.
    + change (0 =? 0) with true. cbn [negb andb bind o_enc e_indef contents e_contents]. exact Mj.
    + change (1 =? 0) with false. change (1 =? 1) with true. rewrite Tr, Ck. cbn [negb andb eqb_bytes]. rewrite !Z.eqb_refl. cbn [andb negb bind o_enc e_indef contents e_contents]. exact Mj.
Qed.

(* ---- ids ---- *)
Hypothesis Ok_env : env_ok.

Lemma tagged_id c p (Q : info -> Prop) i : params_ok p -> k_explicit c = [] -> within (rev (t_explicit (tags_of c p))) Q i ->
  (forall j, Q j -> i_class j = t_class (tags_of c p) /\ i_tag j = t_tag (tags_of c p)) ->
  (i_class i, i_tag i) = match p_explicit p with x :: _ => x | [] => match p_implicit p with Some x => x | None => (k_class c, k_tag c) end end.
Proof.
  intros Hp Kx H K. unfold tags_of in *. rewrite Kx in *.
  destruct (params_shape p Hp) as [(c0 & t0 & -> & H1 & H2)|[([c0 t0] & -> & H1 & H2)| ->]]; cbn in *.
  - destruct (K i H) as [-> ->]. reflexivity.
  - destruct H as (-> & _ & -> & _). reflexivity.
  - destruct (K i H) as [-> ->]. reflexivity.
Qed.
Lemma outer_id c p (Q : info -> Prop) i x : params_ok p -> k_explicit c = [] -> p_implicit p = None -> within (rev (t_explicit (tags_of c p))) Q i ->
  match p_explicit p with y :: _ => Some y | [] => None end = Some x -> (i_class i, i_tag i) = x.
Proof.
  intros Hp Kx Ni H E. unfold tags_of in *. rewrite Kx in *.
  destruct (params_shape p Hp) as [(c0 & t0 & -> & H1 & H2)|[([c0 t0] & -> & H1 & H2)| ->]]; cbn in *; try discriminate.
  injection E as <-. destruct H as (-> & _ & -> & _). reflexivity.
Qed.

Lemma stands_id n r p ins i a x : params_fine r p -> ber_info max_budget i -> stands n r p ins i a -> ref_id r p = Some x -> (i_class i, i_tag i) = x.
Proof.
  intros (Hp & Ho) B H E. destruct n as [|n]; [contradiction|]. cbn [ReadSpec.stands] in H. unfold is_open, def_of in Ho. unfold ref_id, class_id in E.
  destruct (env r) as [k|] eqn:Ek; [|contradiction]. destruct (Ok_env r k Ek) as (Kok & _). apply class_ok_parts in Kok as (Hc & Kx & Kd). cbn [option_map] in Ho.
  destruct H as (b & _ & H).
  assert (G : forall Q, within (rev (t_explicit (tags_of (r_cls k) p))) Q i ->
     (forall j, Q j -> i_class j = t_class (tags_of (r_cls k) p) /\ i_tag j = t_tag (tags_of (r_cls k) p)) ->
     match p_explicit p with y :: _ => Some y | [] => match p_implicit p with Some y => Some y | None => Some (k_class (r_cls k), k_tag (r_cls k)) end end = Some x ->
     (i_class i, i_tag i) = x).
  { intros Q Hq K E'. rewrite (tagged_id (r_cls k) p Q i Hp Kx Hq K). destruct (p_explicit p); [destruct (p_implicit p)|]; congruence. }
  assert (Wc : forall X j, ber_constructed (tags_of (r_cls k) p) X j -> i_class j = t_class (tags_of (r_cls k) p) /\ i_tag j = t_tag (tags_of (r_cls k) p)).
  { intros X j (-> & _ & -> & _). auto. }
  assert (Ws : forall bits y j, string_of bits (r_cls k) (tags_of (r_cls k) p) y j -> i_class j = t_class (tags_of (r_cls k) p) /\ i_tag j = t_tag (tags_of (r_cls k) p)).
  { intros bits y j (-> & -> & _). auto. }
  destruct (r_def k) as [kd| |bits|fs sel|item|alts fx] eqn:D; destruct ins as [r'|]; try contradiction.
  - destruct H as (v & H & _). unfold def_okb in Kd. rewrite D in Kd. pose proof (prim_ids kd (r_cls k) p v i Kd Hc B H) as I. cbn [outer_ids] in I. unfold stags, tags_of in I. rewrite Kx in I.
    destruct (params_shape p Hp) as [(c0 & t0 & -> & H1 & H2)|[([c0 t0] & -> & H1 & H2)| ->]]; cbn in I, E; destruct I as [I|[]]; congruence.
  - apply within_open in H as (u & H & _). eapply outer_id; eauto. rewrite (Ho eq_refl) in E. exact E.
  - destruct H as (j & _ & _ & H). eapply G; eauto.
  - destruct H as (y & H & _). eapply G; eauto.
  - eapply G; eauto.
  - eapply G; eauto.
  - eapply outer_id; eauto. rewrite (Ho eq_refl) in E. exact E.
Qed.

Lemma field_ref f r : g_class f = Some r -> field_id f = ref_id r (g_params f).
Proof. intros E. unfold ReadModel.field_id, ref_id. rewrite E. reflexivity. Qed.
Lemma in_somes {A} (l : list (option A)) x : In (Some x) l -> In x (somes l).
Proof. induction l as [|[y|] l IH]; cbn; [tauto| |]; intros [H|H]; auto; try discriminate. injection H as ->. auto. Qed.
Lemma alts_fine k alts fx f : class_okb k = true -> r_def k = DChoice alts fx -> In f alts ->
  exists r x, g_class f = Some r /\ params_fine r (g_params f) /\ field_id f = Some x /\ NoDup (somes (map field_id alts)).
Proof.
  intros K D Hf. apply class_ok_parts in K as (_ & _ & K). unfold def_okb in K. rewrite D in K. apply andb_true_iff in K as [K N].
  rewrite forallb_forall in K. specialize (K f Hf). unfold alt_okb in K. destruct (g_class f) as [r|]; [|discriminate].
  apply andb_true_iff in K as [K1 K2]. destruct (field_id f) as [x|]; [|discriminate]. exists r, x.
  split; auto. split; [now apply params_fineb_sound|]. split; auto. exact (nodupb_sound _ id_eqb_iff _ N).
Qed.

Lemma stands_ids n r p ins i a l : params_fine r p -> ber_info max_budget i -> stands n r p ins i a -> ref_ids r p = Some l -> In (i_class i, i_tag i) l.
Proof.
  intros Hp B H E. unfold ref_ids in E. destruct (ref_id r p) as [x|] eqn:Er.
  - injection E as <-. left. symmetry. eapply stands_id; eauto.
  - destruct n as [|n]; [contradiction|]. cbn [ReadSpec.stands] in H. unfold def_of in E. unfold ref_id, class_id in Er.
    destruct (env r) as [k|] eqn:Ek; [|contradiction]. destruct (Ok_env r k Ek) as (Kok & _). destruct (p_explicit p) as [|y ex] eqn:Ex; [|discriminate].
    destruct (p_implicit p) eqn:Ei; [discriminate|]. cbn [option_map] in E. destruct (class_ok_parts k Kok) as (_ & Kx & _).
    destruct (r_def k) as [kd| |bits|fs sel|item|alts fx] eqn:D; try discriminate. injection E as <-. destruct H as (b & _ & H).
    destruct ins; [contradiction|]. unfold tags_of in H. rewrite Ex, Ei in H. cbn [t_explicit] in H. rewrite Kx in H. cbn in H.
    destruct H as (_ & m & f & Hf & _ & H). apply nth_error_In in Hf. destruct (alts_fine k alts fx f Kok D Hf) as (r' & x & G & Pf & Fi & _).
    apply in_somes, in_map_iff. exists f. split; auto. unfold element_of in H. rewrite G in H. rewrite Fi. f_equal. symmetry.
    eapply stands_id; eauto. rewrite <- (field_ref f r' G). exact Fi.
Qed.

Section Level.
Variable n : nat.
Notation st := (stands n).
Notation elem := (element_of st).

Lemma elem_ids f pk i a l : pick_okb f pk = true -> ber_info max_budget i -> elem f pk i a -> pick_ids f pk = Some l -> In (i_class i, i_tag i) l.
Proof.
  unfold pick_okb, element_of, pick_ids. intros K B H E. destruct pk as [|r|r]; destruct (g_class f) as [r'|]; try contradiction;
    apply params_fineb_sound in K; eapply stands_ids; eauto.
Qed.

Lemma same_in x (c t : Z) : same_id (Some x) c t = true <-> In (c, t) [x].
Proof. destruct x as [a b]. cbn. rewrite andb_true_iff, !Z.eqb_eq. split; [intros [-> ->]; auto|intros [E|[]]; injection E; auto]. Qed.
Lemma alt_at_some alts : forall m c t, alt_at alts m c t <> None <-> In (c, t) (somes (map field_id alts)).
Proof.
  induction alts as [|g alts IH]; intros m c t; cbn [ReadModel.alt_at map somes]; [cbn; tauto|]. specialize (IH (S m) c t).
  destruct (alt_at alts (S m) c t) as [k|].
  - split; [intros _|discriminate]. assert (H : In (c, t) (somes (map field_id alts))) by (apply IH; discriminate). destruct (field_id g); [right|]; auto.
  - destruct (field_id g) as [x|]; cbn [same_id].
    + pose proof (same_in x c t) as Sx. cbn [same_id In] in Sx |- *. destruct x as [a b]. destruct ((a =? c) && (b =? t)).
      * split; [intros _|discriminate]. left. now destruct (proj1 Sx eq_refl) as [|[]].
      * rewrite <- IH. split; [intros H; exfalso; now apply H|]. intros [H|H]; auto. assert (false = true) by (apply Sx; auto). discriminate.
    + rewrite <- IH. tauto.
Qed.

Lemma takes_taken f i l : taken f = Some l -> greqb f = false -> (takes f i = true <-> In (i_class i, i_tag i) l).
Proof.
  intros T N. unfold greqb in N.
  assert (G0 : takes f i = same_id (field_id f) (i_class i) (i_tag i)
      || match g_class f with
         | Some r => match def_of env r with
                     | Some DAny => true
                     | Some (DChoice alts _) =>
                         match p_explicit (g_params f), p_implicit (g_params f), alt_at alts 0 (i_class i) (i_tag i) with
                         | [], None, Some _ => true
                         | _, _, _ => false
                         end
                     | _ => false
                     end
         | None => false
         end).
  { unfold ReadModel.takes. now destruct (g_pres f). }
  rewrite G0. clear G0 N. unfold taken in T. destruct (g_class f) as [r|] eqn:G.
  2: { injection T as <-. rewrite orb_false_r. destruct (field_id f) as [x|]; [apply same_in|cbn; split; [discriminate|contradiction]]. }
  rewrite (field_ref f r G). destruct (ref_id r (g_params f)) as [x|] eqn:R.
  - assert (l = [x]) as -> by (destruct (def_of env r) as [[]|]; congruence).
    rewrite orb_true_iff, same_in. split; [intros [H|H]; auto|auto]. exfalso. unfold ref_id, class_id in R. unfold def_of in H, T.
    destruct (env r) as [k|]; [|discriminate]. cbn [option_map] in H, T. destruct (r_def k); try discriminate.
    destruct (p_explicit (g_params f)); [|discriminate]. destruct (p_implicit (g_params f)); discriminate.
  - cbn [same_id orb]. unfold ref_id in R. destruct (p_explicit (g_params f)); [|discriminate]. destruct (p_implicit (g_params f)); [discriminate|].
    destruct (def_of env r) as [[kd| |bits|fs sel|item|alts fx]|]; try discriminate; injection T as <-;
      try (split; [discriminate|contradiction]).
    rewrite <- (alt_at_some alts 0). destruct (alt_at alts 0 (i_class i) (i_tag i)); split; congruence.
Qed.

Lemma takes_any f i : taken f = None -> takes f i = true.
Proof.
  unfold taken, ReadModel.takes. destruct (g_class f) as [r|]; [|discriminate]. destruct (def_of env r) as [[]|]; try discriminate.
  intros _. destruct (g_pres f); auto; apply orb_true_r.
Qed.

(* fields with the types they have *)
Definition tfield := (rfield * pick)%type.
Fixpoint reacht (l : list tfield) : list tfield :=
  match l with [] => [] | t :: r => if greqb (fst t) then [t] else t :: reacht r end.
Fixpoint distinct_t (l : list tfield) : Prop :=
  match l with
  | [] => True
  | t :: r =>
      (greqb (fst t) = false ->
        (forall i a, ber_info max_budget i -> elem (fst t) (snd t) i a -> takes (fst t) i = true) /\
        (forall g i a, In g (reacht r) -> ber_info max_budget i -> elem (fst g) (snd g) i a -> takes (fst t) i = false)) /\ distinct_t r
  end.
Definition fits_in (t : tfield) (w : wide_field) : Prop := fst t = fst w /\ In (snd t) (snd w).

Lemma reach_fits ts : forall ws, all2 fits_in ts ws -> forall g, In g (reacht ts) -> exists w, In w (reachw ws) /\ fits_in g w.
Proof.
  induction ts as [|t ts IH]; intros [|w ws]; cbn [all2 reacht reachw]; try tauto; [intros _ g []|]. intros [F H] g. pose proof F as (E & _). rewrite E.
  destruct (greqb (fst w)); cbn [In].
  - intros [<-|[]]. exists w. auto.
  - intros [<-|Hg]; [exists w; auto|]. destruct (IH ws H g Hg) as (w' & I & K). exists w'. auto.
Qed.
Lemma reachw_in ws w : In w (reachw ws) -> In w ws.
Proof. induction ws as [|x ws IH]; cbn; auto. destruct (greqb (fst x)); cbn; tauto. Qed.

Lemma distinct_fits ws : forallb field_okb ws = true -> distinctw ws = true -> forall ts, all2 fits_in ts ws -> distinct_t ts.
Proof.
  induction ws as [|w ws IH]; intros Fo D [|t ts]; cbn [all2 distinct_t]; try tauto. intros [(E & I) H].
  cbn [forallb distinctw] in Fo, D. apply andb_true_iff in Fo as [F1 F2]. apply andb_true_iff in D as [D1 D2]. split; [|now apply IH].
  intros N. rewrite E in *. rewrite N in D1. cbn [orb] in D1. apply andb_true_iff in D1 as [O A].
  assert (P : forall w' pk, In w' (w :: ws) -> In pk (snd w') -> pick_okb (fst w') pk = true).
  { intros w' pk Hw Hp. assert (F : field_okb w' = true) by (destruct Hw as [Hw|Hw]; [congruence|rewrite forallb_forall in F2; auto]).
    unfold field_okb in F. apply andb_true_iff in F as [F _]. rewrite forallb_forall in F. auto. }
  split.
  - intros i a B K. unfold own_okb in O. destruct (taken (fst w)) as [l|] eqn:T; [|now apply takes_any].
    apply (takes_taken _ i l T N). rewrite forallb_forall in O. specialize (O _ I). destruct (pick_ids (fst w) (snd t)) as [m|] eqn:Pi; [|discriminate].
    unfold subb in O. rewrite forallb_forall in O. apply (memb_iff _ id_eqb_iff). apply O. eapply elem_ids; eauto. apply P; auto. now left.
  - intros g i a Hg B K. destruct (reach_fits ts ws H g Hg) as (w' & Iw & (E' & I')). rewrite forallb_forall in A. specialize (A w' Iw).
    unfold apartb in A. destruct (taken (fst w)) as [l|] eqn:T; [|discriminate]. rewrite forallb_forall in A. specialize (A _ I'). rewrite <- E' in A.
    destruct (pick_ids (fst g) (snd g)) as [m|] eqn:Pi; [|discriminate]. apply (disjointb_sound _ id_eqb_iff) in A.
    destruct (takes (fst w) i) eqn:Tk; auto. exfalso. apply (takes_taken _ i l T N) in Tk. apply (A _ Tk). eapply elem_ids; eauto.
    rewrite E'. apply P; auto. right. now apply reachw_in.
Qed.

(* ---- the elements of the fields ---- *)
Notation stf := (field_stands st).
Definition given_to (t : tfield) (na : text * aval) (x : option info) : Prop :=
  fst na = g_name (fst t) /\
  match x with
  | None => match g_pres (fst t) with GReq => False | GOpt => snd na = ANone | GDef d => snd na = d end
  | Some i => ber_info max_budget i /\ elem (fst t) (snd t) i (snd na)
  end.

Lemma stf_empty t na : stf t na [] -> greqb (fst t) = false /\ given_to t na None.
Proof.
  intros (E & [(_ & H)|(i & B & Y & _)]).
  - unfold greqb, given_to. destruct (g_pres (fst t)); auto. contradiction.
  - apply encoding_pos in B. rewrite <- Y in B. discriminate B.
Qed.
Lemma stf_full t na y : stf t na y -> y <> [] -> exists i, y = encoding_of i /\ ber_info max_budget i /\ given_to t na (Some i) /\ elem (fst t) (snd t) i (snd na).
Proof.
  intros (E & [(Y & _)|(i & B & Y & H)]) N; [contradiction|]. exists i. split; auto. split; auto. split; auto. split; auto.
Qed.

Lemma next_elem ts : forall l ys i r, all3 stf ts l ys -> ber_info max_budget i -> concat ys = encoding_of i ++ r ->
  exists g a, In g (reacht ts) /\ elem (fst g) (snd g) i a.
Proof.
  induction ts as [|t ts IH]; intros [|na l] [|y ys] i r; cbn [all3]; try tauto.
  - intros _ B E. cbn in E. apply encoding_pos in B. destruct (encoding_of i); discriminate.
  - intros [H1 H2] B E. cbn in E. destruct y as [|b y].
    + destruct (stf_empty _ _ H1) as (N & _). destruct (IH l ys i r H2 B E) as (g & a & Hg & K). exists g, a. split; auto. cbn [reacht]. rewrite N. now right.
    + destruct (stf_full _ _ _ H1) as (j & Ej & Bj & _ & K); [discriminate|]. rewrite Ej in E.
      destruct (same_info j i (concat ys) r Bj B E) as [<- _]. exists t, (snd na). split; auto. cbn [reacht]. destruct (greqb (fst t)); now left.
Qed.

Definition octets (x : option info) : bytes := match x with Some i => encoding_of i | None => [] end.
Lemma absent_ok ts : forall l ys, all3 stf ts l ys -> concat ys = [] ->
  exists xs, absent (map fst ts) = Ok xs /\ all3 given_to ts l xs /\ ys = map octets xs.
Proof.
  induction ts as [|t ts IH]; intros [|na l] [|y ys]; cbn [all3]; try tauto.
  - intros _ _. exists []. cbn. auto.
  - intros [H1 H2] E. cbn in E. apply app_eq_nil in E as [-> E]. destruct (stf_empty _ _ H1) as (N & G). destruct (IH l ys H2 E) as (xs & Ex & K & ->).
    exists (None :: xs). cbn [map absent]. unfold greqb in N. destruct (g_pres (fst t)); [discriminate| |]; rewrite Ex; cbn; auto.
Qed.
Lemma first_elem ts : forall l ys, all3 stf ts l ys -> concat ys <> [] -> exists i r, ber_info max_budget i /\ concat ys = encoding_of i ++ r.
Proof.
  induction ts as [|t ts IH]; intros [|na l] [|y ys]; cbn [all3]; try tauto.
  intros [H1 H2] N. destruct y as [|b y]; [now apply (IH l ys H2)|]. destruct (stf_full _ _ _ H1) as (j & Ej & Bj & _); [discriminate|].
  exists j, (concat ys). split; auto. cbn [concat]. now rewrite Ej.
Qed.

Lemma assign_ok ts : distinct_t ts -> forall l ys, all3 stf ts l ys ->
  (forall m pre i r, ber_info max_budget i -> concat ys = encoding_of i ++ r -> (length ts + 2 * length r + 1 <= m)%nat ->
     exists xs, assign env m (pre ++ concat ys) (map fst ts) (Some i) (len pre + len (encoding_of i)) = Ok xs /\ all3 given_to ts l xs /\ ys = map octets xs) /\
  (forall m pre, (2 * length (concat ys) + length ts + 1 <= m)%nat ->
     exists xs, assign env m (pre ++ concat ys) (map fst ts) None (len pre) = Ok xs /\ all3 given_to ts l xs /\ ys = map octets xs).
Proof.
  induction ts as [|t ts IH]; intros Ds [|na l] [|y ys]; cbn [all3]; try tauto.
  - intros _. split.
    + intros m pre i r B E. cbn in E. apply encoding_pos in B. destruct (encoding_of i); discriminate.
    + intros [|m] pre L; cbn in L; [lia|]. cbn [assign concat map absent]. rewrite app_nil_r, Z.ltb_irrefl. exists []. cbn. auto.
  - intros [H1 H2]. cbn [distinct_t] in Ds. destruct Ds as [D1 D2]. destruct (IH D2 l ys H2) as [B0 A0].
    assert (PB : forall m pre i r, ber_info max_budget i -> concat (y :: ys) = encoding_of i ++ r -> (length (t :: ts) + 2 * length r + 1 <= m)%nat ->
       exists xs, assign env m (pre ++ concat (y :: ys)) (map fst (t :: ts)) (Some i) (len pre + len (encoding_of i)) = Ok xs /\ all3 given_to (t :: ts) (na :: l) xs /\ y :: ys = map octets xs).
    { intros [|m] pre i r B E L; cbn [length] in L; [lia|]. cbn [assign map]. cbn [concat] in E |- *.
      destruct y as [|b y].
      - cbn [app] in E |- *. destruct (stf_empty _ _ H1) as (N & G). destruct (next_elem ts l ys i r H2 B E) as (g & a & Hg & K).
        rewrite (proj2 (D1 N) g i a Hg B K). destruct (B0 m pre i r B E) as (xs & Es & R2 & Ey); [lia|]. rewrite Es. cbn [bind]. exists (None :: xs). cbn. rewrite <- Ey. auto.
      - destruct (stf_full _ _ _ H1) as (j & Ej & Bj & G & K); [discriminate|]. rewrite Ej in E |- *.
        destruct (same_info j i (concat ys) r Bj B E) as [-> Er].
        assert (Tf : takes (fst t) i = true).
        { destruct (greqb (fst t)) eqn:X; [unfold greqb in X; unfold ReadModel.takes; destruct (g_pres (fst t)); auto; discriminate|].
          exact (proj1 (D1 eq_refl) i _ B K). }
        rewrite Tf. destruct (A0 m (pre ++ encoding_of i)) as (xs & Es & R2 & Ey); [rewrite Er; lia|].
        rewrite app_assoc. rewrite len_app in Es. rewrite Es. cbn [bind]. exists (Some i :: xs). cbn [all3 map octets]. rewrite <- Ey. auto. }
    split; [exact PB|].
    intros [|m] pre L; cbn [length] in L; [lia|]. cbn [assign].
    destruct (list_eq_dec Z.eq_dec (concat (y :: ys)) []) as [E|E].
    + rewrite E, app_nil_r, Z.ltb_irrefl. apply (absent_ok (t :: ts) (na :: l) (y :: ys)); cbn [all3]; auto.
    + destruct (first_elem (t :: ts) (na :: l) (y :: ys)) as (i & r & B & Ei); cbn [all3]; auto.
      assert (Lp : len pre <? len (pre ++ concat (y :: ys)) = true).
      { rewrite len_app. destruct (concat (y :: ys)); [contradiction|]. unfold len; cbn [length]. lia. }
      rewrite Lp. pose proof (parse_complete i pre r B) as Pc. rewrite <- Ei in Pc. rewrite Pc. cbn [bind].
      apply (PB m pre i r B Ei). pose proof (encoding_pos i B) as Lb. rewrite Ei in L. rewrite app_length in L. unfold len in Lb. cbn [length]. lia.
Qed.

(* ---- reading the elements ---- *)
Variable rd : ref -> params -> option ref -> info -> res aval.
Hypothesis Rd : forall r p ins i a, params_fine r p -> ber_info max_budget i -> st r p ins i a -> exists a', rd r p ins i = Ok a' /\ alike a a'.

Definition fine_t (t : tfield) : Prop := pick_okb (fst t) (snd t) = true /\ match g_pres (fst t) with GDef d => steadyb d = true | _ => True end.

Lemma elem_ok f pk i a : pick_okb f pk = true -> ber_info max_budget i -> elem f pk i a -> exists a', field_read pad rd f pk i = Ok a' /\ alike a a'.
Proof.
  unfold pick_okb, element_of, field_read. intros K B H. destruct pk as [|r|r]; destruct (g_class f) as [r'|]; try contradiction;
    apply params_fineb_sound in K; eapply Rd; eauto.
Qed.
Lemma child_ok t na x : fine_t t -> given_to t na x -> exists a', field_native pad rd (fst t) (snd t) x = Ok a' /\ alike (snd na) a'.
Proof.
  intros (F1 & F2) (_ & G). destruct x as [i|]; cbn [field_native].
  - destruct G as (B & G). now apply elem_ok.
  - destruct (g_pres (fst t)); [contradiction| |].
    + rewrite G. exists ANone. cbn. auto.
    + rewrite G. exists x. split; auto. now apply steady_alike.
Qed.

Definition same_dict (l m : list (text * aval)) : Prop := all2 (fun x y => fst x = fst y /\ alike (snd x) (snd y)) l m.
Definition typed_opt (o : option nat) (pk : pick) (fs : list rfield) : list tfield :=
  match o with Some m => typed m pk fs | None => map (fun g => (g, Keep)) fs end.
Lemma natives_ok fs : forall o pk pos l xs, Forall fine_t (typed_opt o pk fs) -> all3 given_to (typed_opt o pk fs) l xs ->
  exists l', natives pad rd fs o pk pos xs = Ok l' /\ same_dict l l'.
Proof.
  induction fs as [|f fs IH]; intros o pk pos l xs.
  - assert (typed_opt o pk [] = []) as -> by (destruct o as [[]|]; reflexivity). destruct l, xs; cbn [all3]; try tauto. intros _ _. exists []. cbn. auto.
  - assert (typed_opt o pk (f :: fs) = (f, match o with Some O => pk | _ => Keep end) :: typed_opt (match o with Some (S m) => Some m | _ => None end) pk fs) as ->
      by (destruct o as [[|m]|]; reflexivity).
    destruct l as [|na l], xs as [|x xs]; cbn [all3]; try tauto. intros F [H1 H2]. inversion F as [|? ? F1 F2]; subst.
    cbn [natives]. destruct (child_ok _ _ _ F1 H1) as (a' & E & A). cbn [fst snd] in E. rewrite E. cbn [bind].
    destruct (IH _ pk (pos + 1) l xs F2 H2) as (l' & E' & A'). rewrite E'. cbn [bind]. exists ((g_name f, a') :: l'). split; auto.
    cbn. destruct H1 as (E1 & _). cbn [fst] in E1. auto.
Qed.

Lemma natives_absent fs : forall m pk pos xs, match nth_error xs m with Some (Some _) => False | _ => True end ->
  natives pad rd fs (Some m) Keep pos xs = natives pad rd fs (Some m) pk pos xs.
Proof.
  induction fs as [|f fs IH]; intros m pk pos xs H.
  - assert (G : forall o o' pk pk' xs pos, natives pad rd [] o pk pos xs = natives pad rd [] o' pk' pos xs).
    { clear. intros o o' pk pk' xs pos. destruct xs as [|[i|] xs]; cbn [natives]; auto. destruct (gen_native i); cbn [bind]; auto.
      assert (E : forall xs pos, natives pad rd [] None pk pos xs = natives pad rd [] None pk' pos xs).
      { clear. induction xs as [|[i|] xs IH]; intros pos; cbn [natives]; auto. destruct (gen_native i); cbn [bind]; auto. now rewrite IH. }
      now rewrite E. }
    apply G.
  - destruct xs as [|x xs]; [reflexivity|]. destruct m as [|m]; cbn [nth_error] in H; cbn [natives].
    + destruct x; [contradiction|]. cbn [field_native]. destruct (match g_pres f with GReq => Err ValueError | GOpt => Ok ANone | GDef d => Ok d end); cbn [bind]; auto.
      assert (E : forall fs xs pos, natives pad rd fs None Keep pos xs = natives pad rd fs None pk pos xs).
      { clear. intros fs xs. revert fs. induction xs as [|x xs IH]; intros [|f fs] pos; cbn [natives]; auto.
        - destruct x; auto. destruct (gen_native i); cbn [bind]; auto. now rewrite IH.
        - destruct (field_native pad rd f Keep x); cbn [bind]; auto. now rewrite IH. }
      now rewrite E.
    + destruct (field_native pad rd f Keep x); cbn [bind]; auto. rewrite (IH m pk (pos + 1) xs H). reflexivity.
Qed.

Lemma key_at q fs : forall m pk l xs base k x, all3 given_to (typed m pk fs) l xs -> index_of (fun f => eqb_text (g_name f) q) fs base = Some k ->
  (k - base < m)%nat -> dict_get l q = Some x ->
  exists f z na, nth_error fs (k - base) = Some f /\ nth_error xs (k - base) = Some z /\ given_to (f, Keep) na z /\ snd na = x /\ In (f, Keep) (typed m pk fs) /\ (base <= k)%nat.
Proof.
  induction fs as [|f fs IH]; intros m pk l xs base k x H I L D; [discriminate|]. cbn [index_of] in I.
  destruct m as [|m]; [lia|]. cbn [typed] in H |- *. destruct l as [|[n0 a] l], xs as [|z xs]; cbn [all3] in H; try tauto. destruct H as [H1 H2].
  cbn [dict_get] in D. pose proof H1 as (E1 & _). cbn [fst] in E1. subst n0. destruct (eqb_text (g_name f) q).
  - injection I as <-. injection D as <-. rewrite Nat.sub_diag. exists f, z, (g_name f, a). cbn. repeat split; auto; apply H1.
  - destruct (le_lt_dec k base) as [Hk|Hk].
    + exfalso. clear - I Hk. assert (G : forall fs b, index_of (fun f => eqb_text (g_name f) q) fs b = Some k -> (b <= k)%nat).
      { induction fs0 as [|g fs0 IH]; intros b E; cbn in E; [discriminate|]. destruct (eqb_text (g_name g) q); [injection E as <-; auto|]. apply IH in E. lia. }
      apply G in I. lia.
    + destruct (IH m pk l xs (S base) k x H2 I ltac:(lia) D) as (g & z' & na & A1 & A2 & A3 & A4 & A5 & A6).
      exists g, z', na. replace (k - base)%nat with (S (k - S base)) by lia. cbn. repeat split; auto; try apply A3; lia.
Qed.

Lemma dict_alike q : forall l m x, same_dict l m -> dict_get l q = Some x -> exists y, dict_get m q = Some y /\ alike x y.
Proof.
  unfold same_dict. induction l as [|[n0 a] l IH]; intros [|[n1 b] m] x; cbn [all2]; try tauto; [discriminate|]. intros [[E A] H] D. cbn in E, A. subst n1.
  cbn [dict_get] in D |- *. destruct (eqb_text n0 q); [injection D as <-; eauto|eauto].
Qed.
Lemma follow_ok path : forall x y a, alike x y -> leads x path a -> exists b, follow y path = Ok b /\ alike a b.
Proof.
  induction path as [|q path IH]; intros x y a A L; cbn [leads follow] in *.
  - subst. eauto.
  - destruct x as [| |l| | |]; try contradiction. destruct y as [| |m| | |]; try contradiction. destruct L as (z & D & L).
    cbn [alike] in A. destruct (dict_alike q l m z A D) as (w & D' & A'). rewrite D'. eauto.
Qed.
Lemma table_in l : forall t pk, NoDup (map fst l) -> In (t, pk) l -> table_get l t = Some pk.
Proof.
  induction l as [|[n0 x] l IH]; intros t pk N H; cbn in *; [contradiction|]. inversion N as [|? ? N1 N2]; subst.
  destruct (eqb_text n0 t) eqn:E.
  - apply eqb_text_iff in E. subst n0. destruct H as [H|H]; [congruence|]. exfalso. apply N1. apply in_map_iff. exists (t, pk). auto.
  - destruct H as [H|H]; [|auto]. injection H as -> ->. assert (eqb_text t t = true) by (now apply eqb_text_iff). congruence.
Qed.
Lemma table_none l : forall t, ~ (exists x, In (t, x) l) -> table_get l t = None.
Proof.
  induction l as [|[n0 x] l IH]; intros t N; cbn; auto. destruct (eqb_text n0 t) eqn:E.
  - apply eqb_text_iff in E. subst n0. exfalso. apply N. exists x. now left.
  - apply IH. intros (y & H). apply N. exists y. now right.
Qed.
Lemma picked_ok s a b pk : NoDup (map fst (s_table s)) -> alike a b -> names_type s a pk -> picked s b = Ok pk.
Proof.
  intros N A H. assert (G : (forall t, b <> APrim (NText t)) -> s_else s = Some pk -> picked s b = Ok pk).
  { intros G E. unfold picked. rewrite E. destruct b as [|[]| | | |]; auto. now destruct (G s0). }
  unfold names_type in H. destruct a as [|v|l|l|n0 a|p a]; try contradiction; try (apply G; auto; intros t ->; contradiction).
  destruct v; try (apply G; auto; intros t ->; destruct A as (k & A); discriminate A).
  apply alike_text in A. subst b. unfold picked. destruct H as [H|(Nx & H)].
  - now rewrite (table_in _ _ _ N H).
  - rewrite (table_none _ _ Nx). now rewrite H.
Qed.

Lemma typed_fits fs : forall o pk pks, (o <> None -> In pk pks) -> all2 fits_in (typed_opt o pk fs) (wide o pks fs).
Proof.
  induction fs as [|f fs IH]; intros o pk pks H; [destruct o as [[]|]; exact Logic.I|].
  assert (typed_opt o pk (f :: fs) = (f, match o with Some O => pk | _ => Keep end) :: typed_opt (match o with Some (S m) => Some m | _ => None end) pk fs) as ->
      by (destruct o as [[|m]|]; reflexivity).
  cbn [wide all2]. split.
  - split; auto. cbn [fst snd]. destruct o as [[|m]|]; [apply H; discriminate|now left|now left].
  - apply IH. intros N. apply H. destruct o; [discriminate|]. congruence.
Qed.
Lemma typed_fields o pk fs : map fst (typed_opt o pk fs) = fs.
Proof.
  assert (G : map fst (map (fun g : rfield => (g, Keep)) fs) = fs) by (rewrite map_map; apply map_id).
  destruct o as [m|]; cbn [typed_opt]; [|exact G]. clear G. revert m. induction fs as [|f fs IH]; intros [|m]; cbn; auto.
  - f_equal. rewrite map_map. apply map_id.
  - now rewrite IH.
Qed.
Lemma fits_fine ts : forall ws, forallb field_okb ws = true -> all2 fits_in ts ws -> Forall fine_t ts.
Proof.
  induction ts as [|t ts IH]; intros [|w ws]; cbn [all2 forallb]; try tauto; [constructor|]. rewrite andb_true_iff. intros [F1 F2] [(E & I) H].
  constructor; [|eauto]. unfold field_okb in F1. rewrite <- E in F1. apply andb_true_iff in F1 as [P D]. rewrite forallb_forall in P. split; auto.
  destruct (g_pres (fst t)); auto.
Qed.

(* the elements of the fields and the class that is chosen *)
Lemma chosen_ok k fs sel l ts ys : class_okb k = true -> r_def k = DSeq fs sel -> field_types sel fs l ts -> all3 stf ts l ys ->
  exists xs pk pk', assign env (S (2 * length (concat ys) + length fs)) (concat ys) fs None 0 = Ok xs /\ ys = map octets xs /\
    ts = typed_opt (option_map s_field sel) pk fs /\ Forall fine_t ts /\ all3 given_to ts l xs /\
    chosen_pick pad rd fs sel xs = Ok pk' /\
    (pk' = pk \/ (pk' = Keep /\ match sel with Some s => match nth_error xs (s_field s) with Some (Some _) => False | _ => True end | None => True end)).
Proof.
  intros K D T H. apply class_ok_parts in K as (_ & _ & K). unfold def_okb in K. rewrite D in K.
  apply andb_true_iff in K as [K Ks]. apply andb_true_iff in K as [Kf Kd].
  assert (exists pk, ts = typed_opt (option_map s_field sel) pk fs /\ all2 fits_in ts (widened fs sel) /\
     match sel with Some s => exists b, leads (ADict l) (s_key s) b /\ names_type s b pk | None => True end) as (pk & Et & F & Sel).
  { unfold field_types in T. unfold widened. destruct sel as [s|]; cbn [option_map].
    - destruct T as (b & pk & L & N & ->). exists pk. split; auto. split; [|eauto].
      apply (typed_fits fs (Some (s_field s)) pk (picks s)). intros _. unfold names_type in N. unfold picks. apply in_app_iff.
      assert (G : s_else s = Some pk -> In pk (map snd (s_table s)) \/ In pk match s_else s with Some x => [x] | None => [] end) by (intros ->; right; now left).
      destruct b as [|[]| | | |]; auto. destruct N as [N|(_ & N)]; auto. left. apply in_map_iff. eexists. split; [|exact N]. reflexivity.
    - exists Keep. split; auto. split; auto. subst ts. apply (typed_fits fs None Keep []). congruence. }
  pose proof (distinct_fits _ Kf Kd _ F) as Dt. pose proof (fits_fine _ _ Kf F) as Ft.
  assert (Ln : length ts = length fs) by (rewrite <- (typed_fields (option_map s_field sel) pk fs), map_length, <- Et; reflexivity).
  destruct (assign_ok ts Dt l ys H) as [_ A0]. specialize (A0 (S (2 * length (concat ys) + length fs)) [] ltac:(rewrite Nat.add_1_r; apply le_n_S; apply Nat.add_le_mono_l; rewrite <- Ln; apply le_n)). destruct A0 as (xs & Ex & G & Ey).
  cbn [app] in Ex. change (len (@nil Z)) with 0 in Ex. assert (Ef : map fst ts = fs) by (now rewrite Et, typed_fields). rewrite Ef in Ex.
  exists xs, pk. destruct sel as [s|]; cbn [option_map] in *; [|exists Keep; repeat (split; auto)].
  assert (P : (exists i, nth_error xs (s_field s) = Some (Some i)) \/ match nth_error xs (s_field s) with Some (Some _) => False | _ => True end)
    by (destruct (nth_error xs (s_field s)) as [[i|]|]; eauto).
  destruct P as [(i & Ei)|P].
  - exists pk. do 5 (split; auto). split; [|auto]. unfold chosen_pick. rewrite Ei. destruct Sel as (b & L & N). unfold sel_okb in Ks. apply andb_true_iff in Ks as [Kn Ki].
    unfold key_native. destruct (s_key s) as [|q path]; [discriminate|]. destruct (index_of (fun f => eqb_text (g_name f) q) fs 0) as [m|] eqn:Im; [|discriminate].
    rewrite Ki. apply Nat.ltb_lt in Ki. cbn [leads] in L. destruct L as (z & Dz & L). rewrite Et in G, Ft.
    destruct (key_at q fs (s_field s) pk l xs 0 m z G Im ltac:(lia) Dz) as (f & w & na & N1 & N2 & N3 & N4 & N5 & _).
    rewrite Nat.sub_0_r in N1, N2. rewrite N1, N2. rewrite Forall_forall in Ft. destruct (child_ok _ _ _ (Ft _ N5) N3) as (a' & Ea & Aa). cbn [fst snd] in Ea.
    rewrite Ea. cbn [bind]. rewrite N4 in Aa. destruct (follow_ok path z a' b Aa L) as (b' & Eb & Ab). rewrite Eb. cbn [bind].
    apply (picked_ok s b); auto. exact (nodupb_sound _ eqb_text_iff _ Kn).
  - exists Keep. do 5 (split; auto). split; [|auto]. unfold chosen_pick. destruct (nth_error xs (s_field s)) as [[i|]|]; auto; contradiction.
Qed.

Lemma seq_ok k fs sel a x : class_okb k = true -> r_def k = DSeq fs sel -> fields_stand st fs sel a x ->
  exists a', seq_native env pad rd fs sel x = Ok a' /\ alike a a'.
Proof.
  intros K D (l & ts & ys & -> & -> & T & H).
  destruct (chosen_ok k fs sel l ts ys K D T H) as (xs & pk & pk' & Ex & _ & -> & Ft & G & Ep & Or).
  unfold seq_native. rewrite Ex. cbn [bind]. destruct (natives_ok fs _ pk 0 l xs Ft G) as (l' & El & A). rewrite Ep. cbn [bind].
  assert (Er : natives pad rd fs (option_map s_field sel) pk' 0 xs = Ok l').
  { destruct Or as [->|(-> & P)]; auto. destruct sel as [s|]; cbn [option_map] in *.
    - rewrite (natives_absent fs (s_field s) pk 0 xs P). exact El.
    - rewrite <- El. clear. generalize 0. revert xs. induction fs as [|f fs IH]; intros xs pos.
      + revert pos. induction xs as [|[i|] xs IHx]; intros pos; cbn [natives]; auto. destruct (gen_native i); cbn [bind]; auto. now rewrite IHx.
      + destruct xs as [|x xs]; cbn [natives]; auto. destruct (field_native pad rd f Keep x); cbn [bind]; auto. now rewrite IH. }
  rewrite Er. cbn [bind]. exists (ADict l'). split; auto.
Qed.

Lemma loop_of f (P : aval -> info -> Prop) : (forall a i, ber_info max_budget i -> P a i -> exists a', f i = Ok a' /\ alike a a') ->
  forall l ys, all2 (fun a y => one_of (P a) y) l ys -> forall m pre, (length (concat ys) < m)%nat ->
  exists l', kids_loop f m (pre ++ concat ys) (len pre) = Ok l' /\ all2 alike l l'.
Proof.
  intros F. induction l as [|a l IH]; intros [|y ys]; cbn [all2]; try tauto.
  - intros _ [|m] pre L; cbn in L; [lia|]. cbn [kids_loop concat]. rewrite app_nil_r, Z.ltb_irrefl. exists []. cbn. auto.
  - intros [(i & B & -> & H) H2] [|m] pre L; [lia|]. cbn [kids_loop concat]. pose proof (encoding_pos i B) as Lb.
    cbn [concat] in L. rewrite app_length in L. unfold len in Lb.
    assert (Lp : len pre <? len (pre ++ encoding_of i ++ concat ys) = true) by (rewrite !len_app; unfold len; lia).
    rewrite Lp. rewrite (parse_complete i pre (concat ys) B). cbn [bind]. destruct (F a i B H) as (a' & E & A). rewrite E. cbn [bind].
    destruct (IH ys H2 m (pre ++ encoding_of i)) as (l' & E' & A'); [lia|]. rewrite len_app, <- app_assoc in E'. rewrite E'. cbn [bind]. exists (a' :: l'). cbn. auto.
Qed.

Lemma of_ok item a x : items_stand pad st item a x -> exists a', of_native pad rd item x = Ok a' /\ alike a a'.
Proof.
  intros (l & ys & -> & -> & H). unfold of_native.
  set (P := fun (b : aval) (i : info) => match item with Some r => st r no_params None i b | None => exists u, uber pad u i /\ b = open_value u end).
  assert (F : forall a i, ber_info max_budget i -> P a i ->
    exists a', match item with Some r => rd r no_params None i | None => gen_native i end = Ok a' /\ alike a a').
  { intros a i B Q. unfold P in Q. destruct item as [r|].
    - apply (Rd r no_params None i a); auto. split; [|reflexivity]. split; [reflexivity|]. split; [constructor|]. cbn. auto.
    - destruct Q as (u & Q & ->). now apply gen_ok. }
  destruct (loop_of _ P F l ys H (S (length (concat ys))) [] ltac:(apply Nat.lt_succ_diag_r)) as (l' & E & A).
  cbn [app] in E. change (len (@nil Z)) with 0 in E. rewrite E. cbn [bind]. exists (AList l'). auto.
Qed.

Lemma alt_found alts : forall base m f x, NoDup (somes (map field_id alts)) -> nth_error alts m = Some f -> field_id f = Some x ->
  alt_at alts base (fst x) (snd x) = Some (base + m)%nat.
Proof.
  induction alts as [|g alts IH]; intros base m f x N Hm Fx; [destruct m; discriminate|]. cbn [ReadModel.alt_at].
  destruct m as [|m]; cbn [nth_error] in Hm.
  - injection Hm as ->. cbn [map somes] in N. rewrite Fx in N. inversion N as [|? ? N1 N2]; subst.
    destruct (alt_at alts (S base) (fst x) (snd x)) as [k|] eqn:E.
    + exfalso. apply N1. destruct x as [c t]. apply (alt_at_some alts (S base)). cbn [fst snd] in E. congruence.
    + rewrite Fx. destruct x as [c t]. cbn [fst snd same_id]. rewrite !Z.eqb_refl. cbn. f_equal. lia.
  - assert (N' : NoDup (somes (map field_id alts))) by (cbn [map somes] in N; destruct (field_id g); [inversion N|]; auto).
    rewrite (IH (S base) m f x N' Hm Fx). f_equal. lia.
Qed.

Lemma choice_ok k alts fx p a i : class_okb k = true -> r_def k = DChoice alts fx -> params_ok p -> p_implicit p = None -> ber_info max_budget i ->
  within (rev (t_explicit (tags_of (r_cls k) p))) (alternative_stands st alts fx a) i ->
  exists a', choice_native env pad rd (r_cls k) alts fx p i = Ok a' /\ alike a a'.
Proof.
  intros K D Hp Ni B H. pose proof (class_ok_parts k K) as (_ & Kx & _).
  destruct (stripped_ok (r_cls k) p _ i Hp Kx B H) as (j & t & hd & tl & E & Bj & (Tr & m & f & Hm & Nf & Q) & _).
  destruct (alts_fine k alts fx f K D (nth_error_In _ _ Hm)) as (r' & x & G & Pf & Fi & N).
  unfold choice_native. rewrite Ni. cbn [bind]. rewrite E. cbn [bind].
  assert (Q' := Q). unfold element_of in Q. rewrite G in Q.
  assert (Ij : (i_class j, i_tag j) = x). { eapply stands_id; eauto. rewrite <- (field_ref f r' G). exact Fi. }
  pose proof (alt_found alts 0 m f x N Hm Fi) as Ea. rewrite <- Ij in Ea. cbn [fst snd] in Ea. rewrite Ea. cbn [Nat.add].
  assert (R : recheck pad fx m (i_contents j) = Ok m).
  { unfold recheck. destruct fx as [q|]; auto. destruct (Nat.eqb q m) eqn:Eq; auto. apply Nat.eqb_eq in Eq. congruence. }
  rewrite R. cbn [bind]. rewrite Hm.
  assert (Ed : i_header j ++ i_contents j = encoding_of j) by (unfold encoding_of; now rewrite Tr, app_nil_r).
  rewrite Ed. pose proof (parse__0_complete j [] Bj) as P. rewrite app_nil_r in P. rewrite P. cbn [bind].
  apply elem_ok; auto. unfold pick_okb. rewrite G.
  apply class_ok_parts in K as (_ & _ & K). unfold def_okb in K. rewrite D in K. apply andb_true_iff in K as [K _]. rewrite forallb_forall in K.
  specialize (K f (nth_error_In _ _ Hm)). unfold alt_okb in K. rewrite G in K. now apply andb_true_iff in K as [K _].
Qed.
End Level.

Theorem read_ok : forall n m r p ins i a, (n <= m)%nat -> params_fine r p -> ber_info max_budget i -> stands n r p ins i a ->
  exists a', read m r p ins i = Ok a' /\ alike a a'.
Proof.
  induction n as [|n IH]; intros m r p ins i a L Hp B H; [contradiction|]. destruct m as [|m]; [lia|]. apply le_S_n in L.
  cbn [ReadSpec.stands] in H. cbn [ReadModel.read]. pose proof Hp as (Hp1 & Hp2). unfold is_open, def_of in Hp2.
  destruct (env r) as [k|] eqn:Ek; [|contradiction]. destruct (Ok_env r k Ek) as (Kok & Ro). destruct (class_ok_parts k Kok) as (Hc & Kx & Kd).
  destruct H as (b & Eo & H). cbn [option_map] in Hp2.
  assert (Rd : forall r p ins i a, params_fine r p -> ber_info max_budget i -> stands n r p ins i a -> exists a', read m r p ins i = Ok a' /\ alike a a') by (intros; eapply IH; eauto).
  match goal with |- exists a', bind ?x _ = _ /\ _ => assert (X : exists b', x = Ok b' /\ alike b b') end.
  - destruct (r_def k) as [kd| |bits|fs sel|item|alts fx] eqn:D; destruct ins as [r'|]; try contradiction.
    + destruct H as (v & H & ->). apply prim_ok; auto. unfold def_okb in Kd. now rewrite D in Kd.
    + apply within_open in H as (u & H & ->). now apply any_ok.
    + destruct H as (j & Bj & Hj & H). rewrite (octets_ok bits _ p _ i Kx Hp1 B H). cbn [bind].
      pose proof (parse__0_complete j [] Bj) as P. rewrite app_nil_r in P. rewrite P. cbn [bind]. apply Rd; auto.
      split; [|reflexivity]. split; [reflexivity|]. split; [constructor|]. cbn. auto.
    + destruct H as (x & H & ->). rewrite (octets_ok bits _ p _ i Kx Hp1 B H). cbn [bind]. eexists. split; [reflexivity|]. cbn. exists KBool. reflexivity.
    + destruct (opened_ok _ p _ i Hp1 Kx B H) as (x & E & H'). rewrite E. cbn [bind]. eapply seq_ok; eauto.
    + destruct (opened_ok _ p _ i Hp1 Kx B H) as (x & E & H'). rewrite E. cbn [bind]. eapply of_ok; eauto.
    + eapply choice_ok; eauto.
  - destruct X as (b' & -> & A). cbn [bind]. now apply (Ro b b').
Qed.

(* cls.load(data).native *)
Theorem read_from_ok n m r i a strict rest : (n <= m)%nat -> ber_info max_budget i -> stands n r no_params None i a -> (strict = true -> rest = []) ->
  exists a', read_from env pad m r (encoding_of i ++ rest) strict = Ok a' /\ alike a a'.
Proof.
  intros L B H S. unfold read_from. rewrite (parse__0_complete i rest B). cbn [bind].
  assert (E : strict && negb (len (encoding_of i) =? len (encoding_of i ++ rest)) = false).
  { destruct strict; auto. rewrite (S eq_refl), app_nil_r, Z.eqb_refl. reflexivity. }
  rewrite E. eapply read_ok; eauto. split; [|reflexivity]. split; [reflexivity|]. split; [constructor|]. cbn. auto.
Qed.
End Env.
