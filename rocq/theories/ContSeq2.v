(* The methods of a Sequence meet the contract of ContRep if those of its fields do:
   natives, construction, loading, copies. *)
Require Import Verif.Base Verif.BaseFacts Verif.IntModel Verif.IntSpec Verif.IntProofs
  Verif.ParserModel Verif.ParserSpec Verif.ParserProofs Verif.ParserFacts Verif.Text Verif.CodecModel Verif.TagSpec Verif.TagProofs
  Verif.PrimModel Verif.PrimSpec Verif.PrimProofs Verif.PrimSet Verif.PrimDump Verif.PrimLoad Verif.HistSpec Verif.PrimHist
  Verif.PrimRead Verif.PrimSide Verif.ContModel Verif.ContSpec Verif.ContBase Verif.ContRep Verif.ContPrim Verif.ContSeq.
Require Import Sorting.Permutation Sorting.Sorted.

Lemma nth_error_cons_inv {A} (x : A) l i y : nth_error (x :: l) i = Some y -> (i = 0%nat /\ y = x) \/ exists j, i = S j /\ nth_error l j = Some y.
Proof. destruct i; cbn; [intros H; injection H; auto|eauto]. Qed.
Lemma update_mid {A} (l r : list A) x y : update (l ++ x :: r) (length l) y = l ++ y :: r.
Proof. induction l; cbn; congruence. Qed.

Lemma make_default2 s p d x : x <> ANone -> is_choice s = false -> x_make (methods s) p d x = x_make (methods s) p None x.
Proof. intros N H. destruct s; try discriminate; cbn; destruct x; try contradiction; reflexivity. Qed.
Lemma x_choice_is s : x_choice (methods s) = is_choice s.
Proof. destruct s; reflexivity. Qed.

Lemma fix_tagging_ok s p p' a v : wf s -> contract s -> taggable s p -> taggable s p' -> fits s a ->
  rep Own true s (stags s p') a v -> has_dict v = false ->
  exists v' a', fix_tagging (methods s) p v = Ok v' /\ sim s a a' /\ rep Own true s (stags s p) a' v' /\ has_dict v' = false.
Proof.
  intros W C T T' F R Hd. unfold fix_tagging. rewrite (rep_tagging _ _ _ _ _ _ R).
  destruct (_ || _) eqn:E.
  - rewrite (fix_params p) by apply T.
    destruct (K_retag s C p Own true (stags s p') a v eq_refl T (stags_ok _ _ W T') F R) as (v' & a' & Ev & S1 & R' & Hd'). rewrite Hd in *.
    exists v', a'. auto.
  - apply orb_false_iff in E as [E1 E2]. exists v, a. split; auto.
    assert (Ea : sim s a a).
    { destruct F as (t & d & Ht & Dd). eapply sim_refl. eapply der_encodes; eauto. }
    split; auto. split; auto. replace (stags s p) with (stags s p'); auto.
    destruct T as (Hp & Hi & _), T' as (Hp' & Hi' & _).
    destruct (params_shape p Hp) as [(c0 & t0 & -> & _)|[(x & -> & _)| ->]]; cbn [p_explicit p_implicit no_params] in *; try discriminate E2.
    + destruct (params_shape p' Hp') as [(c1 & t1 & -> & _)|[(x & -> & _)| ->]]; cbn [p_explicit p_implicit no_params] in *;
        destruct Hi as [Hi|[Hi Hc]]; try discriminate; destruct s; try discriminate; cbn in *; unfold tags_of in *; cbn in *; try discriminate;
        rewrite ?Hi in *; try discriminate.
      all: assert (c1 = c0) by lia; assert (t1 = t0) by lia; subst; reflexivity.
    + destruct (params_shape p' Hp') as [(c1 & t1 & -> & _)|[(x & -> & _)| ->]]; auto; cbn [p_explicit p_implicit no_params] in *.
      * destruct Hi' as [Hi'|[Hi' Hc]]; try discriminate; destruct s; try discriminate; cbn in *; discriminate.
      * exfalso. destruct s; cbn in E2; unfold tags_of in E2; cbn in E2;
          match type of E2 with context [match ?l ++ [x] with _ => _ end] => destruct l; discriminate E2 end.
Qed.

Lemma peel_constructed t x i : tagging_ok t -> der_constructed t x (encoding_of i) -> ber_info max_budget i ->
  i_trailer i = [] /\ exists j, peel (rev (t_explicit t)) i (i_header i) [] = Ok (j, full_header t 1 x, []) /\
    i_class j = t_class t /\ i_method j = 1 /\ i_tag j = t_tag t /\ i_contents j = x /\ i_trailer j = [].
Proof.
  intros Ht D B. pose proof (der_constructed_bytes t x _ Ht D) as [Eb _]. destruct D as (inner & D1 & D2).
  destruct (tlv_info _ _ _ _ _ D1) as (h & Bj & Ej). rewrite <- Ej in D2.
  destruct (peel_wrapped _ _ _ [] [] Bj eq_refl D2) as (i' & hd & Bi & Ti & Ei & P & Eh).
  assert (i' = i) by (apply same_info0; auto). subst i'. split; auto. eexists. cbn [app] in P. cbn [i_contents] in Eh.
  assert (hd = full_header t 1 x) by (rewrite <- Eh in Eb; unfold cbytes in Eb; now apply app_inv_tail in Eb). subst hd.
  split; [exact P|]. cbn. auto.
Qed.

(* what _build sees of a constructed encoding *)
Lemma build_cases c p x i : params_ok p -> (p_implicit p = None \/ k_explicit c = []) -> tagging_ok (tags_of c p) ->
  der_constructed (tags_of c p) x (encoding_of i) -> ber_info max_budget i ->
  i_trailer i = [] /\
  ((has_explicit c p = false /\ t_explicit (tags_of c p) = [] /\ p_explicit p = [] /\ i_class i = t_class (tags_of c p) /\ i_method i = 1 /\ i_tag i = t_tag (tags_of c p) /\
     i_contents i = x /\ i_header i = full_header (tags_of c p) 1 x) \/
   (has_explicit c p = true /\ tags_of c p = Tagging (k_class c) (k_tag c) false (t_explicit (tags_of c p)) /\
     exists j, peel (rev (t_explicit (tags_of c p))) i (i_header i) [] = Ok (j, full_header (tags_of c p) 1 x, []) /\
       i_class j = k_class c /\ i_method j = 1 /\ i_tag j = k_tag c /\ i_contents j = x /\ i_trailer j = [])).
Proof.
  intros Hp Hi Ht D B.
  destruct (peel_constructed _ x i Ht D B) as (Ti & j & P & J1 & J2 & J3 & J4 & J5). split; auto.
  pose proof (init_tags c p Hp) as It. destruct (has_explicit c p) eqn:He.
  - right. split; auto. destruct (has_explicit_true _ _ _ It He) as [Nx _].
    assert (Sh : tags_of c p = Tagging (k_class c) (k_tag c) false (t_explicit (tags_of c p))).
    { unfold tags_of in *. destruct (params_shape p Hp) as [(c0 & t0 & -> & H1 & H2)|[(y & -> & H1 & H2)| ->]]; cbn in *; auto.
      destruct Hi as [Hi|Hi]; [discriminate|]. rewrite Hi in Nx. contradiction. }
    split; auto. exists j. split; auto. rewrite Sh in J1, J3. cbn in J1, J3. auto 10.
  - left. split; auto. pose proof (has_explicit_false _ _ _ It He) as Ex. rewrite Ex in P. cbn in P. injection P as <- P. split; auto.
    split; [unfold has_explicit in He; destruct Hp as (Np & _); rewrite Np in He; destruct (k_explicit c), (p_explicit p); auto; discriminate|]. auto 10.
Qed.

Section Seq2.
  Variable c : pcls.
  Variable fs : list (fld * spec).
  Hypothesis W : wf (SSeq c fs).
  Hypothesis C : forall f, In f fs -> contract (snd f).
  Notation incl l := (forall f, In f l -> In f fs).

  (* ---- natives ---- *)
  Lemma built_ok q n f na v : In f fs -> crep q n f na v ->
    exists b, built (fmeth f) v = Ok b /\ fst na = fname f /\ ((b = VVoid /\ v = VVoid /\ fpres f = Optional /\ snd na = ANone) \/ rep q n (snd f) (ftags f) (snd na) b) /\
      (is_lazy v = false -> b = v) /\ is_lazy b = false.
  Proof.
    intros Hf R. apply crep_cases in R as (E & [(-> & X & Y)|[(i & b & -> & B & En & Eb & Fr & _)|R]]).
    - exists VVoid. cbn. auto 10.
    - exists b. cbn. split; auto. split; auto. split; [right; eapply rep_weaken; [| |exact Fr]; auto; apply le_low_self|]. split; [discriminate|]. eapply rep_lazy; eauto.
    - exists v. pose proof (rep_lazy _ _ _ _ _ _ R) as Lz. destruct v; try discriminate; cbn; auto 10.
  Qed.

  Lemma natives_ok q n l : incl l -> forall la vs k, all3 (crep q n) l la vs ->
    exists vs' ns, natives k (fields l) vs = (vs', ns, Ok tt) /\ all3 (crep q n) l la vs' /\ existsb mutated vs' = false /\ length ns = length l /\
      forall i f na v, nth_error l i = Some f -> nth_error la i = Some na -> nth_error vs' i = Some v ->
        exists ne, nth_error ns i = Some (fname f, ne) /\ is_lazy v = false /\ (n = true -> ent_ok (showf f (snd na)) (k + i) v ne).
  Proof.
    induction l as [|f l IH]; intros S [|na la] [|v vs] k; cbn [all3]; try tauto.
    - intros _. exists [], []. cbn. split; auto. split; auto. split; auto. split; auto. intros i f na v H. destruct i; discriminate.
    - intros [H1 H2]. assert (Hf : In f fs) by (apply S; now left). destruct (wf_tags c fs f W Hf) as (Wf & T & Tk).
      destruct (built_ok q n f na v Hf H1) as (b & Eb & E & Hb & _ & Lb).
      destruct (IH (fun g Hg => S g (or_intror Hg)) la vs (Datatypes.S k) H2) as (vs' & ns & Es & R2 & M2 & L2 & N2).
      assert (exists v1 a, child_native (methods (snd f)) b = (v1, Ok a) /\ crep q n f na v1 /\ mutated v1 = false /\ is_lazy v1 = false /\
        (n = true -> ent_ok (showf f (snd na)) k v1 (entry k v1 a))) as (v1 & a & En & R1 & M1 & L1 & N1).
      { destruct Hb as [(-> & -> & X & Y)|R].
        - exists VVoid, ANone. cbn. split; auto. split; auto. split; auto. split; auto. intros _. exists ANone. split; auto. unfold showf. now rewrite X, Y.
        - destruct (K_native _ (C f Hf) _ _ _ _ _ Tk R) as (v1 & a & Ea & R1 & K & M1 & Dd & Sh). exists v1, a.
          split; [destruct b; auto; now apply rep_not_void in R|]. split; [apply crep_cases; auto|]. split; auto. split; [eapply rep_lazy; eauto|].
          intros N. unfold ent_ok, entry. rewrite Dd. destruct (has_dict v1); auto. exists a. split; auto. unfold showf. specialize (Sh N).
          destruct (fpres f); auto. destruct (snd na); auto. now apply rep_not_none in R. }
      exists (v1 :: vs'), ((fname f, entry k v1 a) :: ns). cbn [fields map natives]. fold (fields l). fold (fmeth f). rewrite Eb. cbn [snd fmeth].
      rewrite En, Es. split; auto. split; [cbn; auto|]. split; [cbn; now rewrite M1|]. split; [cbn; auto|].
      intros i g nb w. destruct i as [|i]; cbn [nth_error].
      + intros X1 X2 X3. injection X1 as <-. injection X2 as <-. injection X3 as <-. exists (entry k v1 a). rewrite Nat.add_0_r. auto.
      + intros X1 X2 X3. rewrite <- Nat.add_succ_comm. eapply N2; eauto.
  Qed.

  Lemma build_all_ok q l : incl l -> forall la vs, all3 (crep q true) l la vs ->
    exists vs', build_all (fields l) vs = Ok vs' /\ all3 (crep q true) l la vs'.
  Proof.
    induction l as [|f l IH]; intros S [|na la] [|v vs]; cbn [all3]; try tauto.
    - intros _. exists []. cbn. auto.
    - intros [H1 H2]. assert (Hf : In f fs) by (apply S; now left). destruct (IH (fun g Hg => S g (or_intror Hg)) la vs H2) as (vs' & Es & R2).
      assert (exists v1, match v with VLazy _ => do b <- built (fmeth f) v; match b with VSeq _ _ _ _ _ | VList _ _ _ _ _ =>
         match x_parse (snd (fmeth f)) true b with (b', Ok tt) => Ok b' | (_, Err x) => Err x end | _ => Ok b end | _ => Ok v end = Ok v1 /\ crep q true f na v1) as (v1 & E1 & R1).
      { pose proof H1 as H0. apply crep_cases in H1 as (E & [(-> & X & Y)|[(i & b & -> & B & En & Eb & Fr & _ & Fp)|R]]).
        - exists VVoid. auto.
        - assert (Wk : forall w, rep (low q) true (snd f) (ftags f) (snd na) w -> crep q true f na w).
          { intros w Rw. apply crep_cases. split; auto. right. right. eapply rep_weaken; [apply le_low_self| |exact Rw]. auto. }
          unfold built, fmeth. cbn [snd]. rewrite Eb. cbn [bind]. destruct b; try (eexists; split; [reflexivity|]; auto; fail);
            (destruct Fp as (b' & Ep & Rb & _); rewrite Ep; exists b'; split; auto).
        - pose proof (rep_lazy _ _ _ _ _ _ R). exists v. split; [destruct v; auto; discriminate|auto]. }
      exists (v1 :: vs'). cbn [fields map build_all]. fold (fields l). fold (fmeth f). rewrite E1. cbn [bind]. rewrite Es. cbn. auto.
  Qed.

  (* _parse_children(recurse=True) *)
  Lemma parse_ok q t la e ch m nc x l : e_contents e = Some x ->
    seq_children (fields fs) x = Ok l -> all3 (crep q true) fs la l ->
    exists l', parse_seq (fields fs) false true (VSeq t e ch m nc) = (VSeq t e (Some l') m nc, Ok tt) /\ all3 (crep q true) fs la l'.
  Proof.
    intros Hx El R. destruct (build_all_ok q fs (fun f Hf => Hf) la l R) as (l' & Eb & R'). exists l'. split; auto.
    unfold parse_seq, parse_flat. rewrite Hx, El, Hx. cbn [andb]. now rewrite Eb.
  Qed.

  Lemma ents_of_from la l' ns : length ns = length fs ->
    (forall i f na v, nth_error fs i = Some f -> nth_error la i = Some na -> nth_error l' i = Some v ->
        exists ne, nth_error ns i = Some (fname f, ne) /\ is_lazy v = false /\ ent_ok (showf f (snd na)) (0 + i) v ne) -> ents_seq fs la l' ns.
  Proof. intros L H. split; auto. Qed.

  Lemma native_ok q n t la e ch m nc : rep q n (SSeq c fs) t (ADict la) (VSeq t e ch m nc) ->
    exists v' x, native_seq (fields fs) false (VSeq t e ch m nc) = (v', Ok x) /\ rep q n (SSeq c fs) t (ADict la) v' /\
      mutated v' = false /\ has_dict v' = true /\ (n = true -> shows (SSeq c fs) (ADict la) x).
  Proof.
    intros R. destruct (contents_ok c fs W C _ _ _ _ _ _ _ _ R) as (e1 & ch1 & m1 & x & Ex & M1 & Ec & R1 & Hq & _).
    unfold native_seq. rewrite Ex. destruct nc as [d|].
    - eexists _, _. split; [reflexivity|]. split; auto. split; auto. split; [reflexivity|]. intros ->. apply (cached_shows _ _ _ _ _ R1). reflexivity.
    - pose proof R1 as R0. apply rep_seq_eq in R1 as (la' & t' & e' & ch' & m' & nc' & [= <-] & [= <- <- <- <- <-] & _ & Em & R2 & R3 & R4 & R5).
      assert (exists l, (match ch1 with None => parse_seq (fields fs) false true (VSeq t e1 ch1 m1 None) | Some _ => (VSeq t e1 ch1 m1 None, Ok tt) end)
         = (VSeq t e1 (Some l) m1 None, Ok tt) /\ all3 (crep q n) fs la l) as (l & El & Rl).
      { destruct ch1 as [l|]; [eauto|]. destruct R5 as (-> & x' & l & Hx & El & R5).
        destruct (parse_ok (low q) t la e1 None false None x' l Hx El R5) as (l' & Ep & Rl). exists l'. split; auto.
        eapply all3_impl; [|exact Rl]. intros. eapply crep_weaken; [apply le_low_self| |eassumption]; auto. }
      rewrite El. destruct (natives_ok q n fs (fun f Hf => Hf) la l 0 Rl) as (l' & ns & En & R' & M' & L' & N'). rewrite En.
      assert (Mm : m1 = false) by (destruct m1; auto; discriminate M1). subst m1.
      assert (RR : rep q n (SSeq c fs) t (ADict la) (VSeq t e1 (Some l') false (Some ns))).
      { apply rep_seq_eq. exists la, t, e1, (Some l'), false, (Some ns). do 3 (split; [reflexivity|]). split; auto. split; [intros _; congruence|].
        split; [intros Q _; exists x; now apply Hq|]. split; auto. intros N. apply ents_of_from; auto.
        intros i f na v X1 X2 X3. destruct (N' i f na v X1 X2 X3) as (ne & Y1 & Y2 & Y3). exists ne. auto. }
      eexists _, _. split; [reflexivity|]. split; auto. split; [exact M'|]. split; [reflexivity|]. intros ->. apply (cached_shows _ _ _ _ _ RR). reflexivity.
  Qed.

  (* ---- copies ---- *)
  Lemma fits_children la x : fits (SSeq c fs) (ADict la) -> enc_fields fs la x ->
    exists l la', seq_children (fields fs) x = Ok l /\ all3 simf fs la la' /\ all3 (crep Own true) fs la' l /\ enc_fields fs la' x.
  Proof.
    intros F (ys & -> & En). destruct (fits_fields c fs la F) as (ys' & D & _).
    pose proof (der_enc_field c fs W la ys' D) as En'.
    assert (ys' = ys).
    { clear F D. revert la ys ys' En En'. assert (G : forall l, incl l -> forall la ys ys', all3 enc_field l la ys -> all3 enc_field l la ys' -> ys' = ys).
      { induction l as [|f l IH]; intros S [|na la] [|y ys] [|y' ys']; cbn [all3]; try tauto. intros [H1 H2] [K1 K2]. f_equal; [|eapply (IH (fun g Hg => S g (or_intror Hg))); eauto].
        assert (Hf : In f fs) by (apply S; now left). pose proof (wf_wf c fs W f Hf) as Wf.
        apply encf_cases in H1 as (_ & H1), K1 as (_ & K1).
        destruct H1 as [(E & N & ->)|[(E & N & H1)|[(E & H1)|(dv & w & E & H1 & H1')]]];
        destruct K1 as [(E' & N' & ->)|[(E' & N' & K1)|[(E' & K1)|(dv' & w' & E' & K1 & K1')]]]; try congruence.
        - eapply encodes_fun; eauto.
        - eapply encodes_fun; eauto.
        - assert (dv' = dv) by congruence. subst dv'. assert (w' = w) by (eapply encodes_fun; eauto). subst w'.
          destruct H1' as [[H1' ->]|[H1' ->]], K1' as [[K1' ->]|[K1' ->]]; tauto || reflexivity. }
      intros. eapply G; eauto. }
    subst ys'. destruct (children_ok c fs W C la ys D) as (vs & la' & Es & S1 & R). exists vs, la'. split; auto. split; auto. split; auto.
    eapply enc_fields_sim; eauto. intros. eapply wf_wf; eauto. exists ys. auto.
  Qed.

  Lemma copy_ok q t t' n la e ch m nc : acc q = true -> fits (SSeq c fs) (ADict la) -> rep q n (SSeq c fs) t (ADict la) (VSeq t e ch m nc) ->
    exists v' la', copy_seq (fields fs) false t' (VSeq t e ch m nc) = Ok v' /\ all3 simf fs la la' /\
      rep Own (negb (has_dict (VSeq t e ch m nc))) (SSeq c fs) t' (ADict la') v' /\ has_dict v' = has_dict (VSeq t e ch m nc).
  Proof.
    intros Aq F R. destruct (contents_ok c fs W C _ _ _ _ _ _ _ _ R) as (e1 & ch1 & m1 & x & Ex & M1 & Ec & R1 & Hq & _).
    destruct (Hq Aq) as [Hx En]. destruct (fits_children la x F En) as (l & la' & El & S1 & Rl & En').
    unfold copy_seq. rewrite Ex. eexists _, la'. split; [reflexivity|]. split; auto.
    assert (HD : forall n nc', (nc' = None \/ n = false) -> rep Own n (SSeq c fs) t' (ADict la') (VSeq t' (Enc 1 None (Some x) [] false) None false nc')).
    { intros n0 nc' Hn. apply rep_seq_eq. eexists la', t', _, None, false, nc'. do 4 (split; [reflexivity|]). split; [intros _; discriminate|].
      assert (Hh : has_hdr t' (Enc 1 None (Some x) [] false) x) by (split; [reflexivity|now left]).
      split; [intros _ _; exists x; auto|]. split; [intros ->; destruct Hn as [->|Hn]; [auto|discriminate]|]. split; auto. exists x, l. auto. }
    destruct nc as [d|]; cbn [snap_dict cached_native has_dict negb]; split; auto.
  Qed.

  (* ---- loading ---- *)
  Lemma set_keys_keep d l : forall i v, (forall j f a, nth_error l j = Some f -> dict_get d (fname f) = Some a -> has_child (i + j) v = true) ->
    set_keys (fields fs) false has_child d (fields l) i v = Ok v.
  Proof.
    induction l as [|f l IH]; intros i v H; [reflexivity|]. cbn [fields map set_keys]. fold (fields l). cbn [fst].
    assert (K : set_keys (fields fs) false has_child d (fields l) (S i) v = Ok v).
    { apply IH. intros j g a Hj Ha. rewrite Nat.add_succ_comm. eapply H; eauto. }
    destruct (dict_get d (f_name (fst f))) as [a|] eqn:E; auto.
    pose proof (H 0%nat f a eq_refl E) as Hc. rewrite Nat.add_0_r in Hc. now rewrite Hc.
  Qed.
  Lemma known_ok d : (forall n x, In (n, x) d -> In n (map fname fs)) -> known_keys (fields fs) d = true.
  Proof.
    intros H. unfold known_keys. apply forallb_forall. intros [n x] Hn. apply existsb_exists. specialize (H n x Hn). apply in_map_iff in H as (f & E & Hf).
    exists (fmeth f). split; [unfold fields; apply in_map_iff; exists f; auto|]. cbn. unfold fname in E. rewrite E. now apply eqb_text_spec.
  Qed.
  Lemma dict_get_in d n a : dict_get d n = Some a -> In (n, a) d.
  Proof.
    induction d as [|[m y] d IH]; cbn; [discriminate|]. destruct (eqb_text m n) eqn:E; [|auto]. apply eqb_text_spec in E. subst m.
    intros H. injection H as ->. now left.
  Qed.

  (* what _build makes of contents whose children are found *)
  Lemma fresh_seq q t e ch la x l : e_method e = 1 -> e_contents e = Some x -> (acc q = true -> has_hdr t e x /\ enc_fields fs la x) ->
    seq_children (fields fs) x = Ok l -> all3 (crep (low q) true) fs la l -> (ch = None \/ ch = Some l) ->
    fresh (methods (SSeq c fs)) (rep q true (SSeq c fs) t (ADict la)) (VSeq t e ch false None).
  Proof.
    intros Em Ec Hq El Rl Hch.
    assert (RR : forall ch, (ch = None \/ exists l, ch = Some l /\ all3 (crep (low q) true) fs la l) -> rep q true (SSeq c fs) t (ADict la) (VSeq t e ch false None)).
    { intros ch0 H0. apply rep_seq_eq. exists la, t, e, ch0, false, None. do 3 (split; [reflexivity|]). split; auto. split; [intros _; congruence|].
      split; [intros Q _; exists x; auto|]. split; auto. destruct H0 as [->|(l0 & -> & H0)].
      - split; auto. exists x, l. auto.
      - eapply all3_impl; [|exact H0]. intros f na v _. apply crep_weaken; auto. apply le_low_self. }
    split; [apply RR; destruct Hch as [->| ->]; [now left|right; eauto]|]. split; [reflexivity|].
    destruct (parse_ok (low q) t la e ch false None x l Ec El Rl) as (l' & Ep & Rl').
    exists (VSeq t e (Some l') false None). split; [exact Ep|]. split; [|reflexivity]. apply RR. right. eauto.
  Qed.

  Lemma build_found q p dflt i j hd tl la l : taggable (SSeq c fs) p -> default_fine (SSeq c fs) p dflt ->
    let t := tags_of c p in
    ((has_explicit c p = false /\ p_explicit p = [] /\ j = i /\ hd = i_header i /\ tl = i_trailer i) \/
     (has_explicit c p = true /\ t = Tagging (k_class c) (k_tag c) false (t_explicit t) /\
        peel (rev (t_explicit t)) i (i_header i) (i_trailer i) = Ok (j, hd, tl))) ->
    i_class j = t_class t -> i_method j = 1 -> i_tag j = t_tag t ->
    seq_children (fields fs) (i_contents j) = Ok l -> all3 (crep (low q) true) fs la l ->
    (acc q = true -> hd = full_header t 1 (i_contents j) /\ tl = [] /\ enc_fields fs la (i_contents j)) ->
    (forall d, dflt = Some d -> exists v, make_seq c (fields fs) false p dflt ANone = Ok v) ->
    exists v, build_seq c (fields fs) false p dflt i = Ok v /\ fresh (methods (SSeq c fs)) (rep q true (SSeq c fs) t (ADict la)) v.
  Proof.
    intros T Df t Sh J1 J2 J3 El Rl Hq Mk. set (x := i_contents j) in *.
    assert (FR : forall ch, (ch = None \/ ch = Some l) ->
       fresh (methods (SSeq c fs)) (rep q true (SSeq c fs) t (ADict la)) (VSeq t (Enc 1 (Some hd) (Some x) tl false) ch false None)).
    { intros ch Hch. apply (fresh_seq q t _ ch la x l); auto. intros Q. destruct (Hq Q) as (-> & -> & En). split; auto. split; [reflexivity|right; auto]. }
    destruct Sh as [(He & Pe & -> & -> & ->)|(He & Sh & P)].
    - assert (Ck : check_tags c t i = true) by (unfold check_tags; rewrite J1, J2, J3, !Z.eqb_refl; reflexivity).
      unfold build_seq, build_with. rewrite He. unfold plain_seq. rewrite (init_tags c p (proj1 T)). cbn [bind]. destruct T as ((Np & _) & _). rewrite Np.
      fold t. destruct dflt as [d|].
      + unfold parse_flat at 1. cbn [e_contents]. fold x. rewrite El. cbn [default_fine] in Df. destruct Df as (_ & _ & Dok & ad & Dd & _).
        destruct d as [| |dl| | |]; try contradiction. cbn [set_dict].
        cbn [denotes] in Dd. destruct ad as [| |lad| | |]; try contradiction. destruct Dd as (_ & Dk & _).
        rewrite (known_ok dl Dk). rewrite set_keys_keep.
        2:{ intros k f a Hk Ha. cbn [has_child Nat.add]. destruct (all3_nth _ _ _ _ _ _ Rl Hk) as (na & v & _ & Hv & Rv). rewrite Hv.
            assert (N : v <> VVoid).
            { intros ->. apply crep_cases in Rv as (_ & [(_ & X & _)|[(i0 & b0 & E0 & _)|R0]]); [|discriminate|now apply rep_not_void in R0].
              cbn [default_ok f_params] in Dok. destruct Dok as [Dok|Dok]; [contradiction|]. apply dict_get_in in Ha.
              apply (Dok _ _ f Ha (nth_error_In _ _ Hk) eq_refl X). }
            destruct v; auto. }
        cbn [bind]. rewrite Ck. cbn [place_header e_method e_contents e_indef].
        eexists. split; [reflexivity|]. auto.
      + cbn [bind]. rewrite Ck. cbn [place_header e_method e_contents e_indef]. eexists. split; [reflexivity|]. auto.
    - unfold build_seq, build_with. rewrite He.
      assert (Pr : (do _ <- make_seq c (fields fs) false p dflt ANone; Ok tt) = Ok tt).
      { destruct dflt as [d|]; [destruct (Mk d eq_refl) as (v & Ev); now rewrite Ev|]. unfold make_seq. now rewrite (init_tags c p (proj1 T)). }
      rewrite Pr. cbn [bind]. rewrite (init_tags c p (proj1 T)). cbn [bind]. fold t in P, Sh. fold t. rewrite P. cbn [bind].
      unfold plain_seq. cbn [p_no_explicit]. change (init_tagging c (Params [] None true)) with (Ok (Tagging (k_class c) (k_tag c) false [])). cbn [bind].
      rewrite Sh in J1, J3. cbn in J1, J3.
      assert (Ck : check_tags c (Tagging (k_class c) (k_tag c) false []) j = true) by (unfold check_tags; cbn [t_class t_tag]; rewrite J1, J2, J3, !Z.eqb_refl; reflexivity).
      rewrite Ck. cbn [bind]. unfold place_explicit. cbn [place_header e_method e_contents e_indef]. unfold with_explicit. cbn [t_class t_tag t_implicit]. rewrite <- Sh.
      eexists. split; [reflexivity|]. auto.
  Qed.

  Lemma build_seq_ok p dflt i la : taggable (SSeq c fs) p -> default_fine (SSeq c fs) p dflt -> ber_info max_budget i ->
    der (SSeq c fs) (tags_of c p) (ADict la) (encoding_of i) -> 
    (forall d, dflt = Some d -> exists v, make_seq c (fields fs) false p dflt ANone = Ok v) ->
    exists v la', build_seq c (fields fs) false p dflt i = Ok v /\ all3 simf fs la la' /\
      fresh (methods (SSeq c fs)) (rep Own true (SSeq c fs) (tags_of c p) (ADict la')) v.
  Proof.
    intros T Df B D Mk. pose proof (stags_ok _ _ W T) as Ht. cbn [stags] in Ht.
    pose proof (der_fits (SSeq c fs) _ _ _ Ht D) as F. cbn [der] in D. destruct D as (ys & Dc & Dy).
    assert (En : enc_fields fs la (concat ys)) by (exists ys; split; auto; eapply der_enc_field; eauto).
    destruct (fits_children la _ F En) as (l & la' & El & S1 & Rl & En').
    assert (Hi : p_implicit p = None \/ k_explicit c = []) by (destruct T as (_ & [Hi|[Hi _]] & _); auto).
    destruct (build_cases c p (concat ys) i (proj1 T) Hi Ht Dc B) as (Ti & [(He & Ex & Pe & I1 & I2 & I3 & I4 & I5)|(He & Sh & j & P & J1 & J2 & J3 & J4 & J5)]).
    - destruct (build_found Own p dflt i i (i_header i) (i_trailer i) la' l T Df) as (v & Ev & Fr); auto.
      + left. auto.
      + now rewrite I4.
      + intros _. rewrite I4. auto.
      + exists v, la'. auto.
    - destruct (build_found Own p dflt i j (full_header (tags_of c p) 1 (concat ys)) [] la' l T Df) as (v & Ev & Fr); auto.
      + right. rewrite Ti. auto.
      + now rewrite Sh.
      + now rewrite Sh.
      + now rewrite J4.
      + intros _. rewrite J4. auto.
      + exists v, la'. auto.
  Qed.

  (* ---- construction ---- *)
  Definition init_of (f : fld * spec) (v : value) : Prop :=
    match fpres f with
    | Default d => exists ad a', denotes (snd f) d ad /\ sim (snd f) ad a' /\ rep Own true (snd f) (ftags f) a' v
    | _ => v = VVoid
    end.

  Lemma make_value_ok f x a : In f fs -> fits (snd f) a -> given (snd f) true (denotes (snd f)) x a -> (x = ANone -> fpres f = Required) ->
    exists v a', make_value (fmeth f) x = Ok v /\ sim (snd f) a a' /\ rep Own true (snd f) (ftags f) a' v /\ has_dict v = false.
  Proof.
    intros Hf F H No. destruct (wf_tags c fs f W Hf) as (Wf & T & Tk).
    assert (MK : exists v a' p', (if x_choice (methods (snd f)) then
                   match x with
                   | AObj p b => x_make (methods (snd f)) p None b
                   | AChoice _ _ => x_make (methods (snd f)) no_params None x
                   | ADict [(n, b)] => x_make (methods (snd f)) no_params None (AChoice n b)
                   | _ => Err ValueError
                   end
                 else
                   match x with
                   | AObj p b => x_make (methods (snd f)) p None b
                   | _ => x_make (methods (snd f)) (f_params (fst f)) (default_of (fst f)) x
                   end) = Ok v /\ taggable (snd f) p' /\ sim (snd f) a a' /\ rep Own true (snd f) (stags (snd f) p') a' v /\ has_dict v = false).
    { rewrite x_choice_is. unfold given in H.
      assert (O : forall p b, x = AObj p b -> exists v a', x_make (methods (snd f)) p None b = Ok v /\ taggable (snd f) p /\ sim (snd f) a a' /\ rep Own true (snd f) (stags (snd f) p) a' v /\ has_dict v = false).
      { intros p b ->. destruct H as [Tp D]. destruct (K_make _ (C f Hf) p b a Tp D F) as (v & a' & Ev & K). exists v, a'. tauto. }
      destruct (is_choice (snd f)) eqn:Ic.
      + assert (Tn : taggable (snd f) no_params).
        { apply taggable_none. intros Hc. destruct T as (_ & _ & T). specialize (T Hc). rewrite app_length in T. lia. }
        assert (X : (exists n b, x = AChoice n b) \/ exists p b, x = AObj p b).
        { destruct x; eauto; destruct H as [_ H]; destruct (snd f); try discriminate Ic; cbn in H; contradiction. }
        destruct X as [(n & b & ->)|(p & b & ->)].
        * destruct H as [_ D]. destruct (K_make _ (C f Hf) no_params _ a Tn D F) as (v & a' & Ev & K). exists v, a', no_params. tauto.
        * destruct (O p b eq_refl) as (v & a' & K). exists v, a', p. tauto.
      + assert (X : (exists p b, x = AObj p b) \/ ((forall p b, x <> AObj p b) /\ denotes (snd f) x a)).
        { destruct x; try (right; split; [discriminate|tauto]). left; eauto. }
        destruct X as [(p & b & ->)|[Nx D]].
        * destruct (O p b eq_refl) as (v & a' & K). exists v, a', p. tauto.
        * destruct (K_make _ (C f Hf) (f_params (fst f)) x a T D F) as (v & a' & Ev & K). exists v, a', (f_params (fst f)).
          assert (Em : x_make (methods (snd f)) (f_params (fst f)) (default_of (fst f)) x = Ok v).
          { destruct x; try (rewrite make_default2 by (auto; discriminate); exact Ev).
            unfold default_of. specialize (No eq_refl). unfold fpres in No. rewrite No. exact Ev. }
          destruct x; try tauto. exfalso. eapply Nx; reflexivity. }
    destruct MK as (v & a1 & p' & Em & Tp & S1 & R & Hd).
    destruct (fix_tagging_ok _ (f_params (fst f)) p' a1 v Wf (C f Hf) T Tp (fits_sim _ _ _ Wf S1 F) R Hd) as (v' & a2 & Ef & S2 & R2 & Hd2).
    exists v', a2. split; [|split; [eapply sim_trans; eauto|auto]]. unfold make_value, fmeth. unfold fpres in No.
    assert (Nn : x <> APrim NNone \/ f_pres (fst f) <> Optional).
    { left. intros ->. destruct H as [_ H]. destruct (snd f); cbn in H; try contradiction. destruct a; try contradiction. destruct H as (_ & N & _). contradiction. }
    destruct x as [|pv| | | |].
    1: specialize (No eq_refl); rewrite No in *.
    all: try (rewrite Em; exact Ef).
    destruct pv; try (rewrite Em; exact Ef). destruct (f_pres (fst f)); try (rewrite Em; exact Ef). destruct Nn; contradiction.
  Qed.

  Lemma make_value_default f d : In f fs -> fpres f = Default d ->
    exists v ad a', make_value (fmeth f) ANone = Ok v /\ denotes (snd f) d ad /\ sim (snd f) ad a' /\ rep Own true (snd f) (ftags f) a' v /\ has_dict v = false.
  Proof.
    intros Hf E. destruct (made_default c fs W C f d Hf E) as (v & ad & a1 & w & Ev & D1 & D2 & D3 & S1 & R & Hd).
    destruct (wf_tags c fs f W Hf) as (Wf & T & Tk).
    destruct (fix_tagging_ok _ (f_params (fst f)) (f_params (fst f)) a1 v Wf (C f Hf) T T (fits_sim _ _ _ Wf S1 (der_fits _ _ _ _ Tk D2)) R Hd) as (v' & a2 & Ef & S2 & R2 & Hd2).
    exists v', ad, a2. split; [|split; [auto|split; [eapply sim_trans; eauto|auto]]]. unfold make_value, fmeth. unfold fpres in E. rewrite E.
    rewrite x_choice_is, (dflt_not_choice c fs W f d Hf E). unfold default_of. rewrite E, Ev. exact Ef.
  Qed.

  Lemma init_ok l : incl l -> exists vs, init_children (fields l) = Ok vs /\ all2 init_of l vs.
  Proof.
    induction l as [|f l IH]; intros S.
    - exists []. cbn. auto.
    - assert (Hf : In f fs) by (apply S; now left). destruct (IH (fun g Hg => S g (or_intror Hg))) as (vs & Es & A).
      assert (exists v, match f_pres (fst f) with Default _ => make_value (fmeth f) ANone | _ => Ok VVoid end = Ok v /\ init_of f v) as (v & E1 & A1).
      { unfold init_of. destruct (fpres f) as [| |d] eqn:E; unfold fpres in E; rewrite E; eauto.
        destruct (make_value_default f d Hf E) as (v & ad & a' & Ev & D & S1 & R & _). exists v. split; auto. exists ad, a'. auto. }
      exists (v :: vs). cbn [fields map init_children]. fold (fields l). fold (fmeth f). unfold fmeth in E1 |- *. rewrite E1. cbn [bind]. rewrite Es. cbn. auto.
  Qed.

  Definition given_field (li : list (text * aval)) (f : fld * spec) (na : text * aval) : Prop :=
    fst na = fname f /\
    match dict_get li (fname f), fpres f with
    | None, Optional | Some ANone, Optional => snd na = ANone
    | None, Default d | Some ANone, Default d => denotes (snd f) d (snd na)
    | None, Required => False
    | Some x, _ => given (snd f) true (denotes (snd f)) x (snd na)
    end.

  (* one assignment of __init__ *)
  Lemma assign_ok li f na x : In f fs -> given_field li f na -> dict_get li (fname f) = Some x -> (snd na <> ANone -> fits (snd f) (snd na)) ->
    exists nv nv1 y na', make_value (fmeth f) x = Ok nv /\ child_contents (methods (snd f)) nv = (nv1, Ok (Some y)) /\
      simf f na na' /\ crep Own true f na' nv1 /\ is_lazy nv1 = false.
  Proof.
    intros Hf (E & G) Ex F. rewrite Ex in G. destruct (wf_tags c fs f W Hf) as (Wf & T & Tk).
    assert (MK : (make_value (fmeth f) x = Ok VVoid /\ fpres f = Optional /\ snd na = ANone) \/
       exists v a', make_value (fmeth f) x = Ok v /\ sim (snd f) (snd na) a' /\ rep Own true (snd f) (ftags f) a' v).
    { assert (Gv : given (snd f) true (denotes (snd f)) x (snd na) -> (x = ANone -> fpres f = Required) ->
         exists v a', make_value (fmeth f) x = Ok v /\ sim (snd f) (snd na) a' /\ rep Own true (snd f) (ftags f) a' v).
      { intros H No. destruct (make_value_ok f x (snd na) Hf) as (v & a' & K); auto; [|exists v, a'; tauto].
        apply F. intros N. rewrite N in H. unfold given in H.
        assert (H' : exists b, denotes (snd f) b ANone) by (destruct x; destruct H as [_ H]; eauto).
        destruct H' as [b H']. destruct (snd f); cbn in H'; destruct b; contradiction. }
      destruct x; try (right; apply Gv; [exact G|discriminate]).
      destruct (fpres f) as [| |d] eqn:X.
      - right. auto.
      - left. split; auto. unfold make_value, fmeth. unfold fpres in X. now rewrite X.
      - right. destruct (make_value_default f d Hf X) as (v & ad & a' & Ev & D & S1 & R & _).
        assert (ad = snd na) by exact (denotes_fun _ _ _ _ Wf D G). subst ad. eauto. }
    destruct MK as [(Em & X & Y)|(v & a' & Em & S1 & R)].
    - exists VVoid, VVoid, [], na. split; auto. split; [reflexivity|]. split; [apply simf_cases; auto 10|]. split; [apply crep_cases; auto|reflexivity].
    - destruct (K_contents _ (C f Hf) _ _ _ _ _ Tk R) as (v1 & y & Ec & R1 & _). exists v, v1, y, (fname f, a'). split; auto.
      split; [destruct v; auto; now apply rep_not_void in R|]. split; [apply simf_cases; cbn; auto 10|]. split; [apply crep_cases; cbn; auto 10|]. eapply rep_lazy; eauto.
  Qed.

  Definition cur (vs0 : list value) (ch : option (list value)) : list value := match ch with Some l => l | None => vs0 end.

  Lemma set_keys_make st li t vs0 : init_children (fields fs) = Ok vs0 ->
    forall l pre ch m vp vr la, fs = pre ++ l -> (m = match ch with Some _ => true | None => false end) -> cur vs0 ch = vp ++ vr -> length vp = length pre ->
      all2 init_of l vr -> all2 (given_field li) l la -> (forall f na, In (f, na) (combine l la) -> snd na <> ANone -> fits (snd f) (snd na)) ->
      exists ch' m' vr' la', set_keys (fields fs) st (fun _ _ => false) li (fields l) (length pre) (VSeq t no_enc ch m None) = Ok (VSeq t no_enc ch' m' None) /\
        m' = match ch' with Some _ => true | None => false end /\ cur vs0 ch' = vp ++ vr' /\ all3 simf l la la' /\ all3 (crep Own true) l la' vr' /\
        ((ch <> None \/ exists f, In f l /\ dict_get li (fname f) <> None) -> ch' <> None) /\ Forall (fun w => is_lazy w = false) vr'.
  Proof.
    intros E0. induction l as [|f l IH]; intros pre ch m vp [|v vr] [|na la] Ef Em Ec Lp In0 G F; cbn [all2] in In0, G; try tauto.
    - exists ch, m, [], []. cbn. split; auto. split; auto. split; auto. split; auto. split; auto. split; [|constructor]. intros [H|(f & [] & _)]; auto.
    - destruct In0 as [I0 I1], G as [G0 G1]. assert (Hf : In f fs) by (rewrite Ef; apply in_or_app; right; now left).
      destruct (wf_tags c fs f W Hf) as (Wf & T & Tk).
      assert (Nf : nth_error (fields fs) (length pre) = Some (fmeth f)).
      { unfold fields. rewrite Ef, map_app. rewrite nth_error_app2 by (rewrite map_length; lia). rewrite map_length, Nat.sub_diag. reflexivity. }
      assert (F0 : snd na <> ANone -> fits (snd f) (snd na)) by (apply F; now left).
      assert (F1 : forall g nb, In (g, nb) (combine l la) -> snd nb <> ANone -> fits (snd g) (snd nb)) by (intros; apply F; auto; now right).
      assert (Step : forall ch1 m1 v1 na1, m1 = match ch1 with Some _ => true | None => false end -> cur vs0 ch1 = (vp ++ [v1]) ++ vr -> simf f na na1 -> crep Own true f na1 v1 -> is_lazy v1 = false ->
         (ch <> None \/ dict_get li (fname f) <> None -> ch1 <> None) ->
         exists ch' m' vr' la', set_keys (fields fs) st (fun _ _ => false) li (fields l) (S (length pre)) (VSeq t no_enc ch1 m1 None) = Ok (VSeq t no_enc ch' m' None) /\
        m' = match ch' with Some _ => true | None => false end /\ cur vs0 ch' = vp ++ vr' /\ all3 simf (f :: l) (na :: la) la' /\ all3 (crep Own true) (f :: l) la' vr' /\
        ((ch <> None \/ exists g, In g (f :: l) /\ dict_get li (fname g) <> None) -> ch' <> None) /\ Forall (fun w => is_lazy w = false) vr').
      { intros ch1 m1 v1 na1 M1 C1 S1 R1 Lz N1.
        destruct (IH (pre ++ [f]) ch1 m1 (vp ++ [v1]) vr la) as (ch' & m' & vr' & la' & K1 & K2 & K3 & K4 & K5 & K6 & K7); auto.
        { rewrite <- app_assoc. exact Ef. } { rewrite !app_length. cbn. lia. }
        rewrite app_length in K1. cbn in K1. rewrite Nat.add_1_r in K1.
        exists ch', m', (v1 :: vr'), (na1 :: la'). split; auto. split; auto. split; [rewrite K3, <- app_assoc; reflexivity|]. split; [cbn; auto|]. split; [cbn; auto|]. split; [|constructor; auto].
        intros H. apply K6. destruct H as [H|(g & [<-|Hg] & H)]; [left; apply N1; auto|left; apply N1; auto|right; eauto]. }
      cbn [fields map set_keys fst]. fold (fields l). destruct (dict_get li (f_name (fst f))) as [x|] eqn:Ex.
      + destruct (assign_ok li f na x Hf G0 Ex F0) as (nv & nv1 & y & na1 & E1 & E2 & S1 & R1 & Lz).
        unfold set_seq. assert (En : ensure (fields fs) st (VSeq t no_enc ch m None) = (VSeq t no_enc (Some (cur vs0 ch)) m None, Ok (cur vs0 ch))).
        { unfold ensure. destruct ch; [reflexivity|]. unfold parse_flat. cbn [e_contents no_enc]. destruct (fields fs) eqn:EE; [|rewrite E0; reflexivity].
          unfold fields in EE. rewrite Ef in EE. rewrite map_app in EE. apply app_eq_nil in EE as [_ EE]. discriminate. }
        rewrite En, Nf, E1. cbn [snd fmeth]. rewrite E2, Ec, <- Lp, update_mid. rewrite Lp.
        apply (Step _ _ nv1 na1); auto; [cbn; now rewrite <- app_assoc|discriminate].
      + destruct G0 as (G0 & G0'). unfold fname in G0'. rewrite Ex in G0'. unfold init_of in I0.
        destruct (fpres f) as [| |d] eqn:X; [contradiction| |].
        * subst v. apply (Step _ _ VVoid na); auto; [rewrite <- app_assoc; exact Ec|apply simf_cases; auto 10|apply crep_cases; auto|].
          intros [H|H]; auto.
        * destruct I0 as (ad & a' & D & S1 & R). assert (ad = snd na) by exact (denotes_fun _ _ _ _ Wf D G0'). subst ad.
          apply (Step _ _ v (fname f, a')); auto; [rewrite <- app_assoc; exact Ec|apply simf_cases; cbn; auto 10|apply crep_cases; cbn; auto|eapply rep_lazy; eauto|].
          intros [H|H]; auto.
  Qed.

  Lemma fits_each la : fits (SSeq c fs) (ADict la) -> forall f na, In (f, na) (combine fs la) -> snd na <> ANone -> fits (snd f) (snd na).
  Proof.
    intros F f na Hin N. destruct (fits_fields c fs la F) as (ys & D & _). clear F. 
    assert (Hf : In f fs) by (eapply in_combine_l; eauto). destruct (wf_tags c fs f W Hf) as (Wf & T & Tk). clear Hf.
    assert (G : forall l la ys, all3 der_field l la ys -> In (f, na) (combine l la) -> fits (snd f) (snd na)); [|eauto]. clear la ys D Hin.
    induction l as [|g l IH]; intros [|nb la] [|y ys]; cbn [all3 combine In]; try tauto; intros [H1 H2] [Hin|Hin].
    - injection Hin as -> ->. apply encf_cases in H1 as (_ & [(X & Y & _)|[(X & Y & H1)|[(X & H1)|(dv & w & X & H1 & H1')]]]); try contradiction; exact (der_fits _ _ _ _ Tk H1).
    - eapply IH; eauto.
  Qed.

  Lemma make_any_ok st p i la : taggable (SSeq c fs) p -> denotes (SSeq c fs) i (ADict la) -> fits (SSeq c fs) (ADict la) ->
    exists v la', make_seq c (fields fs) st p None i = Ok v /\ all3 simf fs la la' /\ rep Own true (SSeq c fs) (tags_of c p) (ADict la') v /\ has_dict v = false /\
      exists l, v = VSeq (tags_of c p) no_enc (Some l) true None /\ Forall (fun w => is_lazy w = false) l.
  Proof.
    intros T D F. cbn [denotes] in D. destruct i as [| |li| | |]; try contradiction. destruct D as (Nl & Dk & D).
    destruct (init_ok fs (fun f Hf => Hf)) as (vs0 & E0 & I0). set (t := tags_of c p).
    destruct (set_keys_make st li t vs0 E0 fs [] None false [] vs0 la eq_refl eq_refl eq_refl eq_refl I0 D (fits_each la F)) as (ch' & m' & vr' & la' & K1 & K2 & K3 & K4 & K5 & K6 & K7).
    unfold make_seq. rewrite (init_tags c p (proj1 T)). cbn [bind]. fold t. 
    assert (Nc : ch' <> None).
    { apply K6. right. destruct li as [|[n x] li]; [contradiction|]. specialize (Dk n x (or_introl eq_refl)). apply in_map_iff in Dk as (f & E & Hf).
      exists f. split; auto. cbn. rewrite E. replace (eqb_text n n) with true; [discriminate|]. symmetry. now apply eqb_text_spec. }
    cbn [set_dict length] in *. rewrite K1. cbn [bind]. rewrite (known_ok li Dk). destruct ch' as [l|]; [|contradiction]. cbn in K2, K3. subst m' vr'.
    eexists _, la'. split; [reflexivity|]. split; auto. split; [|split; [reflexivity|exists l; auto]].
    apply rep_seq_eq. exists la', t, no_enc, (Some l), true, None. do 4 (split; [reflexivity|]). split; [discriminate|]. split; [discriminate|]. split; auto.
  Qed.
  Lemma make_seq_ok p i la : taggable (SSeq c fs) p -> denotes (SSeq c fs) i (ADict la) -> fits (SSeq c fs) (ADict la) ->
    exists v la', make_seq c (fields fs) false p None i = Ok v /\ all3 simf fs la la' /\ rep Own true (SSeq c fs) (tags_of c p) (ADict la') v /\ has_dict v = false.
  Proof. intros T D F. destruct (make_any_ok false p i la T D F) as (v & la' & K1 & K2 & K3 & K4 & _). eauto 10. Qed.
End Seq2.

Lemma kept_trans3 v t e ch m nc : v = VSeq t e ch m nc -> forall e' ch' m' nc', (nc = None \/ nc' <> None) -> kept v (VSeq t e' ch' m' nc').
Proof. intros -> e' ch' m' nc' H. split; [reflexivity|]. cbn. destruct nc, nc'; auto. destruct H; congruence. Qed.

Lemma contract_seq c fs : wf (SSeq c fs) -> (forall f, In f fs -> contract (snd f)) -> contract (SSeq c fs).
Proof.
  intros W C. assert (INV : forall q n t a v, rep q n (SSeq c fs) t a v -> exists la e ch m nc, a = ADict la /\ v = VSeq t e ch m nc).
  { intros q n t a v R. apply rep_seq_eq in R as (la & t' & e & ch & m & nc & -> & -> & -> & _). eauto 10. }
  constructor.
  - intros p i a T D F. assert (exists la, a = ADict la) as [la ->] by (cbn in D; destruct i, a; try contradiction; eauto).
    destruct (make_seq_ok c fs W C p i la T D F) as (v & la' & Ev & S1 & R & Hd). exists v, (ADict la'). split; [exact Ev|].
    split; [now apply sim_seq|]. split; auto.
  - intros p dflt i a T Df B D. assert (exists la, a = ADict la) as [la ->] by (cbn in D; destruct a; try contradiction; eauto).
    destruct (build_seq_ok c fs W C p dflt i la T Df B D) as (v & la' & Ev & S1 & Fr).
    { intros d ->. destruct Df as (_ & _ & _ & ad & D1 & D2).
      assert (exists la0, ad = ADict la0) as [la0 ->] by (cbn in D1; destruct d, ad; try contradiction; eauto).
      destruct (make_seq_ok c fs W C p d la0 T D1) as (v & _ & Ev & _).
      { exact D2. }
      exists v. rewrite <- Ev. exact (make_default (SSeq c fs) p d eq_refl). }
    exists v, (ADict la'). split; [exact Ev|]. split; [now apply sim_seq|auto].
  - intros q n t a v Ht R. destruct (INV _ _ _ _ _ R) as (la & e & ch & m & nc & -> & ->).
    destruct (contents_ok c fs W C _ _ _ _ _ _ _ _ R) as (e' & ch' & m' & x & Ex & M & Ec & R' & _).
    exists (VSeq t e' ch' m' nc), x. split; [exact Ex|]. split; auto. split; [|auto]. eapply kept_trans3; eauto. destruct nc; auto. right; discriminate.
  - intros q n t a v f Ht R. destruct (INV _ _ _ _ _ R) as (la & e & ch & m & nc & -> & ->).
    destruct (dump_ok c fs W C _ _ _ _ _ _ _ _ f R) as (e' & ch' & m' & d & Ed & M & R' & En).
    exists (VSeq t e' ch' m' nc), d. split; [exact Ed|]. split; [eapply kept_trans3; eauto; destruct nc; auto; right; discriminate|]. split; auto.
  - intros q n t a v Ht R. destruct (INV _ _ _ _ _ R) as (la & e & ch & m & nc & -> & ->).
    destruct (native_ok c fs W C _ _ _ _ _ _ _ _ R) as (v' & x & Ex & R' & M & Hd & Sh). exists v', x. split; [exact Ex|]. split; auto.
    destruct (INV _ _ _ _ _ R') as (la0 & e' & ch' & m' & nc' & [= <-] & ->). split; [|split; auto].
    eapply kept_trans3; eauto. right. cbn in Hd. destruct nc'; discriminate.
  - intros p q n t a v Aq T Ht F R. destruct (INV _ _ _ _ _ R) as (la & e & ch & m & nc & -> & ->).
    destruct (copy_ok c fs W C q t (tags_of c p) n la e ch m nc Aq F R) as (v' & la' & Ev & S1 & R' & Hd). exists v', (ADict la').
    cbn [methods x_retag seq_ops]. fold (fields fs). split; [|split; [now apply sim_seq|auto]].
    change (x_retag (methods (SSeq c fs)) p (VSeq t e ch m nc)) with (do t' <- init_tagging c p; copy_seq (fields fs) false t' (VSeq t e ch m nc)).
    rewrite (init_tags c p (proj1 T)). exact Ev.
  - intros q n t a v Aq Ht F R. destruct (INV _ _ _ _ _ R) as (la & e & ch & m & nc & -> & ->).
    destruct (copy_ok c fs W C q t t n la e ch m nc Aq F R) as (v' & la' & Ev & S1 & R' & Hd). exists v', (ADict la'). split; [exact Ev|]. split; [now apply sim_seq|auto].
Qed.
