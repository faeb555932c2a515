Require Import Verif.Base Verif.BaseFacts Verif.IntModel Verif.IntSpec Verif.IntProofs
  Verif.ParserModel Verif.ParserSpec Verif.ParserProofs Verif.ParserFacts Verif.Text Verif.TagSpec Verif.PrimModel.

Lemma der_length_def n l : der_length n l -> def_length n l.
Proof.
  intros [H|b l' H1 H2 H3 H4 H5]; constructor; auto.
  pose proof (len_nonneg l'). rewrite len_cons in *. lia.
Qed.

Lemma der_length_unique n a b : der_length n a -> der_length n b -> a = b.
Proof.
  intros [H|x l H1 H2 H3 H4 H5] [K|y l' K1 K2 K3 K4 K5]; auto; try lia.
  assert (E : x :: l = y :: l'); [|now rewrite E].
  apply be_value_inj; auto; [|congruence].
  assert (forall x l y l', bytes_ok (x :: l) -> x <> 0 -> bytes_ok (y :: l') -> be_value (x :: l) = be_value (y :: l') -> (length l <= length l')%nat) as G.
  { clear. intros x l y l' H1 Hx H2 E. apply bytes_ok_cons in H1 as [Bx Ol]. 
    pose proof (be_value_bound _ H2) as B2. pose proof (be_value_bound _ Ol) as B1. rewrite <- E in B2. cbn [be_value] in B2.
    rewrite len_cons in B2. unfold byte_ok in Bx.
    destruct (Nat.le_gt_cases (length l) (length l')) as [|L]; auto. exfalso.
    assert (256 ^ (1 + len l') <= 256 ^ len l) by (apply Z.pow_le_mono_r; unfold len; lia).
    nia. }
  pose proof (G _ _ _ _ H2 H3 K2 ltac:(congruence)). pose proof (G _ _ _ _ K2 K3 H2 ltac:(congruence)). cbn. lia.
Qed.

Lemma der_tlv_unique c m t x a b : der_tlv c m t x a -> der_tlv c m t x b -> a = b.
Proof.
  intros (i & l & Hi & Hl & ->) (i' & l' & Hi' & Hl' & ->).
  now rewrite (ident_unique _ _ _ _ _ Hi Hi'), (der_length_unique _ _ _ Hl Hl').
Qed.

Lemma der_wrapped_unique ex : forall inner a b, der_wrapped ex inner a -> der_wrapped ex inner b -> a = b.
Proof.
  induction ex as [|[c t] r IH]; cbn; intros inner a b.
  - congruence.
  - intros (m & H1 & H2) (m' & H1' & H2'). rewrite (der_tlv_unique _ _ _ _ _ _ H1' H1) in H2'. eauto.
Qed.

Lemma der_tagged_unique c t ex x a b : der_tagged c t ex x a -> der_tagged c t ex x b -> a = b.
Proof.
  intros (i & H1 & H2) (i' & H1' & H2'). rewrite (der_tlv_unique _ _ _ _ _ _ H1' H1) in H2'.
  eapply der_wrapped_unique; eauto.
Qed.

Lemma dump_header_tlv c m t x : 0 <= c <= 3 -> 0 <= m <= 1 -> 0 <= t -> len x < 2 ^ 1008 ->
  der_tlv c m t x (dump_header c m t x ++ x).
Proof.
  intros Hc Hm Ht Hx. destruct (dump_header_spec c m t x) as (i & l & E & Hi & Hl & S & L); auto.
  exists i, l. repeat split; auto; [|now rewrite E, <- app_assoc].
  destruct (Z.lt_ge_cases (len x) 128) as [H|H].
  - rewrite S by lia. constructor. pose proof (len_nonneg x). lia.
  - destruct (L H) as (lb & -> & Hb). destruct lb as [|b lb]; [cbn in Hb; lia|]. cbn in Hb.
    inversion Hl as [Hs E1|l' O1 O2 O3 E1].
    constructor; auto; [lia|].
      (* the length octets of a length below 2^1008 *)
      rewrite len_cons in *. apply bytes_ok_cons in O1 as [Ob Ol]. cbn [be_value] in O3.
      pose proof (be_value_bound lb Ol).
      assert (256 ^ len lb < 2 ^ 1008) as P by nia.
      rewrite pow256 in P by apply len_nonneg.
      apply Z.pow_lt_mono_r_iff in P; pose proof (len_nonneg lb); lia.
Qed.

Lemma der_tlv_ber c m t x d n : der_tlv c m t x d ->
  exists h, d = h ++ x /\ ber (S n) c m t h x [].
Proof.
  intros (i & l & Hi & Hl & ->). exists (i ++ l). split; [now rewrite app_assoc|].
  constructor; auto. now apply der_length_def.
Qed.

Lemma def_length_ok n l : def_length n l -> bytes_ok l.
Proof.
  intros [H|l' H1 H2 H3]; apply bytes_ok_cons; split; auto; unfold byte_ok; try lia. constructor.
Qed.

Lemma der_tlv_ok c m t x d : der_tlv c m t x d -> bytes_ok x -> bytes_ok d.
Proof.
  intros (i & l & Hi & Hl & ->) Hx. apply bytes_ok_app; split; [now apply ident_ok in Hi|].
  apply bytes_ok_app; split; auto. eapply def_length_ok, der_length_def; eauto.
Qed.

Lemma der_wrapped_snoc ex c t inner d :
  der_wrapped (ex ++ [(c, t)]) inner d <-> exists mid, der_wrapped ex inner mid /\ der_tlv c 1 t mid d.
Proof.
  revert inner; induction ex as [|[c' t'] r IH]; intros inner; cbn [app der_wrapped].
  - split.
    + intros (mid & H & ->). eauto.
    + intros (mid & -> & H). eauto.
  - split.
    + intros (mid & H1 & H2). apply IH in H2 as (m2 & H3 & H4). exists m2. split; eauto.
    + intros (m2 & (mid & H1 & H3) & H4). exists mid. split; auto. apply IH. eauto.
Qed.

Lemma der_wrapped_ok ex : forall inner d, der_wrapped ex inner d -> bytes_ok inner -> bytes_ok d.
Proof.
  induction ex as [|[c t] r IH]; cbn; intros inner d.
  - congruence.
  - intros (m & H1 & H2) H. apply (IH m); auto. eapply der_tlv_ok; eauto.
Qed.

Lemma der_tlv_len c m t x d : der_tlv c m t x d -> len x <= len d.
Proof. intros (i & l & _ & _ & ->). rewrite !len_app. pose proof (len_nonneg i). pose proof (len_nonneg l). lia. Qed.

Definition tags_ok (ex : list (Z * Z)) : Prop := Forall (fun ct => 0 <= fst ct <= 3 /\ 0 <= snd ct) ex.

(* the headers written by dump *)
Lemma wrap_wrapped ex : forall h cont, tags_ok ex ->
  len (wrap ex h cont ++ cont) < 2 ^ 1008 -> der_wrapped ex (h ++ cont) (wrap ex h cont ++ cont).
Proof.
  induction ex as [|[c t] r IH]; intros h cont Hok Hlen; cbn [der_wrapped wrap fold_left fst snd] in *.
  - reflexivity.
  - fold (wrap r (dump_header c 1 t (h ++ cont) ++ h) cont) in *.
    pose proof (Forall_inv Hok) as [Hc Ht]. apply Forall_inv_tail in Hok. cbn [fst snd] in Hc, Ht.
    exists (dump_header c 1 t (h ++ cont) ++ h ++ cont). split.
    + apply dump_header_tlv; auto; [lia|].
      assert (len (h ++ cont) <= len (wrap r (dump_header c 1 t (h ++ cont) ++ h) cont ++ cont)) as L; [|lia].
      { clear. rewrite !len_app. set (h0 := dump_header c 1 t (h ++ cont) ++ h).
        assert (len h <= len h0) as L0 by (unfold h0; rewrite len_app; pose proof (len_nonneg (dump_header c 1 t (h ++ cont))); lia).
        clearbody h0. revert h0 L0. induction r as [|[c' t'] r IH]; intros h0 L0; cbn [wrap fold_left]; [lia|].
        apply IH. cbn [fst snd]. rewrite len_app.
        pose proof (len_nonneg (dump_header c' 1 t' (h0 ++ cont))). lia. }
    + rewrite app_assoc. apply IH; auto.
Qed.

(* reading the wrappers back *)
Lemma peel_wrapped ex : forall j d P T, ber_info max_budget j -> i_trailer j = [] ->
  der_wrapped ex (encoding_of j) d ->
  exists i hdr, ber_info max_budget i /\ i_trailer i = [] /\ encoding_of i = d /\
    peel (rev ex) i (P ++ i_header i) T = Ok (j, P ++ hdr, T) /\ hdr ++ i_contents j = d.
Proof.
  induction ex as [|[c t] ex IH] using rev_ind; intros j d P T Hj Ht Hd.
  - cbn in Hd. subst d. exists j, (i_header j). repeat split; auto.
    unfold encoding_of. rewrite Ht, app_nil_r. reflexivity.
  - apply der_wrapped_snoc in Hd as (mid & H1 & H2).
    destruct (der_tlv_ber _ _ _ _ _ 10 H2) as (h & E & B).
    destruct (IH j mid (P ++ h) T Hj Ht H1) as (i' & hdr & B' & T' & E' & Pe & Eh).
    exists (mkInfo c 1 t h mid []), (h ++ hdr). repeat split.
    + exact B.
    + unfold encoding_of. cbn. now rewrite app_nil_r.
    + rewrite rev_unit. cbn [peel i_class i_method i_tag i_contents i_header].
      rewrite !Z.eqb_refl. cbn [negb]. change (1 =? 1) with true. cbn [negb].
      pose proof (parse__0_complete i' [] B') as Q. rewrite app_nil_r, E' in Q.
      rewrite Q. cbn [bind]. rewrite T'. cbn [app]. rewrite Pe. now rewrite <- app_assoc.
    + now rewrite <- app_assoc, Eh, E.
Qed.
