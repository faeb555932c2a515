(* Proofs about EC points and DSA signatures. *)
Require Import Verif.Base Verif.BaseFacts Verif.Text Verif.IntModel Verif.IntSpec Verif.IntProofs Verif.TagSpec Verif.PrimModel Verif.PrimSpec
  Verif.ContModel Verif.ContSpec Verif.ContPath Verif.ContHistSpec Verif.ContFinal Verif.ContEx Verif.PrimProofs Verif.PrimLoad Verif.PrimFinal Verif.EcModel Verif.EcSpec.

(* the integers to_p1363 finds *)
Definition carries (v : value) (r s : Z) : Prop :=
  snd (read_int 0 v) = Ok r /\ snd (read_int 1 (fst (read_int 0 v))) = Ok s.

Definition int_ops : ops := prim_ops (KInt []) (Cls 0 2 [] []).
Lemma field_made n r : exists o, make_value (Fld n no_params Required, int_ops) (APrim (NInt r)) = Ok (VPrim o) /\
  (exists c, contents o = Some c) /\ snd (get_native (KInt []) (Cls 0 2 [] []) o) = Ok (NInt r).
Proof.
  destruct (int_signed_roundtrip r) as (lr & Er & _ & _ & V & _).
  assert (exists o, make (KInt []) (Cls 0 2 [] []) no_params (NInt r) = Ok o /\ t_class (o_tagging o) = 0 /\ o_tagging o = Tagging 0 2 false [] /\
    (exists c, contents o = Some c) /\ snd (get_native (KInt []) (Cls 0 2 [] []) o) = Ok (NInt r)) as (o & M & _ & T & C & G).
  { unfold make, new_obj. change (init_tagging _ no_params) with (Ok (Tagging 0 2 false [])). cbn [bind]. unfold set_value. cbn [as_int]. unfold set_int. rewrite Er.
    eexists. split; [reflexivity|]. split; [reflexivity|]. split; [reflexivity|]. split; [eexists; reflexivity|]. reflexivity. }
  exists o. split; [|auto]. unfold make_value, int_ops. cbn [f_pres x_choice prim_ops x_make f_params f_name default_of]. unfold make_prim. rewrite M. cbn [bind].
  unfold fix_tagging. cbn [tagging_of]. rewrite T. reflexivity.
Qed.
Lemma made_sig r s : exists v, x_make (methods DSA) no_params None (ADict [(tx "r", APrim (NInt r)); (tx "s", APrim (NInt s))]) = Ok v /\ carries v r s.
Proof.
  destruct (field_made (tx "r") r) as (o1 & M1 & (c1 & C1) & G1). destruct (field_made (tx "s") s) as (o2 & M2 & (c2 & C2) & G2).
  change (methods DSA) with (seq_ops (Cls 0 16 [] []) [(Fld (tx "r") no_params Required, int_ops); (Fld (tx "s") no_params Required, int_ops)] false).
  unfold seq_ops. cbn [x_make].
  assert (forall t e v2 m, set_seq [(Fld (tx "r") no_params Required, int_ops); (Fld (tx "s") no_params Required, int_ops)] false 0 (APrim (NInt r)) (VSeq t e (Some [VVoid; v2]) m None)
    = (VSeq t e (Some [VPrim o1; v2]) true None, Ok tt)) as S1.
  { intros. unfold set_seq. cbn [ensure nth_error]. rewrite M1. unfold child_contents, int_ops, prim_ops. cbn [snd x_contents on_prim]. rewrite C1. reflexivity. }
  assert (forall t e v1 m, set_seq [(Fld (tx "r") no_params Required, int_ops); (Fld (tx "s") no_params Required, int_ops)] false 1 (APrim (NInt s)) (VSeq t e (Some [v1; VVoid]) m None)
    = (VSeq t e (Some [v1; VPrim o2]) true None, Ok tt)) as S2.
  { intros. unfold set_seq. cbn [ensure nth_error]. rewrite M2. unfold child_contents, int_ops, prim_ops. cbn [snd x_contents on_prim]. rewrite C2. reflexivity. }
  exists (VSeq (Tagging 0 16 false []) no_enc (Some [VPrim o1; VPrim o2]) true None). split.
  - unfold make_seq. change (init_tagging (Cls 0 16 [] []) no_params) with (Ok (Tagging 0 16 false [])). cbn [bind].
    unfold set_dict, set_keys. change (dict_get _ (f_name (fst (Fld (tx "r") no_params Required, int_ops)))) with (Some (APrim (NInt r))).
    cbn iota. change (set_seq _ _ _ _ (VSeq ?t ?e None ?m None)) with (set_seq [(Fld (tx "r") no_params Required, int_ops); (Fld (tx "s") no_params Required, int_ops)] false 0 (APrim (NInt r)) (VSeq (Tagging 0 16 false []) no_enc (Some [VVoid; VVoid]) false None)).
    rewrite S1. change (dict_get _ (f_name (fst (Fld (tx "s") no_params Required, int_ops)))) with (Some (APrim (NInt s))). cbn iota. rewrite S2. reflexivity.
  - assert (forall t e m a b, through [0%nat] ARead DSA (VSeq t e (Some [VPrim a; b]) m None) =
      (VSeq t e (Some [VPrim (fst (get_native (KInt []) (Cls 0 2 [] []) a)); b]) m None,
       do x <- (do v <- snd (get_native (KInt []) (Cls 0 2 [] []) a); Ok (native_of v)); Ok (RNat x))) as R0.
    { intros. cbn [through]. change (x_get (methods DSA) 0 ?v) with (v, Ok tt : res unit). cbn [inner DSA nth_error snd through perform x_native methods prim_ops on_prim].
      unfold reply. destruct (get_native _ _ a) as [a' ra]. reflexivity. }
    assert (forall t e m a b, through [1%nat] ARead DSA (VSeq t e (Some [b; VPrim a]) m None) =
      (VSeq t e (Some [b; VPrim (fst (get_native (KInt []) (Cls 0 2 [] []) a))]) m None,
       do x <- (do v <- snd (get_native (KInt []) (Cls 0 2 [] []) a); Ok (native_of v)); Ok (RNat x))) as R1.
    { intros. cbn [through]. change (x_get (methods DSA) 1 ?v) with (v, Ok tt : res unit). cbn [inner DSA nth_error snd through perform x_native methods prim_ops on_prim].
      unfold reply. destruct (get_native _ _ a) as [a' ra]. reflexivity. }
    unfold carries, read_int. rewrite R0, G1. cbn [bind native_of fst snd]. rewrite R1, G2. split; reflexivity.
Qed.

Lemma half_split (d : bytes) : d = slice d 0 (len d / 2) ++ slice d (len d / 2) (len d).
Proof.
  unfold slice, len. rewrite Z.sub_0_r, skipn_O. rewrite <- (firstn_skipn (Z.to_nat (Z.of_nat (length d) / 2)) d) at 1. f_equal.
  rewrite firstn_all2; [reflexivity|]. rewrite skipn_length. lia.
Qed.
Lemma halves (d : bytes) : bytes_ok d -> exists a b, d = a ++ b /\ len a = len d / 2 /\ bytes_ok a /\ bytes_ok b /\
  slice d 0 (len d / 2) = a /\ slice d (len d / 2) (len d) = b.
Proof.
  intros H. exists (slice d 0 (len d / 2)), (slice d (len d / 2) (len d)). split; [apply half_split|].
  pose proof H as H'. rewrite (half_split d) in H'. apply bytes_ok_app in H' as [A B].
  split; [|auto]. unfold slice, len. rewrite Z.sub_0_r, skipn_O, firstn_length. lia.
Qed.
Lemma halves_of (a b : bytes) : len a = len b -> slice (a ++ b) 0 (len (a ++ b) / 2) = a /\ slice (a ++ b) (len (a ++ b) / 2) (len (a ++ b)) = b.
Proof.
  intros L. assert (len (a ++ b) / 2 = len a) as -> by (rewrite len_app; lia). unfold slice, len in *. split.
  - rewrite Z.sub_0_r, skipn_O, Nat2Z.id, firstn_app, Nat.sub_diag, firstn_O, app_nil_r. now apply firstn_all2.
  - rewrite Nat2Z.id, skipn_app, skipn_all, Nat.sub_diag, skipn_O, app_nil_l. apply firstn_all2. rewrite app_length. lia.
Qed.

Lemma read_p1363 d : bytes_ok d -> exists a b v, d = a ++ b /\ len a = len d / 2 /\ from_p1363 d = Ok v /\ carries v (be_value a) (be_value b).
Proof.
  intros H. destruct (halves d H) as (a & b & E & L & _ & _ & Sa & Sb). unfold from_p1363. rewrite Sa, Sb, !int_from_bytes_unsigned.
  destruct (made_sig (be_value a) (be_value b)) as (v & M & C). exists a, b, v. auto.
Qed.

(* the width of a number *)
Lemma auto_least v w : 0 <= v -> (auto_width v false <= w <-> 1 <= w /\ v < 256 ^ w).
Proof.
  intros Hv. pose proof (auto_width_unsigned v Hv) as [A B]. pose proof (auto_width_pos v false) as P. cbn zeta in *. split.
  - intros L. split; [lia|]. rewrite pow256 by lia. eapply Z.lt_le_trans; [exact A|]. apply Z.pow_le_mono_r; lia.
  - intros [L1 L2]. destruct (Z.le_gt_cases (auto_width v false) w) as [|G]; [auto|]. exfalso.
    assert (2 <= auto_width v false) as G1 by lia. specialize (B G1). rewrite pow256 in L2 by lia.
    assert (2 ^ (8 * w) <= 2 ^ (8 * (auto_width v false - 1))) by (apply Z.pow_le_mono_r; lia). lia.
Qed.
Lemma write_p1363 v r s : carries v r s -> 0 <= r -> 0 <= s ->
  (forall w, 1 <= w -> r < 256 ^ w -> s < 256 ^ w -> exists d, snd (to_p1363 v (Some w)) = Ok d /\ two_fields w r s d) /\
  (forall w, ~ (1 <= w /\ r < 256 ^ w /\ s < 256 ^ w) -> snd (to_p1363 v (Some w)) = Err ValueError) /\
  (exists w d, snd (to_p1363 v None) = Ok d /\ two_fields w r s d /\ 1 <= w /\ forall w', 1 <= w' -> r < 256 ^ w' -> s < 256 ^ w' -> w <= w').
Proof.
  intros [C1 C2] Hr Hs. destruct (int_to_bytes_unsigned_ok r Hr) as (lr & Er & Okr & _ & Vr & Lr & _).
  destruct (int_to_bytes_unsigned_ok s Hs) as (ls & Es & Oks & _ & Vs & Ls & _).
  assert (forall width, snd (to_p1363 v width) = do w <- match width with None => Ok (Z.max (len lr) (len ls)) | Some w => if w <? Z.max (len lr) (len ls) then Err ValueError else Ok w end;
     Ok (fill_width lr w ++ fill_width ls w)) as T.
  { intros width. unfold to_p1363. destruct (read_int 0 v) as [v1 a]. cbn [fst snd] in *. subst a. cbn [bind]. rewrite Er.
    destruct (read_int 1 v1) as [v2 b]. cbn [fst snd] in *. subst b. cbn [bind]. rewrite Es. reflexivity. }
  assert (forall w, Z.max (len lr) (len ls) <= w -> two_fields w r s (fill_width lr w ++ fill_width ls w)) as F.
  { intros w L. destruct (fill_width_props lr w Okr) as (A1 & A2 & A3). destruct (fill_width_props ls w Oks) as (B1 & B2 & B3).
    exists (fill_width lr w), (fill_width ls w). split; [reflexivity|]. split; (split; [assumption|]); (split; [lia|congruence]). }
  rewrite Lr, Ls in *. split; [|split].
  - intros w H1 H2 H3. assert (auto_width r false <= w) by (apply auto_least; auto). assert (auto_width s false <= w) by (apply auto_least; auto).
    rewrite T. destruct (Z.ltb_spec w (Z.max (auto_width r false) (auto_width s false))); [lia|]. cbn [bind]. eexists. split; [reflexivity|]. apply F. lia.
  - intros w N. rewrite T. destruct (Z.ltb_spec w (Z.max (auto_width r false) (auto_width s false))); [reflexivity|]. exfalso. apply N.
    destruct (proj1 (auto_least r w Hr)); [lia|]. destruct (proj1 (auto_least s w Hs)); [lia|]. auto.
  - exists (Z.max (auto_width r false) (auto_width s false)). rewrite T. cbn [bind]. eexists. split; [reflexivity|]. split; [apply F; lia|].
    pose proof (auto_width_pos r false). split; [lia|]. intros w' H1 H2 H3.
    assert (auto_width r false <= w') by (apply auto_least; auto). assert (auto_width s false <= w') by (apply auto_least; auto). lia.
Qed.

Lemma two_fields_read n r s d : two_fields n r s d -> exists v, from_p1363 d = Ok v /\ carries v r s.
Proof.
  intros (x & y & -> & (_ & Lx & <-) & (_ & Ly & <-)). destruct (halves_of x y) as [Sx Sy]; [congruence|].
  unfold from_p1363. rewrite Sx, Sy, !int_from_bytes_unsigned. apply made_sig.
Qed.
Lemma back_p1363 v r s width d : carries v r s -> 0 <= r -> 0 <= s -> snd (to_p1363 v width) = Ok d ->
  exists v', from_p1363 d = Ok v' /\ carries v' r s.
Proof.
  intros C Hr Hs T. destruct (write_p1363 v r s C Hr Hs) as (A & B & (w0 & d0 & T0 & F0 & _)). destruct width as [w|].
  - assert (1 <= w /\ r < 256 ^ w /\ s < 256 ^ w) as (X1 & X2 & X3).
    { destruct (Z.ltb_spec w 1); [rewrite B in T by lia; discriminate|]. destruct (Z.ltb_spec r (256 ^ w)); [|rewrite B in T by lia; discriminate].
      destruct (Z.ltb_spec s (256 ^ w)); [auto|rewrite B in T by lia; discriminate]. }
    destruct (A w X1 X2 X3) as (d' & T' & F'). rewrite T in T'. inversion T'; subst. eapply two_fields_read; eauto.
  - rewrite T in T0. inversion T0; subst. eapply two_fields_read; eauto.
Qed.
Lemma p1363_back d n : bytes_ok d -> 1 <= n -> len d = 2 * n -> exists v, from_p1363 d = Ok v /\ snd (to_p1363 v (Some n)) = Ok d.
Proof.
  intros H Hn L. destruct (read_p1363 d H) as (a & b & v & E & La & F & C). exists v. split; [exact F|].
  assert (len a = n) as La' by lia. assert (len b = n) as Lb by (rewrite E, len_app in L; lia). rewrite E in H. apply bytes_ok_app in H as [Ha Hb].
  pose proof (be_value_bound a Ha) as Ba. pose proof (be_value_bound b Hb) as Bb. rewrite La', Lb in *.
  destruct (write_p1363 v _ _ C ltac:(lia) ltac:(lia)) as (W & _). destruct (W n Hn ltac:(lia) ltac:(lia)) as (d' & T & (x & y & -> & (Ox & Lx & Vx) & (Oy & Ly & Vy))).
  rewrite T. f_equal. rewrite E. f_equal; apply be_value_inj; auto; unfold len in *; lia.
Qed.

(* ---- signatures that were loaded ---- *)
Lemma wf_dsa : wf DSA.
Proof.
  split; [now apply cls_small|]. split; [discriminate|]. split; [|split].
  - repeat constructor; cbn; intros H; repeat destruct H as [H|H]; try discriminate; auto.
  - cbn [distinct]. split; [|split]; auto; intros N; exfalso; apply N; reflexivity.
  - cbn [all1 fst snd f_params fpres f_pres]. split; [|split; [|exact I]]; (split; [exact wf_int|]); (split; [|exact I]); apply take_plain; auto; apply params_none.
Qed.
Definition sig_value (r s : Z) : aval := ADict [(tx "r", num r); (tx "s", num s)].
Lemma sig_denotes r s : denotes DSA (sig_value r s) (sig_value r s).
Proof.
  split; [discriminate|]. split.
  - intros n x H. cbn in H. destruct H as [H|[H|[]]]; injection H as <- <-; cbn; auto.
  - cbn [all2 fst snd fname f_name fpres f_pres]. split; [|split; [|exact I]]; (split; [reflexivity|]); cbn; repeat split; try discriminate; tauto.
Qed.
Lemma sig_sim r s a : sim DSA (sig_value r s) a -> a = sig_value r s.
Proof.
  intros S. destruct a as [| |l| | |]; try easy. cbn [DSA sim sig_value] in S.
  destruct l as [|[n1 a1] [|[n2 a2] [|]]]; cbn [all3] in S; try tauto. destruct S as ((_ & N1 & S1) & (_ & N2 & S2) & _).
  cbn [fst snd fname f_name fpres f_pres] in *. subst. unfold num in *. destruct a1; try easy. destruct a2; try easy. cbn [sim snd] in *.
  destruct S1 as (_ & _ & S1). destruct S2 as (_ & _ & S2). cbn in S1, S2. subst. reflexivity.
Qed.
Lemma loaded_sig r s d v : der DSA (stags DSA no_params) (sig_value r s) d -> cload DSA no_params d true = Ok v -> carries v r s.
Proof.
  intros D L. assert (taggable DSA no_params) as T by (apply take_plain; auto; apply params_none).
  destruct (fresh_follows DSA no_params _ _ d v wf_dsa T (sig_denotes r s) D (or_intror L)) as (a & S & F).
  apply sig_sim in S. subst a.
  destruct (F [] I) as (b & Lb & _ & R). inversion Lb; subst. clear Lb.
  destruct (R [0%nat] (SPrim (KInt []) (Cls 0 2 [] [])) (ftags (Fld (tx "r") no_params Required, INTEGER)) (num r)) as ((x & Ex & Sx) & _).
  { refine (S_field _ _ _ (Fld (tx "r") no_params Required, INTEGER) [] [] (tx "r") (num r) _ _ _ _ _ _ _); [reflexivity|discriminate|apply S_here]. }
  assert (safe DSA [([0%nat], ARead)] (sig_value r s)) as Sf by (apply reading_safe; reflexivity).
  destruct (F _ Sf) as (b & Lb & _ & R2). apply reading_leads in Lb; [|reflexivity]. subst b.
  destruct (R2 [1%nat] (SPrim (KInt []) (Cls 0 2 [] [])) (ftags (Fld (tx "s") no_params Required, INTEGER)) (num s)) as ((y & Ey & Sy) & _).
  { refine (S_field _ _ _ (Fld (tx "s") no_params Required, INTEGER) [] [(tx "r", num r)] (tx "s") (num s) _ _ _ _ _ _ _); [reflexivity|discriminate|apply S_here]. }
  specialize (Sx eq_refl). specialize (Sy eq_refl). destruct Sx as (v1 & V1 & ->). destruct Sy as (v2 & V2 & ->). cbn in V1, V2. subst v1 v2.
  cbn [after] in Ex, Ey. unfold carries, read_int. cbn [native_of] in *.
  destruct (through [0%nat] ARead DSA v) as [w1 z1]. cbn [fst snd] in *. subst z1. cbn [fst snd].
  destruct (through [1%nat] ARead DSA w1) as [w2 z2]. cbn [fst snd] in *. subst z2. auto.
Qed.

(* ---- points ---- *)
Definition point_kind (k : kind) : Prop := k = KOctets \/ k = KOctetBits.
(* the octets a point object stands for *)
Definition point_octets (k : kind) (c : pcls) (o : obj) (d : bytes) : Prop := snd (get_native k c o) = Ok (NBytes d).

Lemma coords_read k c o n x y d : point_octets k c o d -> uncompressed n x y d -> snd (to_coords k c o) = Ok (x, y).
Proof.
  intros P (t & -> & a & b & -> & (_ & La & <-) & (_ & Lb & <-)). unfold point_octets in P. unfold to_coords.
  destruct (get_native k c o) as [o' r]. cbn [snd] in P. subst r. cbn [snd].
  assert (slice (4 :: a ++ b) 1 (len (4 :: a ++ b)) = a ++ b) as ->.
  { unfold slice, len. change (Z.to_nat 1) with 1%nat. cbn [skipn]. apply firstn_all2. cbn [length]. lia. }
  destruct (halves_of a b) as [Sa Sb]; [congruence|]. change (eqb_bytes (slice (4 :: a ++ b) 0 1) [4]) with true. cbv beta iota.
  rewrite Sa, Sb, !int_from_bytes_unsigned. reflexivity.
Qed.
Lemma coords_refused k c o d : point_octets k c o d -> hd 0 d <> 4 -> snd (to_coords k c o) = Err ValueError.
Proof.
  intros P H. unfold point_octets in P. unfold to_coords. destruct (get_native k c o) as [o' r]. cbn [snd] in P. subst r. cbn [snd].
  destruct d as [|b d]; [reflexivity|]. cbn [hd] in H. unfold slice. change (Z.to_nat (1 - 0)) with 1%nat. cbn [skipn firstn eqb_bytes Z.to_nat].
  destruct (Z.eqb_spec b 4); [easy|]. reflexivity.
Qed.
Lemma made_point k c d o : point_kind k -> make k c no_params (NBytes d) = Ok o -> point_octets k c o d.
Proof.
  intros K H. unfold make in H. apply bind_ok in H as (o0 & N & H).
  unfold new_obj in N. destruct (init_tagging c no_params); [|discriminate]. cbn [bind] in N. injection N as <-.
  destruct K as [-> | ->]; cbn in H; inversion H; subst; reflexivity.
Qed.
(* what from_coords puts into the object *)
Lemma from_coords_ok octets_of k c x y o : from_coords octets_of k c x y = Ok o ->
  exists n d, uncompressed n x y d /\ n = Z.max (octets_of x) (octets_of y) /\ make k c no_params (NBytes d) = Ok o.
Proof.
  unfold from_coords, log_octets. intros H. destruct (Z.leb_spec x 0); [discriminate|]. destruct (Z.leb_spec y 0); [discriminate|]. cbn [bind] in H.
  set (n := Z.max (octets_of x) (octets_of y)) in *.
  destruct (Z.ltb_spec n 0) as [Hn|Hn]. { unfold int_to_bytes, py_to_bytes in H. destruct (Z.ltb_spec n 0); [discriminate|lia]. }
  destruct (int_to_bytes_width x n ltac:(lia) Hn) as [X1 X2]. destruct (int_to_bytes_width y n ltac:(lia) Hn) as [Y1 Y2].
  destruct (Z.ltb_spec x (256 ^ n)); [|rewrite X2 in H by lia; discriminate]. destruct X1 as (a & Ea & Oa & La & Va); [lia|]. rewrite Ea in H. cbn [bind] in H.
  destruct (Z.ltb_spec y (256 ^ n)); [|rewrite Y2 in H by lia; discriminate]. destruct Y1 as (b & Eb & Ob & Lb & Vb); [lia|]. rewrite Eb in H. cbn [bind] in H.
  exists n, (4 :: a ++ b). split; [|auto]. exists (a ++ b). split; [reflexivity|]. exists a, b. unfold field_octets. auto 10.
Qed.
Lemma uncompressed_bytes n x y d : uncompressed n x y d -> bytes_ok d.
Proof. intros (t & -> & a & b & -> & (A & _) & (B & _)). constructor; [unfold byte_ok; lia|]. apply bytes_ok_app; auto. Qed.
Lemma uncompressed_len n x y d : uncompressed n x y d -> len d = 1 + 2 * n.
Proof. intros (t & -> & a & b & -> & (_ & A & _) & (_ & B & _)). rewrite len_cons, len_app. lia. Qed.
Lemma from_coords_sound octets_of k c x y o : point_kind k -> from_coords octets_of k c x y = Ok o ->
  exists n d, uncompressed n x y d /\ point_octets k c o d /\ snd (to_coords k c o) = Ok (x, y).
Proof.
  intros K H. destruct (from_coords_ok _ _ _ _ _ _ H) as (n & d & U & _ & M). exists n, d. pose proof (made_point _ _ _ _ K M) as P.
  split; [exact U|]. split; [exact P|]. eapply coords_read; eauto.
Qed.
Lemma point_reload octets_of k c t x y o e : point_kind k -> init_tagging c no_params = Ok t -> tagging_ok t -> tags_compatible c no_params ->
  from_coords octets_of k c x y = Ok o -> snd (dump k c o false) = Ok e -> len e < 2 ^ 1008 ->
  exists o2, load k c no_params e true = Ok o2 /\ snd (to_coords k c o2) = Ok (x, y).
Proof.
  intros K I T C H D L. destruct (from_coords_ok _ _ _ _ _ _ H) as (n & d & U & _ & M).
  assert (kind_ok k) as KO by (destruct K as [-> | ->]; exact Logic.I).
  assert (holds k None (NBytes d)) as HO by (destruct K as [-> | ->]; cbn; eapply uncompressed_bytes; eauto).
  destruct (construct_dump_load k c no_params t (NBytes d) KO I T C HO) as (o' & o'' & cc & dd & M' & D' & _ & R).
  rewrite M in M'. inversion M'; subst o'. rewrite D' in D. cbn [snd] in D. inversion D; subst dd.
  destruct (R L) as (_ & o2 & v' & Lo & _ & _ & G & S & _). exists o2. split; [exact Lo|].
  assert (v' = NBytes d) as -> by (destruct K as [-> | ->]; cbn in S; auto). eapply coords_read; eauto.
Qed.
(* which pairs are accepted *)
Lemma from_coords_iff octets_of k c t x y : point_kind k -> init_tagging c no_params = Ok t ->
  0 <= octets_of x -> 0 <= octets_of y ->
  ((exists o, from_coords octets_of k c x y = Ok o) <-> 0 < x /\ 0 < y /\ Z.max x y < 256 ^ Z.max (octets_of x) (octets_of y)).
Proof.
  intros K I Hx Hy. split.
  - intros (o & H). destruct (from_coords_ok _ _ _ _ _ _ H) as (n & d & (u & _ & a & b & _ & (A1 & A2 & A3) & (B1 & B2 & B3)) & -> & _).
    pose proof (be_value_bound a A1) as Ba. pose proof (be_value_bound b B1) as Bb. rewrite A2 in Ba. rewrite B2 in Bb.
    unfold from_coords, log_octets in H. destruct (Z.leb_spec x 0); [discriminate|]. destruct (Z.leb_spec y 0); [discriminate|]. lia.
  - intros (X & Y & B). unfold from_coords, log_octets. destruct (Z.leb_spec x 0); [lia|]. destruct (Z.leb_spec y 0); [lia|]. cbn [bind].
    set (n := Z.max (octets_of x) (octets_of y)) in *. destruct (int_to_bytes_width x n ltac:(lia) ltac:(lia)) as [(a & Ea & _) _]; [lia|].
    destruct (int_to_bytes_width y n ltac:(lia) ltac:(lia)) as [(b & Eb & _) _]; [lia|]. rewrite Ea, Eb. cbn [bind].
    unfold make, new_obj. rewrite I. cbn [bind]. destruct K as [-> | ->]; cbn; eauto.
Qed.
(* with the logarithm computed without rounding errors *)
Definition exact_octets (f : Z -> Z) : Prop := forall x, 0 < x -> 0 <= f x /\ x <= 256 ^ f x /\ (forall m, 0 <= m -> x <= 256 ^ m -> f x <= m).
Lemma exact_accepts f k c t x y : exact_octets f -> point_kind k -> init_tagging c no_params = Ok t -> 0 < x -> 0 < y ->
  ((exists o, from_coords f k c x y = Ok o) <-> ~ exists m, 0 <= m /\ Z.max x y = 256 ^ m).
Proof.
  intros E K I X Y. destruct (E x X) as (X0 & X1 & X2). destruct (E y Y) as (Y0 & Y1 & Y2).
  assert (x <= 256 ^ Z.max (f x) (f y)) by (eapply Z.le_trans; [exact X1|]; apply Z.pow_le_mono_r; lia).
  assert (y <= 256 ^ Z.max (f x) (f y)) by (eapply Z.le_trans; [exact Y1|]; apply Z.pow_le_mono_r; lia).
  rewrite (from_coords_iff f k c t x y K I X0 Y0). split.
  - intros (_ & _ & B) (m & M & Q). assert (f x <= m) by (apply X2; lia). assert (f y <= m) by (apply Y2; lia).
    assert (256 ^ Z.max (f x) (f y) <= 256 ^ m) by (apply Z.pow_le_mono_r; lia). lia.
  - intros N. split; [exact X|]. split; [exact Y|]. destruct (Z.eq_dec (Z.max x y) (256 ^ Z.max (f x) (f y))) as [Q|Q]; [|lia].
    exfalso. apply N. exists (Z.max (f x) (f y)). split; [lia|exact Q].
Qed.
Definition log_up (x : Z) : Z := (Z.log2_up x + 7) / 8.
Lemma log_up_exact : exact_octets log_up.
Proof.
  intros x X. unfold log_up. pose proof (Z.log2_up_nonneg x) as L0. set (l := Z.log2_up x) in *.
  assert (Hn : 0 <= (l + 7) / 8) by (apply Z.div_pos; lia). split; [exact Hn|].
  assert (x <= 2 ^ l) as L1. { destruct (Z.eq_dec x 1) as [->|]. { subst l. cbn. lia. } apply Z.log2_up_spec. lia. }
  split.
  - rewrite pow256 by lia. eapply Z.le_trans; [exact L1|]. apply Z.pow_le_mono_r; lia.
  - intros m M Q. rewrite pow256 in Q by lia. assert (l <= 8 * m); [|lia]. apply (Z.log2_up_le_pow2 x (8 * m)); lia.
Qed.

(* what to_coords makes of any octets *)
Lemma coords_any k c o d : bytes_ok d -> point_octets k c o d ->
  (forall x y, snd (to_coords k c o) = Ok (x, y) -> len d mod 2 = 1 -> uncompressed ((len d - 1) / 2) x y d) /\
  (hd 0 d <> 4 -> snd (to_coords k c o) = Err ValueError).
Proof.
  intros B P. split; [|intros H; exact (coords_refused k c o d P H)]. intros x y H L.
  destruct d as [|b d]; [cbn in L; discriminate|]. destruct (Z.eq_dec b 4) as [->|N]; [|rewrite (coords_refused k c o (b :: d) P N) in H; discriminate].
  unfold point_octets in P. unfold to_coords in H. destruct (get_native k c o) as [o' r]. cbn [snd] in P. subst r. cbn [snd] in H.
  change (eqb_bytes (slice (4 :: d) 0 1) [4]) with true in H. cbv beta iota in H.
  assert (slice (4 :: d) 1 (len (4 :: d)) = d) as Es.
  { unfold slice, len. change (Z.to_nat 1) with 1%nat. cbn [skipn]. apply firstn_all2. cbn [length]. lia. }
  rewrite Es, !int_from_bytes_unsigned in H. inversion H; subst x y. clear H. rewrite len_cons in L |- *.
  exists d. split; [reflexivity|]. inversion B as [|? ? _ Bd]; subst. destruct (halves d Bd) as (a & b & E & La & Oa & Ob & -> & ->).
  exists a, b. split; [exact E|]. assert (len d = len a + len b) as Lb by (rewrite E; apply len_app). unfold field_octets.
  replace ((1 + len d - 1) / 2) with (len a) by lia. assert (len b = len a) by lia. auto 10.
Qed.

Lemma sig_encoded : der DSA (stags DSA no_params) (sig_value 100 5) [48; 6; 2; 1; 100; 2; 1; 5].
Proof.
  assert (Ti : tagging_ok (stags INTEGER no_params)) by (apply tags_c; [now apply cls_small|apply params_none]).
  exists [[2; 1; 100]; [2; 1; 5]]. split.
  { apply constructed_at; [apply tags_c; [now apply cls_small|apply params_none]|reflexivity|short]. }
  cbn [all3 DSA sig_value fst snd fname f_name fpres f_pres]. split; [|split; [|exact I]]; (split; [reflexivity|]); apply int_at; auto; try lia; try reflexivity; short.
Qed.
