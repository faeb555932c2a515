Require Import Verif.Base Verif.BaseFacts Verif.IntModel Verif.IntSpec Verif.IntProofs.
Require Import Verif.ParserSpec Verif.ParserProofs Verif.ParserFacts Verif.Text Verif.OidModel Verif.OidSpec.

Lemma land127' a : Z.land 127 a = a mod 128.
Proof. rewrite Z.land_comm. apply land127. Qed.

Lemma lor128 a : 0 <= a < 128 -> Z.lor 128 a = 128 + a.
Proof. intros. apply lor_disjoint with (k := 7); [lia|change (2 ^ 7) with 128; lia|reflexivity]. Qed.

Lemma land128_hi d : 0 <= d < 128 -> Z.land (128 + d) 128 = 128.
Proof.
  intros. rewrite <- lor128 by auto. rewrite Z.land_comm, Z.land_lor_distr_r.
  assert (E : Z.land 128 d = 0).
  { apply Z.bits_inj'. intros n Hn. rewrite Z.land_spec, Z.bits_0. change 128 with (2 ^ 7).
    rewrite Z.pow2_bits_eqb by lia. destruct (Z.eqb_spec 7 n) as [<-|]; auto. cbn [andb].
    destruct (Z.eq_dec d 0) as [->|]; [apply Z.bits_0|]. apply Z.bits_above_log2; [lia|].
    apply Z.log2_lt_pow2; [lia|]. change (2 ^ 7) with 128. lia. }
  rewrite E. reflexivity.
Qed.

Lemma land128_lo d : 0 <= d < 128 -> Z.land d 128 = 0.
Proof.
  intros. apply Z.bits_inj'. intros n Hn. rewrite Z.land_spec, Z.bits_0. change 128 with (2 ^ 7).
  rewrite Z.pow2_bits_eqb by lia. destruct (Z.eqb_spec 7 n) as [<-|]; [|apply andb_false_r].
  rewrite andb_true_r.
  destruct (Z.eq_dec d 0) as [->|]; [apply Z.bits_0|]. apply Z.bits_above_log2; [lia|].
  apply Z.log2_lt_pow2; [lia|]. change (2 ^ 7) with 128. lia.
Qed.

Lemma oid_arc_loop_spec fuel : forall part acc, 0 <= part < 2 ^ Z.of_nat fuel ->
  exists ds, Forall (fun d => 0 <= d < 128) ds /\ b128_value ds = part /\
    (match ds with [] => True | d :: _ => d <> 0 end) /\
    oid_arc_loop fuel part acc = map (fun d => 128 + d) ds ++ acc.
Proof.
  induction fuel as [|f IH]; intros part acc Hp.
  - change (2 ^ Z.of_nat 0) with 1 in Hp. assert (part = 0) by lia. subst. exists []. repeat split; auto.
  - cbn [oid_arc_loop]. destruct (Z.ltb_spec 0 part).
    + rewrite shr7, land127', lor128 by lia.
      rewrite Nat2Z.inj_succ, Z.pow_succ_r in Hp by lia.
      destruct (IH (part / 128) ((128 + part mod 128) :: acc)) as (ds & D1 & D2 & D3 & D4); [lia|].
      exists (ds ++ [part mod 128]). repeat split.
      * apply Forall_app; split; auto. constructor; [lia|constructor].
      * rewrite b128_value_app, D2. cbn [b128_value]. autorewrite with len.
        change (128 ^ (1 + 0)) with 128. change (128 ^ 0) with 1. lia.
      * destruct ds as [|d ds]; cbn [app]; auto. cbn [b128_value] in D2. lia.
      * rewrite D4, map_app, <- app_assoc. reflexivity.
    + assert (part = 0) by lia. subst. exists []. repeat split; auto.
Qed.

Lemma oid_arc_spec p : 0 <= p -> b128_octets p (oid_arc p).
Proof.
  intros Hp. unfold oid_arc. rewrite shr7, land127'.
  pose proof (bit_length_spec p) as (B0 & B1 & _).
  destruct (oid_arc_loop_spec (Z.to_nat (bit_length p)) (p / 128) [p mod 128]) as (ds & D1 & D2 & D3 & D4).
  { rewrite Z2Nat.id by lia. lia. }
  exists ds, (p mod 128). repeat split; auto.
  - apply Forall_app; split; auto. constructor; [lia|constructor].
  - rewrite b128_value_app, D2. cbn [b128_value]. autorewrite with len.
    change (128 ^ (1 + 0)) with 128. change (128 ^ 0) with 1. lia.
Qed.

Lemma oid_parts_rest rest : forall index first c, 2 <= index -> Forall (fun a => 0 <= a) rest ->
  oid_parts (map dec rest) index first c = (c ++ concat (map oid_arc rest), None).
Proof.
  induction rest as [|a rest IH]; intros index first c Hi H; cbn [map oid_parts concat].
  - now rewrite app_nil_r.
  - inversion H; subst. rewrite py_int_dec by auto.
    destruct (Z.eqb_spec index 0); [lia|]. destruct (Z.eqb_spec index 1); [lia|].
    rewrite IH by (auto; lia). now rewrite <- app_assoc.
Qed.

Lemma split_dotted arcs : arcs <> [] -> Forall (fun a => 0 <= a) arcs ->
  split_on 46 (dotted_text arcs) = map dec arcs.
Proof.
  intros N H. apply split_join; [destruct arcs; easy|].
  rewrite Forall_map. eapply Forall_impl; [|exact H]. cbv beta; intros a Ha. apply dec_not_in; lia.
Qed.

Lemma legal_nonneg arcs : legal_oid arcs -> Forall (fun a => 0 <= a) arcs.
Proof.
  destruct arcs as [|a0 [|a1 rest]]; try easy. intros (H1 & H2 & _ & H3). repeat constructor; auto. lia.
Qed.

Lemma oid_octets_concat s : Forall (fun a => 0 <= a) s -> oid_octets s (concat (map oid_arc s)).
Proof. induction 1; cbn; constructor; auto. now apply oid_arc_spec. Qed.

Lemma oid_encode_legal arcs : legal_oid arcs ->
  exists c, oid_encode (dotted_text arcs) = Ok c /\ oid_octets (subidentifiers arcs) c.
Proof.
  intros H. pose proof (legal_nonneg _ H) as Hn. unfold oid_encode, oid_set_parts.
  rewrite split_dotted by (auto; destruct arcs; easy).
  destruct arcs as [|a0 [|a1 rest]]; try easy. destruct H as (H1 & H2 & H3 & H4).
  cbn [map oid_parts]. rewrite !py_int_dec by lia. rewrite Z.eqb_refl.
  change (0 + 1 =? 0) with false. change (0 + 1 =? 1) with true. cbn iota.
  destruct (Z.ltb_spec 2 a0); [lia|]. destruct ((a0 <? 2) && (40 <=? a1)) eqn:E; [lia|].
  rewrite oid_parts_rest by (auto; lia). eexists; split; [reflexivity|]. cbn [app subidentifiers].
  replace (a0 * 40 + a1) with (40 * a0 + a1) by lia.
  constructor; [apply oid_arc_spec; lia|]. now apply oid_octets_concat.
Qed.

Lemma dotted_hi ds : forall p out r, Forall (fun d => 0 <= d < 128) ds ->
  dotted_loop (map (fun d => 128 + d) ds ++ r) p out = dotted_loop r (p * 128 ^ len ds + b128_value ds) out.
Proof.
  induction ds as [|d ds IH]; intros p out r H.
  - cbn [map app b128_value]. autorewrite with len. change (128 ^ 0) with 1. f_equal. lia.
  - inversion H; subst. cbn [map app dotted_loop]. rewrite land128_hi by auto. rewrite land127.
    change (128 =? 0) with false. cbn iota. rewrite IH by auto. cbn [b128_value]. autorewrite with len.
    rewrite Z.pow_add_r by (pose proof (len_nonneg ds); lia). change (128 ^ 1) with 128.
    f_equal. replace ((128 + d) mod 128) with d by lia. lia.
Qed.

Definition dotted_item (s : Z) (out : list text) : list text :=
  match out with
  | [] => if 80 <=? s then [dec 2; dec (s - 80)] else if 40 <=? s then [dec 1; dec (s - 40)] else [dec 0; dec s]
  | _ => [dec s]
  end.

Lemma dotted_sub s l r out : b128_octets s l ->
  dotted_loop (l ++ r) 0 out = dotted_loop r 0 (out ++ dotted_item s out).
Proof.
  intros (hi & lo & -> & F & _ & V). rewrite <- app_assoc. apply Forall_app in F as [F1 F2].
  inversion F2; subst. rewrite dotted_hi by auto. cbn [app dotted_loop].
  rewrite land128_lo by auto. rewrite Z.eqb_refl, land127.
  rewrite Z.mod_small by lia.
  assert (E : (0 * 128 ^ len hi + b128_value hi) * 128 + lo = b128_value (hi ++ [lo])).
  { rewrite b128_value_app. cbn [b128_value]. autorewrite with len.
    change (128 ^ (1 + 0)) with 128. change (128 ^ 0) with 1. lia. }
  rewrite E. reflexivity.
Qed.

Lemma dotted_rest s : forall c out, oid_octets s c -> out <> [] ->
  dotted_loop c 0 out = out ++ map dec s.
Proof.
  induction s as [|a s IH]; intros c out H N; inversion H; subst.
  - cbn. now rewrite app_nil_r.
  - rewrite (dotted_sub a) by auto. rewrite IH; auto.
    + destruct out; [easy|]. cbn [dotted_item map]. now rewrite <- app_assoc.
    + destruct out; easy.
Qed.

(* the arcs of a non-empty list of sub-identifiers *)
Definition arcs_of (s : list Z) : list Z :=
  match s with
  | [] => []
  | a :: r => (if 80 <=? a then [2; a - 80] else if 40 <=? a then [1; a - 40] else [0; a]) ++ r
  end.

Lemma dotted_octets s c : s <> [] -> oid_octets s c -> oid_dotted c = dotted_text (arcs_of s).
Proof.
  intros N H. destruct s as [|a s]; [easy|]. inversion H; subst. unfold oid_dotted, dotted_text.
  rewrite (dotted_sub a) by auto. cbn [app dotted_item arcs_of].
  f_equal. rewrite (dotted_rest s); auto.
  - rewrite map_app. f_equal. destruct (80 <=? a); [reflexivity|]. destruct (40 <=? a); reflexivity.
  - destruct (80 <=? a); [easy|]. destruct (40 <=? a); easy.
Qed.

Lemma arcs_of_subids arcs : legal_oid arcs -> arcs_of (subidentifiers arcs) = arcs.
Proof.
  destruct arcs as [|a0 [|a1 rest]]; try easy. intros (H1 & H2 & H3 & _). cbn [subidentifiers arcs_of].
  destruct (Z.leb_spec 80 (40 * a0 + a1)).
  - assert (a0 = 2) by lia. subst. cbn [app]. do 2 f_equal. lia.
  - destruct (Z.leb_spec 40 (40 * a0 + a1)).
    + assert (a0 = 1) by lia. subst. cbn [app]. do 2 f_equal. lia.
    + assert (a0 = 0) by lia. subst. cbn [app]. do 2 f_equal.
Qed.

Lemma subids_arcs_of s : s <> [] -> Forall (fun a => 0 <= a) s ->
  legal_oid (arcs_of s) /\ subidentifiers (arcs_of s) = s.
Proof.
  destruct s as [|a s]; [easy|]. intros _ H. inversion H; subst. cbn [arcs_of].
  destruct (Z.leb_spec 80 a); [|destruct (Z.leb_spec 40 a)]; cbn [app legal_oid subidentifiers];
    (split; [repeat split; auto; lia|f_equal; lia]).
Qed.

Lemma oid_octets_nonneg s c : oid_octets s c -> Forall (fun a => 0 <= a) s.
Proof.
  induction 1 as [|s l r c (hi & lo & _ & F & _ & V) H IH]; constructor; auto.
  pose proof (b128_value_bound _ F). lia.
Qed.

Lemma dotted_text_inj a b : a <> [] -> b <> [] -> Forall (fun x => 0 <= x) a -> Forall (fun x => 0 <= x) b ->
  dotted_text a = dotted_text b -> a = b.
Proof.
  intros Na Nb Ha Hb E. assert (E2 : map dec a = map dec b).
  { rewrite <- !split_dotted by auto. congruence. }
  clear E Na Nb. revert b Hb E2. induction Ha as [|x a Hx Ha IH]; intros [|y b] Hb E; try easy.
  inversion Hb; subst. cbn in E. injection E as E1 E2. f_equal; auto. now apply dec_inj.
Qed.

Lemma oid_octets_unique s : forall c1 c2, oid_octets s c1 -> oid_octets s c2 -> c1 = c2.
Proof.
  induction s as [|a s IH]; intros c1 c2 H1 H2; inversion H1; inversion H2; subst; auto.
  f_equal; auto. clear - H3 H8.
  destruct H3 as (h1 & l1 & -> & F1 & M1 & V1), H8 as (h2 & l2 & -> & F2 & M2 & V2).
  assert (E : h1 ++ [l1] = h2 ++ [l2]).
  { assert (Z.le 0 a) by (subst a; apply b128_value_bound; auto).
    assert (K : forall h l h' l', Forall (fun d => 0 <= d < 128) (h ++ [l]) -> Forall (fun d => 0 <= d < 128) (h' ++ [l']) ->
      (match h' with [] => True | d :: _ => d <> 0 end) -> b128_value (h ++ [l]) = b128_value (h' ++ [l']) ->
      (length (h' ++ [l']) <= length (h ++ [l]))%nat).
    { intros h l h' l' A B C D. destruct h' as [|d h']; [rewrite !app_length; cbn; lia|].
      apply b128_len_mono; auto. }
    apply b128_digits_unique; auto; [|congruence].
    pose proof (K h1 l1 h2 l2). pose proof (K h2 l2 h1 l1).
    specialize (H0 F1 F2 M2 ltac:(congruence)). specialize (H1 F2 F1 M1 ltac:(congruence)). lia. }
  apply app_inj_tail in E as [-> ->]. reflexivity.
Qed.

(* ---- property lemmas ---- *)
Lemma oid_roundtrip arcs : legal_oid arcs -> exists c,
  oid_encode (dotted_text arcs) = Ok c /\ oid_octets (subidentifiers arcs) c /\
  oid_dotted c = dotted_text arcs.
Proof.
  intros H. destruct (oid_encode_legal arcs H) as (c & E & O). exists c. repeat split; auto.
  rewrite (dotted_octets (subidentifiers arcs)); auto.
  - now rewrite arcs_of_subids.
  - destruct arcs as [|? [|? ?]]; easy.
Qed.

Lemma legal_nonnil arcs : legal_oid arcs -> arcs <> [].
Proof. destruct arcs; easy. Qed.

Lemma oid_encode_inj a b c : legal_oid a -> legal_oid b ->
  oid_encode (dotted_text a) = Ok c -> oid_encode (dotted_text b) = Ok c -> a = b.
Proof.
  intros Ha Hb Ea Eb. destruct (oid_roundtrip a Ha) as (ca & Ea' & _ & Da).
  destruct (oid_roundtrip b Hb) as (cb & Eb' & _ & Db).
  apply dotted_text_inj; auto using legal_nonnil, legal_nonneg. congruence.
Qed.

Lemma oid_decode_canonical s c : s <> [] -> oid_octets s c ->
  exists arcs, legal_oid arcs /\ subidentifiers arcs = s /\ oid_dotted c = dotted_text arcs /\
    oid_encode (dotted_text arcs) = Ok c.
Proof.
  intros N H. pose proof (oid_octets_nonneg _ _ H) as Hn.
  destruct (subids_arcs_of s N Hn) as (L & S). exists (arcs_of s).
  split; [auto|split; [auto|split]].
  - now apply dotted_octets.
  - destruct (oid_encode_legal _ L) as (c' & E & O). rewrite S in O.
    now rewrite (oid_octets_unique _ _ _ H O).
Qed.

Lemma oid_decode_inj s1 s2 c1 c2 : s1 <> [] -> s2 <> [] -> oid_octets s1 c1 -> oid_octets s2 c2 ->
  oid_dotted c1 = oid_dotted c2 -> c1 = c2.
Proof.
  intros N1 N2 H1 H2 E.
  destruct (oid_decode_canonical s1 c1 N1 H1) as (a1 & _ & _ & D1 & E1).
  destruct (oid_decode_canonical s2 c2 N2 H2) as (a2 & _ & _ & D2 & E2).
  rewrite D1, D2 in E. rewrite E in E1. congruence.
Qed.

Lemma oid_parts_err_illegal a0 a1 rest : 0 <= a0 -> 0 <= a1 -> Forall (fun a => 0 <= a) rest ->
  ~ legal_oid (a0 :: a1 :: rest) -> oid_encode (dotted_text (a0 :: a1 :: rest)) = Err ValueError.
Proof.
  intros H0 H1 H N. unfold oid_encode, oid_set_parts.
  rewrite split_dotted by (auto; easy).
  cbn [map oid_parts]. rewrite !py_int_dec by lia. rewrite Z.eqb_refl.
  change (0 + 1 =? 0) with false. change (0 + 1 =? 1) with true. cbn iota.
  destruct (Z.ltb_spec 2 a0); [reflexivity|]. destruct ((a0 <? 2) && (40 <=? a1)) eqn:E; [reflexivity|].
  exfalso. apply N. cbn. repeat split; auto; lia.
Qed.

Lemma py_int_exn t e : py_int t = Err e -> e = ValueError.
Proof.
  unfold py_int. repeat match goal with
  | |- context [match ?x with _ => _ end] => destruct x
  end; congruence.
Qed.

Lemma oid_parts_exn ps : forall i f c r e, oid_parts ps i f c = (r, Some e) -> e = ValueError.
Proof.
  induction ps as [|p ps IH]; cbn [oid_parts]; intros i f c r e H; [discriminate|].
  destruct (py_int p) eqn:E.
  - destruct (i =? 0); [eauto|]. destruct (i =? 1); [|eauto].
    destruct (2 <? f); [congruence|]. destruct ((f <? 2) && (40 <=? a)); [congruence|eauto].
  - apply py_int_exn in E. congruence.
Qed.

Lemma oid_encode_exn t e : oid_encode t = Err e -> e = ValueError.
Proof.
  unfold oid_encode, oid_set_parts. destruct (oid_parts _ _ _ _) as [c [x|]] eqn:E; [|discriminate].
  apply oid_parts_exn in E. congruence.
Qed.

Lemma oid_encode_non_numeric t :
  Exists (fun p => py_int p = Err ValueError) (split_on 46 t) -> oid_encode t = Err ValueError.
Proof.
  intros H. unfold oid_encode, oid_set_parts.
  enough (A : forall ps i f c, Exists (fun p => py_int p = Err ValueError) ps ->
    snd (oid_parts ps i f c) <> None).
  { specialize (A _ 0 0 [] H). destruct (oid_parts (split_on 46 t) 0 0 []) as [c [x|]] eqn:E; cbn in A; [|easy].
    apply oid_parts_exn in E. congruence. }
  clear H t. intros ps. induction ps as [|p ps IH]; intros i f c H; inversion H; subst; cbn [oid_parts].
  - rewrite H1. cbn. discriminate.
  - destruct (py_int p); [|cbn; discriminate].
    destruct (i =? 0); [eauto|]. destruct (i =? 1); [|eauto].
    destruct (2 <? f); [cbn; discriminate|]. destruct ((f <? 2) && (40 <=? a)); [cbn; discriminate|eauto].
Qed.
