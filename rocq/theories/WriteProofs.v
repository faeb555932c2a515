(* Proofs about dump() of what constructors make: it is the DER encoding of the value given, and it is read
   as that value, in every environment that passes the checks below. *)
Require Import Verif.Base Verif.BaseFacts Verif.IntModel Verif.ParserModel Verif.ParserSpec Verif.ParserProofs Verif.ParserFacts Verif.Text
  Verif.TagSpec Verif.TagProofs Verif.ChunkSpec Verif.ChunkProofs Verif.PrimModel Verif.PrimSpec Verif.PrimSide Verif.PrimSet Verif.PrimLoad Verif.PrimHist Verif.PrimProofs Verif.PrimDump
  Verif.ContModel Verif.ContSpec Verif.ContBase Verif.ContRep Verif.ContList Verif.ContPrim Verif.ContHistSpec Verif.BerSpec Verif.BerProofs Verif.BerFinal
  Verif.OidSpec Verif.OidModel Verif.OidProofs Verif.GenModel Verif.GenSpec Verif.GenProofs Verif.LibProofs Verif.ReadModel Verif.ReadSpec Verif.ReadProofs
  Verif.RecodeModel Verif.RecodeSpec Verif.RecodeProofs Verif.WriteModel Verif.WriteSpec.
Require Import Coq.Bool.Bool Sorting.Permutation Sorting.Sorted.

(* ---- primitive values ---- *)
Lemma prim_good kd c p v : kind_ok kd -> (match kd with KOid m => true | _ => false end) = false -> cls_ok c -> k_explicit c = [] -> params_ok p -> holds kd None v ->
  exists o x, make kd c p v = Ok o /\ snd (dump kd c o false) = Ok (object_bytes (tags_of c p) x) /\ bytes_ok x /\ der_contents kd v x /\
    der_value kd None v x /\ holds kd None v /\ exists o' v', get_native kd c o = (o', Ok v') /\ same_value kd v v'.
Proof.
  intros Hk E Hc Kx Hp Hh. pose proof (tags_fine c p Hc Kx Hp) as TO.
  destruct (make_good kd c p (tags_of c p) v Hk (init_tags c p Hp) TO Hh) as (o & x & Em & Et & _ & Ec & So & Eh & D & B & o' & v' & G & S & _).
  exists o, x. split; auto. split. { unfold dump. rewrite Eh. cbn [orb ends_80]. rewrite (base_dump_none kd o x Ec Eh (proj1 (proj2 So))), Et. reflexivity. }
  split; auto. split; [destruct kd; auto; discriminate|]. split; auto. split; auto. eauto.
Qed.
Lemma oid_make m c p s t arcs : params_ok p -> legal_oid arcs -> (match tmap_rev m s with Some d => d | None => s end) = dotted_text arcs ->
  (match tmap_get m s with Some n => n | None => s end) = t ->
  exists o x, make (KOid m) c p (NText s) = Ok o /\ snd (dump (KOid m) c o false) = Ok (object_bytes (tags_of c p) x) /\ oid_octets (subidentifiers arcs) x /\
    exists o', get_native (KOid m) c o = (o', Ok (NText t)).
Proof.
  intros Hp L Rv Gt. destruct (oid_encode_legal arcs L) as (x & Ex & O). unfold oid_encode in Ex. destruct (oid_set_parts (dotted_text arcs)) as [y [e|]] eqn:Ey; [discriminate|]. injection Ex as ->.
  unfold make, new_obj. rewrite (init_tags c p Hp). cbn [bind]. cbn [set_value]. rewrite Rv, Ey. cbn [done].
  eexists _, x. split; [reflexivity|]. split; [reflexivity|]. split; [exact O|].
  match goal with |- exists o', get_native _ _ ?q = _ => set (o1 := q) end.
  assert (C1 : contents o1 = Some x) by reflexivity. assert (C2 : c_native (o_cache o1) = Some (NText s)) by reflexivity. clearbody o1.
  unfold get_native. rewrite C1, C2. destruct (tmap_get m s) as [n|]; subst; eexists; reflexivity.
Qed.
Lemma tmap_none m s : ~ In s (map fst m) -> tmap_get m s = None.
Proof. induction m as [|[a v] l IH]; cbn; auto. intros H. rewrite IH by tauto. destruct (eqb_text a s) eqn:E; auto. apply eqb_text_iff in E. tauto. Qed.
Lemma preferred_in m s t : preferred m s t -> In (s, t) m.
Proof. intros (pre & post & -> & _). apply in_app_iff. right. now left. Qed.
Lemma rev_get_in m (z : Z) t : NoDup (map snd m) -> In (z, t) m -> rev_get m t = Some z.
Proof.
  intros N H. assert (In t (map snd m)) as I2 by (apply in_map_iff; eexists; split; [|exact H]; reflexivity).
  destruct (rev_get_some m t I2) as (z' & E). rewrite E. apply rev_get_sound in E. f_equal. clear I2.
  induction m as [|[a b] m IH]; [contradiction|]. cbn in N. apply NoDup_cons_iff in N as [N1 N2].
  destruct H as [H|H], E as [E|E]; auto.
  - congruence.
  - injection H as -> ->. destruct N1. apply in_map_iff. eexists. split; [|exact E]. reflexivity.
  - injection E as -> ->. destruct N1. apply in_map_iff. eexists. split; [|exact H]. reflexivity.
Qed.

Lemma prim_made kd c p v w : readableb kd = true -> cls_ok c -> k_explicit c = [] -> params_ok p -> (means kd v w \/ (kd = KNull /\ v = NNone /\ w = NNone)) ->
  exists o x, make kd c p v = Ok o /\ snd (dump kd c o false) = Ok (object_bytes (tags_of c p) x) /\ bytes_ok x /\ der_contents kd w x /\
    der_value kd None w x /\ holds kd None w /\ exists o' v', get_native kd c o = (o', Ok v') /\ same_value kd w v'.
Proof.
  intros R Hc Kx Hp A. destruct A as [(Nn & A)|(-> & -> & ->)]; [|now apply prim_good].
  destruct (match kd with KOid m => true | _ => false end) eqn:E.
  - destruct kd as [| | | | | | | | |m| | | |]; try discriminate E. cbn in R. pose proof (nodupb_sound _ eqb_text_iff _ R) as N.
    destruct v as [| | |s| | | |]; try contradiction. destruct w as [| | |t| | | |]; try contradiction.
    assert (exists arcs, legal_oid arcs /\ (match tmap_rev m s with Some d => d | None => s end) = dotted_text arcs /\
      (match tmap_get m s with Some n => n | None => s end) = t /\
      (preferred m (dotted_text arcs) t \/ (t = dotted_text arcs /\ ~ In t (map fst m) /\ ~ In t (map snd m)))) as (arcs & L & Rv & Gt & P).
    { destruct A as [(-> & Nf & x & arcs & L & O & P)|(P & Ns & arcs & L & ->)]; exists arcs; (split; [exact L|]).
      - split; [|split; [now rewrite tmap_none|exact P]]. destruct P as [P|(P1 & P2 & P3)]; [now rewrite (rev_some _ _ _ P)|]. now rewrite (rev_none _ _ P3).
      - split; [now rewrite (rev_none _ _ Ns)|]. split; [now rewrite (tmap_in m _ t N (preferred_in _ _ _ P))|auto]. }
    destruct (oid_make m c p s t arcs Hp L Rv Gt) as (o & x & Em & Ed & O & o' & G).
    exists o, x. split; auto. split; auto. split; [eapply oid_octets_bytes; eauto|]. split; [exists arcs; auto|].
    assert (I2 : In (dotted_text arcs, t) m \/ (t = dotted_text arcs /\ ~ In t (map fst m) /\ ~ In t (map snd m))) by (destruct P as [P|P]; auto; left; now apply preferred_in).
    split; [|split; [|exists o', (NText t); split; [exact G|reflexivity]]].
    + exists arcs. split; auto. split; auto. tauto.
    + destruct I2 as [I2|(I2 & I3 & I4)]; [left|right]; exists arcs; auto.
  - assert (Hk : kind_ok kd) by (apply kind_okb_sound; destruct kd; auto; discriminate).
    assert (G : v = w /\ holds kd None v \/ exists z t m, v = NInt z /\ w = NText t /\ In (z, t) m /\ (kd = KInt m \/ kd = KEnum (Some m))).
    { destruct kd as [|m|[m|]| | | | | | | | | | |]; try discriminate E; auto; destruct v as [|b|z|s|b|l|s|x]; auto; destruct w as [|b'|z'|t|b'|l'|s'|x']; auto.
      all: try (right; exists z, t, m; auto). }
    destruct G as [(-> & Hh)|(z & t & m & -> & -> & I2 & K)]; [now apply prim_good|].
    assert (N : NoDup (map fst m) /\ NoDup (map snd m)) by (destruct K as [-> | ->]; exact Hk). destruct N as [N1 N2].
    assert (Hh : holds kd None (NText t)) by (destruct K as [-> | ->]; cbn; apply in_map_iff; eexists; (split; [|exact I2]); reflexivity).
    assert (Es : forall o, set_value kd o (NInt z) = set_value kd o (NText t)).
    { intros o. pose proof (rev_get_in m z t N2 I2) as Er. destruct K as [-> | ->]; cbn [set_value as_int].
      - destruct m as [|e m]; [contradiction|]. now rewrite Er.
      - rewrite Er. destruct (BitModel.map_get m z) eqn:Eg; auto. exfalso. clear - I2 Eg. induction m as [|[a b] m IH]; [contradiction|]. cbn in Eg.
        destruct (Z.eqb_spec a z); [discriminate|]. destruct I2 as [I2|I2]; [congruence|auto]. }
    destruct (prim_good kd c p (NText t) Hk E Hc Kx Hp Hh) as (o & x & Em & H). exists o, x. split; [|exact H]. rewrite <- Em. unfold make.
    destruct (new_obj kd c p); cbn [bind]; auto. now rewrite Es.
Qed.

(* ---- encodings in DER are encodings in BER, cut into their parts ---- *)
Definition cut_of (d : bytes) (Q : info -> Prop) : Prop := exists j, d = encoding_of j /\ ber_info max_budget j /\ i_trailer j = [] /\ Q j.
Lemma der_wrapped_trailer ex : forall j d, i_trailer j = [] -> ber_info max_budget j -> der_wrapped ex (encoding_of j) d ->
  forall i, ber_info max_budget i -> d = encoding_of i -> i_trailer i = [].
Proof.
  induction ex as [|[c t] ex IH]; intros j d Tr Bj H i B E; cbn [der_wrapped] in H.
  - subst d. now rewrite (same_info0 i j B Bj (eq_sym E)).
  - destruct H as (mid & H & K). destruct (tlv_info _ _ _ _ _ H) as (h & B' & <-). eapply IH; [| |exact K| |]; eauto.
Qed.
Lemma wrapped_cut ex (Q : info -> Prop) d j : ber_info max_budget j -> i_trailer j = [] -> Q j -> der_wrapped ex (encoding_of j) d -> cut_of d (within (rev ex) Q).
Proof.
  intros B T H D. destruct (wrapped_within ex Q d j B H D) as (i & Bi & E & W). exists i. split; auto. split; auto. split; auto.
  eapply der_wrapped_trailer; eauto.
Qed.
Lemma object_cut t x d (Q : info -> Prop) : der_object t x d -> (forall j, i_class j = t_class t -> i_tag j = t_tag t -> i_method j = 0 -> i_contents j = x -> Q j) ->
  cut_of d (within (rev (t_explicit t)) Q).
Proof.
  intros (inner & H & D) F. destruct (tlv_info _ _ _ _ _ H) as (h & B & <-). eapply wrapped_cut; eauto; apply F; reflexivity.
Qed.
Lemma constructed_cut t x d (X : bytes -> Prop) : der_constructed t x d -> X x -> cut_of d (within (rev (t_explicit t)) (ber_constructed t X)).
Proof.
  intros (inner & H & D) F. destruct (tlv_info _ _ _ _ _ H) as (h & B & <-). eapply wrapped_cut; eauto. repeat split; auto.
Qed.

Lemma len_cbytes t x : len x <= len (cbytes t x).
Proof. unfold cbytes. rewrite len_app. unfold len. lia. Qed.
Lemma len_object t x : len x <= len (object_bytes t x).
Proof. unfold object_bytes. rewrite len_app. unfold len. lia. Qed.
Lemma len_wrap ex w : len w <= len (wrap ex [] w ++ w).
Proof. rewrite len_app. unfold len. lia. Qed.
Lemma len_concat (l : list bytes) x : In x l -> len x <= len (concat l).
Proof.
  induction l as [|y l IH]; [contradiction|]. intros [->|H]; cbn [concat]; rewrite len_app; [unfold len; lia|]. specialize (IH H). unfold len in *. lia.
Qed.
Lemma len_sort l : len (concat (sort_bytes l)) = len (concat l).
Proof.
  assert (G : forall l m : list bytes, Permutation l m -> len (concat l) = len (concat m)).
  { induction 1; cbn [concat]; rewrite ?len_app in *; lia. }
  apply G. symmetry. apply sort_perm.
Qed.

Section Env.
Variable env : ref -> option rclass.
Variable pad : bool.
Variable own : ref -> option (native -> res bytes).
Variable redo : ref -> option (bytes -> res bytes).
Variable default_of : rfield -> option bytes.
Variable untouched : ref -> bool.
Variable fill : ref -> list (text * aval) -> list (text * aval).
Variable special : ref -> bool.
Notation makes := (makes env own redo fill special).
Notation body := (body env own redo fill).
Notation fmade n := (field_made env (makes n)).
Notation recoded := (recoded env pad redo default_of untouched).
Notation write := (write env own default_of fill special).
Notation key_made := (key_made env fill).

(* ---- the values that choose the type of a field ---- *)
(* the path leads through required fields to a primitive value *)
Fixpoint keyed (sel : option selector) (fs : list rfield) (path : list text) : bool :=
  match path with
  | [] => false
  | q :: rest =>
      match index_of (fun f => eqb_text (g_name f) q) fs 0 with
      | Some j =>
          match sel with Some s => negb (Nat.eqb j (s_field s)) | None => true end &&
          match nth_error fs j with
          | Some f =>
              match g_pres f, g_class f with
              | GReq, Some r =>
                  match env r, rest with
                  | Some k, [] => match r_def k, own r with DPrim KNull, _ => false | DPrim _, None => true | _, _ => false end
                  | Some k, _ :: _ => match r_def k with DSeq fs' sel' => keyed sel' fs' rest | _ => false end
                  | None, _ => false
                  end
              | _, _ => false
              end
          | None => false
          end
      | None => false
      end
  end.
Definition keyed_class (r : ref) (path : list text) : bool :=
  match env r, path with
  | Some k, [] => match r_def k, own r with DPrim KNull, _ => false | DPrim _, None => true | _, _ => false end
  | Some k, _ :: _ => match r_def k with DSeq fs sel => keyed sel fs path | _ => false end
  | None, _ => false
  end.

Hypothesis Ok_env : env_ok env.
Hypothesis Seqs : forall r k fs sel b, env r = Some k -> r_def k = DSeq fs sel -> r_out k b = Ok b.

Definition key_good (n m : nat) : Prop := forall r i a path b, makes n r None i a -> keyed_class r path = true -> leads a path b ->
  (exists b', key_made m r i path = Ok b' /\ alike b b') /\ forall a', makes n r None i a' -> leads a' path b.

Lemma given_bare n r tup x a : given_for env (makes n) r tup x a -> makes n r None (bare x) a.
Proof. destruct x; cbn; tauto. Qed.

Lemma locate n li fs : forall o pk la base j q, all2 (fmade n li) (typed_opt o pk fs) la -> index_of (fun f => eqb_text (g_name f) q) fs base = Some j ->
  (base <= j)%nat /\ (o <> Some (j - base)%nat -> exists f na, nth_error fs (j - base) = Some f /\ g_name f = q /\ find (fun f => eqb_text (g_name f) q) fs = Some f /\
     dict_get la q = Some (snd na) /\ fmade n li (f, Keep) na).
Proof.
  induction fs as [|f fs IH]; intros o pk la base j q H I; [discriminate|].
  assert (typed_opt o pk (f :: fs) = (f, match o with Some O => pk | _ => Keep end) :: typed_opt (match o with Some (S m) => Some m | _ => None end) pk fs) as E
    by (destruct o as [[|m]|]; reflexivity).
  rewrite E in H. destruct la as [|na la]; [contradiction|]. destruct H as [H1 H2]. cbn [index_of] in I. cbn [find].
  pose proof (proj1 H1) as En. cbn [fst] in En.
  destruct (eqb_text (g_name f) q) eqn:Q.
  - injection I as <-. split; [lia|]. intros No. rewrite Nat.sub_diag in *. apply eqb_text_iff in Q. exists f, na. split; auto. split; auto. split; auto. split.
    + destruct na as [n0 a]. cbn in En |- *. subst n0. assert (eqb_text (g_name f) q = true) as -> by (now apply eqb_text_iff). reflexivity.
    + destruct o as [[|m]|]; auto. congruence.
  - destruct (IH _ _ _ (S base) j q H2 I) as (L & K). split; [lia|]. intros No.
    destruct K as (g & nb & K1 & K2 & K3 & K4 & K5). { destruct o as [[|m]|]; try discriminate. intros X. apply No. injection X as ->. f_equal. lia. }
    exists g, nb. replace (j - base)%nat with (S (j - S base)) by lia. split; auto. split; auto. split; auto. split; auto.
    destruct na as [n0 a]. cbn in En |- *. subst n0. rewrite Q. exact K4.
Qed.

Lemma fields_key n m sel fs li pk la path b : key_good n m -> all2 (fmade n li) (typed_opt (option_map s_field sel) pk fs) la -> keyed sel fs path = true ->
  leads (ADict la) path b ->
  (exists b', field_key (key_made m) fs li path = Ok b' /\ alike b b') /\
  forall pk' la', all2 (fmade n li) (typed_opt (option_map s_field sel) pk' fs) la' -> leads (ADict la') path b.
Proof.
  intros IH H K L. destruct path as [|q rest]; [discriminate K|]. cbn [keyed] in K.
  destruct (index_of (fun f => eqb_text (g_name f) q) fs 0) as [j|] eqn:Ij; [|discriminate]. apply andb_true_iff in K as [Ks K].
  assert (No : option_map s_field sel <> Some j). { destruct sel as [s|]; [|discriminate]. cbn. intros [= E]. rewrite E, Nat.eqb_refl in Ks. discriminate. }
  pose proof (locate n li fs _ pk la 0%nat j q H Ij) as (_ & G). rewrite Nat.sub_0_r in G. destruct (G No) as (f & na & N1 & N2 & N3 & N4 & N5). clear G.
  rewrite N1 in K. destruct (g_pres f) eqn:Ep; try discriminate K. destruct (g_class f) as [r|] eqn:Ec; [|discriminate K].
  assert (Kc : keyed_class r rest = true). { unfold keyed_class. destruct (env r); [|discriminate]. destruct rest; exact K. }
  assert (F : forall nb, fmade n li (f, Keep) nb -> exists x, dict_get li q = Some x /\ makes n r None (bare x) (snd nb)).
  { intros nb (_ & X). cbn [fst snd] in X. rewrite N2, Ep in X. destruct (dict_get li q) as [x|]; [|contradiction]. exists x. split; auto.
    unfold element_made in X. rewrite Ec in X. destruct x; eapply given_bare; exact X. }
  cbn [leads] in L. destruct L as (z & Dz & L). rewrite N4 in Dz. injection Dz as <-. destruct (F na N5) as (x & Ex & Mx).
  destruct (IH r (bare x) (snd na) rest b Mx Kc L) as (Kb & Ka). split.
  - unfold field_key. rewrite N3, Ex, Ec. exact Kb.
  - intros pk' la' H'. pose proof (locate n li fs _ pk' la' 0%nat j q H' Ij) as (_ & G). rewrite Nat.sub_0_r in G. destruct (G No) as (f' & nb & M1 & M2 & M3 & M4 & M5).
    assert (f' = f) as -> by congruence. cbn [leads]. exists (snd nb). split; auto. apply Ka. destruct (F nb M5) as (x' & Ex' & Mx'). congruence.
Qed.

Lemma means_prim v : v <> NNone -> prim_value v = APrim v.
Proof. destruct v; try reflexivity. congruence. Qed.
Lemma means_some kd v w : means kd v w -> w <> NNone.
Proof.
  intros (N & H). destruct kd as [|m|[m|]| | | | | | | m| | | |]; destruct v, w; try contradiction; try discriminate; cbn in H; try (destruct H as [H _]; congruence).
Qed.
Lemma means_fun kd v w w' : readableb kd = true -> means kd v w -> means kd v w' -> w = w'.
Proof.
  intros R (N & H) (_ & H').
  assert (Z : forall m (z : Z) (t t' : text), NoDup (map fst m) -> In (z, t) m -> In (z, t') m -> t = t').
  { induction m as [|[a b] m IH]; [contradiction|]. intros z t t' Nd I I'. cbn in Nd. apply NoDup_cons_iff in Nd as [N1 N2].
    destruct I as [I|I], I' as [I'|I']; try congruence; eauto.
    - injection I as -> ->. destruct N1. apply in_map_iff. eexists. split; [|exact I']. reflexivity.
    - injection I' as -> ->. destruct N1. apply in_map_iff. eexists. split; [|exact I]. reflexivity. }
  destruct (match kd with KOid m => true | _ => false end) eqn:E.
  - destruct kd as [| | | | | | | | |m| | | |]; try discriminate E. cbn in R. pose proof (nodupb_sound _ eqb_text_iff _ R) as Nd.
    destruct v; try contradiction. destruct w; try contradiction. destruct w'; try contradiction.
    assert (P : forall a b, preferred m a b -> In a (map fst m)) by (intros a b P; apply in_map_iff; eexists; split; [|exact (preferred_in _ _ _ P)]; reflexivity).
    destruct H as [(-> & H & _)|(H & _)], H' as [(<- & H' & _)|(H' & _)]; auto.
    + destruct H. eauto.
    + destruct H'. eauto.
    + apply preferred_in in H, H'. pose proof (tmap_in _ _ _ Nd H). pose proof (tmap_in _ _ _ Nd H'). congruence.
  - assert (Hk : kind_ok kd) by (apply kind_okb_sound; destruct kd; auto; discriminate).
    destruct kd as [|m|[m|]| | | | | | | | | | |]; try discriminate E; try (destruct H as [H _], H' as [H' _]; congruence).
    + destruct v as [|b|z|s|b|l|s|x]; try (destruct w, w'; destruct H as [H _], H' as [H' _]; congruence).
      destruct w as [|b|z1|s|b|l|s|x], w' as [|b'|z2|s'|b'|l'|s'|x']; try (destruct H as [H _]; discriminate H); try (destruct H' as [H' _]; discriminate H').
      * destruct H as [H _], H' as [H' _]; congruence.
      * destruct H as [Hz H]; injection Hz as ->. cbn in H. destruct H. apply in_map_iff. eexists. split; [|exact H']. reflexivity.
      * destruct H' as [Hz H']; injection Hz as ->. cbn in H'. destruct H'. apply in_map_iff. eexists. split; [|exact H]. reflexivity.
      * f_equal. exact (Z m z s s' (proj1 Hk) H H').
    + destruct v as [|b|z|s|b|l|s|x]; try (destruct w, w'; destruct H as [H _], H' as [H' _]; congruence).
      destruct w as [|b|z1|s|b|l|s|x], w' as [|b'|z2|s'|b'|l'|s'|x']; try (destruct H as [H _]; discriminate H); try (destruct H' as [H' _]; discriminate H'); try (destruct H as [_ H]; contradiction); try (destruct H' as [_ H']; contradiction).
      f_equal. exact (Z m z s s' (proj1 Hk) H H').
Qed.

Lemma types_opt sel fs l ts : field_types sel fs l ts -> exists pk, ts = typed_opt (option_map s_field sel) pk fs.
Proof. destruct sel as [s|]; cbn; [intros (a & pk & _ & _ & ->); eauto|intros ->; exists Keep; reflexivity]. Qed.
Lemma key_ok : forall n m, (n <= m)%nat -> key_good n m.
Proof.
  induction n as [|n IH]; intros m Lm r i a path b; [contradiction|]. destruct m as [|m]; [lia|]. apply le_S_n in Lm.
  intros (k & b0 & Ek & Sp & Hb & Eo) K L. unfold keyed_class in K. rewrite Ek in K. cbn [WriteModel.key_made]. rewrite Ek.
  destruct (Ok_env r k Ek) as (Kok & Resp). destruct (class_ok_parts env k Kok) as (Hc & Kx & Kd).
  destruct path as [|q rest].
  - destruct (r_def k) as [kd| | | | |] eqn:D; try discriminate K.
    assert (Nk : kd <> KNull) by (destruct kd; congruence). destruct (own r) eqn:Ow; [destruct kd; discriminate K|]. cbn [leads] in L. subst b.
    unfold WriteSpec.body in Hb. rewrite D, Ow in Hb. unfold def_okb in Kd. rewrite D in Kd.
    assert (P0 : params_ok no_params) by (split; [reflexivity|split; [constructor|cbn; auto]]).
    destruct i as [|v| | | |]; try contradiction; [destruct Hb as (-> & _); congruence|].
    destruct Hb as (w & Mw & -> & Rn). split.
    + destruct (prim_made kd (r_cls k) no_params v w Kd Hc Kx P0 (or_introl Mw)) as (o & x & Em & _ & _ & _ & _ & _ & o' & v' & G & S).
      rewrite Em. cbn [bind]. rewrite G. cbn [snd bind]. destruct (Resp (APrim w) (native_of v') a) as (y & Ey & Ay); [|exact Eo|eauto].
      pose proof (means_some _ _ _ Mw) as Nw. destruct v'; cbn [native_of]; try (exists kd; exact S). destruct w; cbn in S; try discriminate S. congruence.
    + intros a' (k' & b' & Ek' & _ & Hb' & Eo'). cbn [leads]. assert (k' = k) as -> by congruence. unfold WriteSpec.body in Hb'. rewrite D, Ow in Hb'.
      destruct Hb' as (w' & Mw' & -> & _). rewrite (means_fun kd v w w' Kd Mw Mw') in Eo. congruence.
  - destruct (r_def k) as [| | |fs sel| |] eqn:D; try discriminate K. unfold WriteSpec.body in Hb. rewrite D in Hb.
    destruct Hb as (li & -> & la & ts & -> & Ne & Kn & T & H). rewrite (Seqs r k fs sel _ Ek D) in Eo. injection Eo as <-.
    destruct (types_opt _ _ _ _ T) as (pk & ->).
    destruct (fields_key n m sel fs (fill r li) pk la (q :: rest) b (IH m Lm) H K L) as (G1 & G2). split; [exact G1|].
    intros a' (k' & b' & Ek' & _ & Hb' & Eo'). assert (k' = k) as -> by congruence. unfold WriteSpec.body in Hb'. rewrite D in Hb'.
    destruct Hb' as (li' & [= <-] & la' & ts' & -> & _ & _ & T' & H'). rewrite (Seqs r k fs sel _ Ek D) in Eo'. injection Eo' as <-.
    destruct (types_opt _ _ _ _ T') as (pk' & ->). eapply G2; eauto.
Qed.

(* only classes without fields are left as they are *)
Hypothesis Bare : forall r k fs sel, env r = Some k -> r_def k = DSeq fs sel -> untouched r = true -> fs = [].
(* the type of a field is chosen by a value that can be looked up, and the field has no default *)
Hypothesis Keyed : forall r k fs s, env r = Some k -> special r = false -> r_def k = DSeq fs (Some s) -> keyed (Some s) fs (s_key s) = true.
(* the encoding of a default is read as the default *)
Definition default_reads (f : rfield) (pk : pick) : Prop := forall w, default_of f = Some w ->
  pk = Keep /\ len w < 2 ^ 1008 /\ exists d q N, g_pres f = GDef d /\ g_class f = Some q /\
    forall m j, ber_info max_budget j -> encoding_of j = w -> read env pad (N + m) q (g_params f) None j = Ok d.
Hypothesis Defs : forall r k fs sel pk f p, env r = Some k -> r_def k = DSeq fs sel -> In (f, p) (typed_opt (option_map s_field sel) pk fs) -> default_reads f p.
Hypothesis Named : forall r k alts fx f, env r = Some k -> r_def k = DChoice alts fx -> In f alts -> find (fun g => eqb_text (g_name g) (g_name f)) alts = Some f.
(* a native method works on all natives for the value given, or on none *)
Hypothesis Outs : forall n r k ins i b b' a, env r = Some k -> body (makes n) r k ins i b -> body (makes n) r k ins i b' -> r_out k b = Ok a ->
  exists a', r_out k b' = Ok a'.

Lemma aval_none (x : aval) : {x = ANone} + {x <> ANone}.
Proof. destruct x; auto; right; discriminate. Qed.

Section Step.
Variable n : nat.
Variable wr : ref -> params -> option ref -> aval -> res bytes.
Definition written_ok (r : ref) (p : params) (ins : option ref) (i : aval) (w : bytes) : Prop :=
  len w < 2 ^ 1008 -> exists a, makes n r ins i a /\ cut_of w (fun j => recoded n r p ins a j w).
Hypothesis IH : forall r p ins i a, params_fine env r p -> makes n r ins i a -> exists w, wr r p ins i = Ok w /\ written_ok r p ins i w.

Lemma given_ok r p tup x a : params_fine env r p -> given_for env (makes n) r tup x a ->
  exists w, wr r p None (bare x) = Ok w /\ (len w < 2 ^ 1008 -> exists a', given_for env (makes n) r tup x a' /\ cut_of w (fun j => recoded n r p None a' j w)).
Proof.
  intros Hp H. destruct (IH r p None (bare x) a Hp (given_bare _ _ _ _ _ H)) as (w & E & G). exists w. split; auto. intros L. destruct (G L) as (a' & M & C).
  exists a'. split; auto. destruct x; cbn in *; tauto.
Qed.
Lemma given_acceptable r x a : given_for env (makes n) r true x a -> acceptable env r x = true.
Proof.
  unfold acceptable, choice_class, def_of. destruct x; cbn; auto; intros (N & _); destruct (env r) as [k|] eqn:E; auto; cbn [option_map];
    destruct (r_def k) eqn:D; auto; destruct N; unfold choice_type; eauto.
Qed.

Lemma element_ok f pk x a : pick_okb env f pk = true -> element_made env (makes n) f pk x a ->
  exists w, element_written env wr f pk x = Ok w /\
    (len w < 2 ^ 1008 -> exists a', element_made env (makes n) f pk x a' /\ cut_of w (fun j => element_recoded (recoded n) f pk a' j w)).
Proof.
  unfold pick_okb, element_made, element_written, element_recoded. intros K H.
  destruct pk as [|r|r]; destruct (g_class f) as [q|]; try contradiction; apply params_fineb_sound in K; try (rewrite (given_acceptable _ _ _ H); eapply given_ok; eauto).
  destruct (IH q (g_params f) (Some r) x a K H) as (w & E & G). exists w. split; auto.
Qed.

Lemma part_ok f pk li na : pick_okb env f pk = true -> default_reads f pk -> fmade n li (f, pk) na ->
  exists z, part_written env default_of wr f pk (dict_get li (g_name f)) = Ok z /\
    (len z < 2 ^ 1008 -> exists na', fmade n li (f, pk) na' /\ field_recoded default_of (recoded n) (f, pk) na' (z, z)).
Proof.
  intros K Df (En & H). cbn [fst snd] in En, H.
  (* absent *)
  assert (Ab : forall v, (match g_pres f with GReq => False | GOpt => v = ANone | GDef d => v = d end) -> (dict_get li (g_name f) = None \/ dict_get li (g_name f) = Some ANone) ->
    exists z, Ok [] = Ok z /\ (len z < 2 ^ 1008 -> exists na', fmade n li (f, pk) na' /\ field_recoded default_of (recoded n) (f, pk) na' (z, z))).
  { intros v Hv Hd. exists []. split; auto. intros _. exists (g_name f, v). split.
    - split; [reflexivity|]. cbn [fst snd]. destruct Hd as [-> | ->]; destruct (g_pres f); auto; contradiction.
    - split; [reflexivity|]. left. split; auto. }
  (* present *)
  assert (Pr : forall x, dict_get li (g_name f) = Some x -> (x = ANone -> g_pres f = GReq) ->
    (element_made env (makes n) f pk x (snd na) \/ exists a, element_made env (makes n) f pk x a) ->
    exists z, (do w <- element_written env wr f pk x; Ok (match default_of f with Some d => if eqb_bytes d w then [] else w | None => w end)) = Ok z /\
    (len z < 2 ^ 1008 -> exists na', fmade n li (f, pk) na' /\ field_recoded default_of (recoded n) (f, pk) na' (z, z))).
  { intros x Ex Nx He. assert (exists a, element_made env (makes n) f pk x a) as (a & Ha) by (destruct He; eauto). clear He.
    destruct (element_ok f pk x a K Ha) as (w & Ew & G). rewrite Ew. cbn [bind]. eexists. split; [reflexivity|]. intros L.
    assert (Fm : forall a', element_made env (makes n) f pk x a' -> fmade n li (f, pk) (g_name f, a')).
    { intros a' M. split; [reflexivity|]. cbn [fst snd]. rewrite Ex. destruct x; destruct (g_pres f); auto; discriminate (Nx eq_refl). }
    destruct (default_of f) as [d|] eqn:Ed; [destruct (eqb_bytes d w) eqn:Q|].
    - apply eqb_bytes_spec in Q. subst d. destruct (Df w Ed) as (-> & Lw & d & q & N & Ep & Ec & Rd).
      destruct (G Lw) as (a' & M & j & Ej & Bj & _ & R). exists (g_name f, d). split.
      + split; [reflexivity|]. cbn [fst snd]. rewrite Ex, Ep. destruct (aval_none x) as [->|Nn]; [rewrite Ep in Nx; discriminate (Nx eq_refl)|].
        assert (A : alike a' d).
        { unfold element_recoded in R. rewrite Ec in R. pose proof (recoded_stands env pad redo default_of untouched n q (g_params f) None a' j w Bj R) as S.
          unfold pick_okb in K. rewrite Ec in K. apply params_fineb_sound in K.
          destruct (read_ok env pad Ok_env n (N + n) q (g_params f) None j a' (Nat.le_add_l n N) K Bj S) as (a2 & E2 & A2). rewrite (Rd n j Bj (eq_sym Ej)) in E2. congruence. }
        destruct x; try contradiction; right; (split; [reflexivity|exists a'; auto]).
      + split; [reflexivity|]. left. split; auto. cbn [fst snd]. now rewrite Ep.
    - destruct (G L) as (a' & M & j & Ej & Bj & _ & R). exists (g_name f, a'). split; [auto|]. split; [reflexivity|]. right. exists j, w.
      split; auto. split; auto. split; auto. right. cbn [fst snd]. split; auto. rewrite Ed. intros [= ->]. assert (eqb_bytes w w = true) by (now apply eqb_bytes_spec). congruence.
    - destruct (G L) as (a' & M & j & Ej & Bj & _ & R). exists (g_name f, a'). split; [auto|]. split; [reflexivity|]. right. exists j, w.
      split; auto. split; auto. split; auto. right. cbn [fst snd]. split; auto. rewrite Ed. discriminate. }
  unfold part_written. destruct (dict_get li (g_name f)) as [x|].
  - destruct (aval_none x) as [->|Nx].
    + destruct (g_pres f) eqn:Ep.
      * apply (Pr ANone); auto.
      * apply (Ab ANone); auto.
      * apply (Ab x); auto.
    + assert (He : element_made env (makes n) f pk x (snd na) \/ exists a, element_made env (makes n) f pk x a).
      { destruct x; try contradiction; destruct (g_pres f); auto; destruct H as [H|(_ & a & H & _)]; eauto. }
      pose proof (Pr x eq_refl ltac:(contradiction) He) as G. destruct x; try contradiction; exact G.
  - destruct (g_pres f) eqn:Ep; [contradiction| |].
    + apply (Ab ANone); auto.
    + apply (Ab x); auto.
Qed.

Lemma parts_ok fs li : forall o pk la, Forall (fine_t env) (typed_opt o pk fs) -> (forall f p, In (f, p) (typed_opt o pk fs) -> default_reads f p) ->
  all2 (fmade n li) (typed_opt o pk fs) la ->
  exists zs, parts_written env default_of wr fs o pk li = Ok zs /\
    (len (concat zs) < 2 ^ 1008 -> exists la', all2 (fmade n li) (typed_opt o pk fs) la' /\ all3 (field_recoded default_of (recoded n)) (typed_opt o pk fs) la' (map (fun z => (z, z)) zs)).
Proof.
  induction fs as [|f fs IHf]; intros o pk la.
  - assert (typed_opt o pk [] = []) as -> by (destruct o as [[]|]; reflexivity). intros _ _ H. exists []. split; auto. intros _. exists []. split; exact Logic.I.
  - assert (typed_opt o pk (f :: fs) = (f, match o with Some O => pk | _ => Keep end) :: typed_opt (match o with Some (S m) => Some m | _ => None end) pk fs) as ->
      by (destruct o as [[|m]|]; reflexivity).
    intros F Df H. destruct la as [|na la]; [contradiction|]. destruct H as [H1 H2]. inversion F as [|? ? (F1 & _) F2]; subst. cbn [fst snd] in F1.
    destruct (part_ok f _ li na F1 (Df f _ (or_introl eq_refl)) H1) as (z & Ez & G1).
    destruct (IHf _ pk la F2 (fun f p I => Df f p (or_intror I)) H2) as (zs & Es & G2).
    cbn [parts_written]. rewrite Ez. cbn [bind]. rewrite Es. cbn [bind]. exists (z :: zs). split; auto. intros L. cbn [concat] in L. rewrite len_app in L.
    destruct G1 as (na' & M1 & R1); [unfold len in *; lia|]. destruct G2 as (la' & M2 & R2); [unfold len in *; lia|].
    exists (na' :: la'). split; split; auto.
Qed.

Lemma seq_ok m r k fs sel li b : (n <= m)%nat -> env r = Some k -> special r = false -> r_def k = DSeq fs sel -> fields_made env (makes n) fs sel li (fill r li) b ->
  exists y, seq_written env default_of wr (key_made m) fs sel li (fill r li) = Ok y /\
    (len y < 2 ^ 1008 -> exists b', fields_made env (makes n) fs sel li (fill r li) b' /\ fields_recoded default_of (recoded n) fs sel b' y y).
Proof.
  intros Lm Ek Sp D (la & ts & -> & Ne & Kn & T & H). destruct (Ok_env r k Ek) as (Kok & _). pose proof (class_ok_parts env k Kok) as (_ & _ & Kd).
  unfold def_okb in Kd. rewrite D in Kd. apply andb_true_iff in Kd as [Kd Ks]. apply andb_true_iff in Kd as [Kf _].
  assert (exists pk, ts = typed_opt (option_map s_field sel) pk fs /\ Forall (fine_t env) ts /\
     match sel with Some s => exists b, leads (ADict la) (s_key s) b /\ names_type s b pk | None => pk = Keep end) as (pk & Et & Ft & Sel).
  { unfold field_types in T. destruct sel as [s|]; cbn [option_map] in *.
    - destruct T as (b & pk & L & N & ->). exists pk. split; auto. split; [|eauto]. eapply fits_fine; [exact Kf|].
      apply (typed_fits fs (Some (s_field s)) pk (picks s)). intros _. unfold names_type in N. unfold picks. apply in_app_iff.
      assert (G : s_else s = Some pk -> In pk (map snd (s_table s)) \/ In pk match s_else s with Some x => [x] | None => [] end) by (intros ->; right; now left).
      destruct b as [|[]| | | |]; auto. destruct N as [N|(_ & N)]; auto. left. apply in_map_iff. eexists. split; [|exact N]. reflexivity.
    - exists Keep. subst ts. split; auto. split; auto. eapply fits_fine; [exact Kf|]. apply (typed_fits fs None Keep []). congruence. }
  subst ts. destruct (parts_ok fs (fill r li) _ pk la Ft (fun f p I => Defs r k fs sel pk f p Ek D I) H) as (zs & Ez & G).
  assert (Kb : forallb (fun e => existsb (fun f => eqb_text (g_name f) (fst e)) fs) li = true).
  { apply forallb_forall. intros [q x] I. destruct (Kn q x I) as (f & If & <-). apply existsb_exists. exists f. split; auto. now apply eqb_text_iff. }
  assert (Kp : (match sel with None => Ok Keep | Some s => do a <- field_key (key_made m) fs (fill r li) (s_key s); picked s a end) = Ok pk /\
    forall la', all2 (fmade n (fill r li)) (typed_opt (option_map s_field sel) pk fs) la' -> field_types sel fs la' (typed_opt (option_map s_field sel) pk fs)).
  { destruct sel as [s|]; [|subst pk; split; auto; intros; reflexivity]. destruct Sel as (b & L & N).
    destruct (fields_key n m (Some s) fs (fill r li) pk la (s_key s) b (key_ok n m Lm) H (Keyed r k fs s Ek Sp D) L) as ((b' & Eb & Ab) & G2).
    rewrite Eb. cbn [bind]. unfold sel_okb in Ks. apply andb_true_iff in Ks as [Kn' _]. split.
    - apply (picked_ok s b); auto. exact (nodupb_sound _ eqb_text_iff _ Kn').
    - intros la' H'. exists b, pk. split; [eapply G2; eauto|]. split; auto. }
  destruct Kp as (Kp & Kt). unfold seq_written. rewrite Kb, Kp. cbn [bind]. rewrite Ez. cbn [bind]. eexists. split; [reflexivity|]. intros L.
  destruct (G L) as (la' & M & R). exists (ADict la'). split.
  - exists la', (typed_opt (option_map s_field sel) pk fs). split; auto.
  - exists la', (typed_opt (option_map s_field sel) pk fs), (map (fun z => (z, z)) zs). rewrite !map_map. cbn [fst snd]. rewrite map_id. split; auto.
Qed.

Lemma items_ok set r li b : items_made env (makes n) set r li b ->
  exists y, items_written env wr set r li = Ok y /\
    (len y < 2 ^ 1008 -> exists b', items_made env (makes n) set r li b' /\ items_recoded pad (recoded n) set (Some r) b' y y).
Proof.
  intros (la & lb & -> & H & _). assert (P0 : params_fine env r no_params) by (split; [split; [reflexivity|split; [constructor|cbn; auto]]|reflexivity]).
  assert (exists ds, map_res (fun x => match x with AObj _ a => wr r no_params None a | _ => if choice_class env r then Err ValueError else wr r no_params None x end) li = Ok ds /\
    (len (concat ds) < 2 ^ 1008 -> exists la', all2 (given_for env (makes n) r false) li la' /\ all2 (fun a d => cut_of d (fun j => recoded n r no_params None a j d)) la' ds)) as (ds & Ed & G).
  { revert la H. induction li as [|x li IHl]; intros [|a la] H; cbn [all2] in H; try contradiction.
    - exists []. split; auto. intros _. exists []. split; exact Logic.I.
    - destruct H as [H1 H2]. destruct (IHl la H2) as (ds & Ed & G). destruct (given_ok r no_params false x a P0 H1) as (w & Ew & Gw).
      assert (Ex : (match x with AObj _ a => wr r no_params None a | _ => if choice_class env r then Err ValueError else wr r no_params None x end) = Ok w).
      { assert (C : forall a, ~ choice_type env r /\ makes n r None x a -> choice_class env r = false).
        { intros a0 (N & _). unfold choice_class, def_of. destruct (env r) as [k|] eqn:E; auto. cbn. destruct (r_def k) eqn:D; auto. destruct N. unfold choice_type. eauto. }
        destruct x; cbn [bare] in Ew; auto; cbn in H1; try (rewrite (C _ H1); exact Ew). destruct H1 as [H1 _]. discriminate H1. }
      cbn [map_res]. rewrite Ex. cbn [bind]. rewrite Ed. cbn [bind]. exists (w :: ds). split; auto. cbn [concat]. rewrite len_app. intros L.
      destruct Gw as (a' & M1 & C1); [unfold len in *; lia|]. destruct G as (la' & M2 & C2); [unfold len in *; lia|]. exists (a' :: la'). split; split; auto. }
  unfold items_written. rewrite Ed. cbn [bind]. eexists. split; [reflexivity|]. intros L.
  destruct G as (la' & M & C). { destruct set; auto. now rewrite len_sort in L. }
  set (zs := if set then sort_bytes ds else ds).
  assert (exists lb', (if set then Permutation la' lb' else la' = lb') /\ all2 (fun a d => cut_of d (fun j => recoded n r no_params None a j d)) lb' zs) as (lb' & P & C').
  { unfold zs. destruct set; [|eauto]. destruct (all2_perm_r _ _ _ (sort_perm ds) _ C) as (m & P & C'). eauto. }
  exists (AList lb'). split; [exists la', lb'; split; auto|]. exists lb', (map (fun z => (z, z)) zs), zs. rewrite !map_map. cbn [fst snd]. rewrite map_id. fold zs.
  split; auto. split; auto. split; auto. split.
  - unfold zs. destruct set; auto. split; [apply Permutation_refl|apply sort_sorted].
  - clearbody zs. clear - C'. revert zs C'. induction lb' as [|a l IHl]; intros [|z zs]; cbn; try tauto. intros [(j & Ej & Bj & _ & R) K]. split; [exists j; cbn [fst snd]; auto|exact (IHl _ K)].
Qed.
End Step.

Lemma prim_cut kd c t w x d : kd <> KNull -> bytes_ok x -> der_value kd None w x -> holds kd None w -> der_object t x d -> cut_of d (ber_of (SPrim kd c) t (APrim w)).
Proof.
  intros Nn Bx Dv Hh Do. destruct (object_cut t x d (ber_prim kd c t w) Do) as (j & E & B & T & Q).
  { intros j E1 E2 E3 E4. split; auto. split; auto. left. split; auto. rewrite E4. split; auto. }
  exists j. split; auto. split; auto. split; auto. destruct kd; try contradiction; cbn [ber_of]; auto.
Qed.
Lemma null_cut c t d : der_object t [] d -> cut_of d (ber_of (SPrim KNull c) t (APrim NNone)).
Proof.
  intros Do. destruct (object_cut t [] d (fun _ => True) Do (fun _ _ _ _ _ => Logic.I)) as (j & E & B & T & _).
  exists j. split; auto. split; auto. split; auto. cbn [ber_of der]. split; [exact Logic.I|]. exists []. split; [reflexivity|]. now rewrite <- E.
Qed.

Theorem write_ok : forall n m r p ins i a, (n <= m)%nat -> params_fine env r p -> makes n r ins i a ->
  exists w, write m r p ins i = Ok w /\ written_ok n r p ins i w.
Proof.
  induction n as [|n IH]; intros m r p ins i a L Hp H; [contradiction|]. destruct m as [|m]; [lia|]. apply le_S_n in L.
  cbn [WriteSpec.makes] in H. destruct H as (k & b & Ek & Sp & H & Ho). cbn [WriteModel.write]. rewrite Ek, Sp.
  pose proof Hp as (Hp1 & Hp2). unfold is_open, def_of in Hp2. rewrite Ek in Hp2. cbn [option_map] in Hp2.
  destruct (Ok_env r k Ek) as (Kok & _). destruct (class_ok_parts env k Kok) as (Hc & Kx & Kd). pose proof (tags_fine _ _ Hc Kx Hp1) as TO.
  set (wr := write m).
  assert (W : forall r p ins i a, params_fine env r p -> makes n r ins i a -> exists w, wr r p ins i = Ok w /\ written_ok n r p ins i w) by (intros; eapply IH; eauto).
  assert (P0 : forall r, params_fine env r no_params) by (intros; split; [split; [reflexivity|split; [constructor|cbn; auto]]|reflexivity]).
  set (t := tags_of (r_cls k) p) in *.
  (* enough to show for a native b' *)
  assert (Up : forall w, (len w < 2 ^ 1008 -> exists b', body (makes n) r k ins i b' /\ cut_of w (fun j => forall a', r_out k b' = Ok a' -> recoded (S n) r p ins a' j w)) ->
    written_ok (S n) r p ins i w).
  { intros w G Lw. destruct (G Lw) as (b' & Hb & j & Ej & Bj & Tj & R). destruct (Outs n r k ins i b b' a Ek H Hb Ho) as (a' & Ha').
    exists a'. split; [exists k, b'; auto|]. exists j. auto. }
  destruct (r_def k) as [kd| |bits|fs sel|item|alts fx] eqn:D; destruct ins as [r'|]; unfold WriteSpec.body in H; rewrite D in H; try contradiction.
  - (* primitive *)
    unfold def_okb in Kd. rewrite D in Kd.
    assert (G : (exists f v x w, own r = Some f /\ i = APrim v /\ f v = Ok x /\ plain_contents kd x w /\ b = prim_value w /\ match redo r with Some g => g x = Ok x | None => True end) \/
      exists v w, (means kd v w /\ i = APrim v /\ own r = None \/ kd = KNull /\ v = NNone /\ w = NNone /\ i = ANone) /\ b = prim_value w /\ redo r = None).
    { destruct (own r) as [f|], i as [|v| | | |]; try contradiction.
      1, 3: right; destruct H as (-> & -> & H); exists NNone, NNone; auto 7.
      - left. destruct H as (x & w & H). exists f, v, x, w. auto.
      - right. destruct H as (w & Hm & -> & Er). exists v, w. split; auto. split; auto.
        destruct Hm as (Nv & Hm). destruct w; auto. destruct kd as [| |[]| | | | | | | | | | |]; destruct v; try contradiction; destruct Hm as [Hm _]; congruence. }
    destruct G as [(f & v & x & w & Eo & -> & Ef & Pc & Eb & Rd)|(v & w & A & Eb & Er)].
    + rewrite Eo. cbn [prim_written]. rewrite Ef. cbn [bind]. rewrite (init_tags (r_cls k) p Hp1). cbn [bind].
      fold t. change (full_header t 0 x ++ x) with (object_bytes t x). eexists. split; [reflexivity|]. apply Up. intros Lw. exists b.
      split; [unfold WriteSpec.body; rewrite D, Eo; exists x, w; auto|]. pose proof (object_bytes_der t x TO Lw) as Do.
      assert (C : cut_of (object_bytes t x) (ber_of (SPrim kd (r_cls k)) t (APrim w))).
      { destruct kd; try contradiction; cbn in Pc; destruct Pc as [Pc ->]; [apply (prim_cut KOctets (r_cls k) t (NBytes x) x); auto; [discriminate|reflexivity]|subst x; now apply null_cut]. }
      destruct C as (j & Ej & Bj & Tj & Q). exists j. split; auto. split; auto. split; auto. intros a' Ha'. cbn [RecodeSpec.recoded]. rewrite Ek, D. exists b. split; auto.
      exists w, x. split; auto. split; auto. split; auto.
      destruct kd; try contradiction; cbn in Pc; destruct Pc as [Pc ->]; try subst x; destruct (redo r); auto; reflexivity.
    + destruct (prim_made kd (r_cls k) p v w Kd Hc Kx Hp1) as (o & x & Em & Ed & Bx & Dc & Dv & Hh & _); [tauto|].
      exists (object_bytes t x). split.
      * destruct A as [(_ & -> & ->)|(-> & -> & -> & ->)]; [|destruct (own r)]; cbn [prim_written]; rewrite Em; cbn [bind]; exact Ed.
      * apply Up. intros Lw. exists b. split; [unfold WriteSpec.body; rewrite D; exact H|]. pose proof (object_bytes_der t x TO Lw) as Do.
        assert (C : cut_of (object_bytes t x) (ber_of (SPrim kd (r_cls k)) t (APrim w))).
        { destruct (match kd with KNull => true | _ => false end) eqn:Kn.
          - destruct kd; try discriminate Kn. assert (w = NNone) as -> by (destruct w; cbn in Hh; auto; contradiction). cbn in Dv. subst x. now apply null_cut.
          - apply (prim_cut kd (r_cls k) t w x); auto. intros ->. discriminate Kn. }
        destruct C as (j & Ej & Bj & Tj & Q). exists j. split; auto. split; auto. split; auto. intros a' Ha'. cbn [RecodeSpec.recoded]. rewrite Ek, D. exists b. split; auto.
        exists w, x. split; auto. split; auto. split; auto. rewrite Er. exact Dc.
  - (* a string with a value inside *)
    assert (exists x, match i with AObj q a => wr r' q None a | _ => wr r' no_params None i end = wr r' no_params None x /\
      makes n r' None x b /\ (forall b', makes n r' None x b' -> body (makes n) r k (Some r') i b')) as (x & E & M & Back).
    { destruct i as [| | | | |q y]; try (eexists; split; [reflexivity|]; split; [exact H|]; intros b' Hb; unfold WriteSpec.body; rewrite D; exact Hb).
      destruct H as (-> & H). exists y. split; [reflexivity|]. split; auto. intros b' Hb. unfold WriteSpec.body. rewrite D. auto. }
    destruct (W r' no_params None x b (P0 r') M) as (w & Ew & G). rewrite E, Ew. cbn [bind]. unfold string_dump. rewrite (init_tags (r_cls k) p Hp1). cbn [bind]. fold t.
    eexists. split; [reflexivity|]. apply Up. set (px := (if bits then [0] else []) ++ w). change (full_header t 0 px ++ px) with (object_bytes t px). intros Lw.
    assert (Lw' : len w < 2 ^ 1008). { pose proof (len_object t px). unfold px in *. rewrite len_app in *. unfold len in *. lia. }
    destruct (G Lw') as (b' & Hb & j & Ej & Bj & _ & R). exists b'. split; auto. pose proof (object_bytes_der t px TO Lw) as Do.
    destruct (object_cut t px _ (string_of bits (r_cls k) t (encoding_of j)) Do) as (j2 & E2 & B2 & T2 & Q).
    { intros j2 E1 E2 E3 E4. split; auto. split; auto. left. split; auto. rewrite E4, <- Ej. reflexivity. }
    exists j2. split; auto. split; auto. split; auto. intros a' Ha'. cbn [RecodeSpec.recoded]. rewrite Ek, D. exists b'. split; auto. exists j, w. auto.
  - destruct H as (x & -> & Bx & Eb). unfold string_dump. rewrite (init_tags (r_cls k) p Hp1). cbn [bind]. fold t.
    eexists. split; [reflexivity|]. apply Up. set (px := (if bits then [0] else []) ++ x). change (full_header t 0 px ++ px) with (object_bytes t px). intros Lw.
    exists b. split; [unfold WriteSpec.body; rewrite D; eauto|]. pose proof (object_bytes_der t px TO Lw) as Do.
    destruct (object_cut t px _ (string_of bits (r_cls k) t x) Do) as (j2 & E2 & B2 & T2 & Q).
    { intros j2 E1 E2 E3 E4. repeat (split; auto). }
    exists j2. split; auto. split; auto. split; auto. intros a' Ha'. cbn [RecodeSpec.recoded]. rewrite Ek, D. exists b. split; auto. exists x. auto.
  - destruct H as (li & -> & H). destruct (seq_ok n wr W m r k fs sel li b L Ek Sp D H) as (y & Ey & G).
    assert (Ne : li <> [] /\ fs <> []). { destruct H as (la & ts & _ & Ne & Kn & _). split; auto. destruct li as [|[q x] li]; [congruence|]. destruct (Kn q x (or_introl eq_refl)) as (f & I1 & _). intros ->. contradiction. }
    destruct Ne as [Ne Nf]. exists (cbytes t y). split.
    { destruct li as [|e li]; [congruence|]. rewrite Ey. cbn [bind]. unfold node_octets. rewrite (init_tags (r_cls k) p Hp1). reflexivity. }
    apply Up. intros Lw. pose proof (len_cbytes t y). destruct G as (b' & Hb & R); [lia|]. exists b'. split; [unfold WriteSpec.body; rewrite D; eauto|].
    pose proof (bytes_der_constructed t y TO Lw) as Do. destruct (constructed_cut t y _ (fun x => fields_recoded default_of (recoded n) fs sel b' x y) Do R) as (j & Ej & Bj & Tj & Q).
    exists j. split; auto. split; auto. split; auto. intros a' Ha'. cbn [RecodeSpec.recoded]. rewrite Ek, D. exists b'. split; auto. exists y. split; auto. 
  - destruct H as (r' & li & -> & -> & H). destruct (items_ok n wr W (k_tag (r_cls k) =? 17) r' li b H) as (y & Ey & G). rewrite Ey. cbn [bind].
    exists (cbytes t y). split. { unfold node_octets. rewrite (init_tags (r_cls k) p Hp1). reflexivity. }
    apply Up. intros Lw. pose proof (len_cbytes t y). destruct G as (b' & Hb & R); [lia|]. exists b'. split; [unfold WriteSpec.body; rewrite D; eauto|].
    pose proof (bytes_der_constructed t y TO Lw) as Do. destruct (constructed_cut t y _ (fun x => items_recoded pad (recoded n) (k_tag (r_cls k) =? 17) (Some r') b' x y) Do R) as (j & Ej & Bj & Tj & Q).
    exists j. split; auto. split; auto. split; auto. intros a' Ha'. cbn [RecodeSpec.recoded]. rewrite Ek, D. exists b'. split; auto. exists y. auto.
  - destruct H as (name & x & -> & q & f & r' & Hn & Nx & <- & Gc & M). rewrite (Hp2 eq_refl). cbn [bind]. rewrite (init_tags (r_cls k) p Hp1). cbn [bind]. fold t.
    rewrite (Named r k alts fx f Ek D (nth_error_In _ _ Hn)), Gc.
    destruct (alts_fine env k alts fx f Kok D (nth_error_In _ _ Hn)) as (r2 & x2 & G2 & Pf & _). assert (r2 = r') as -> by congruence.
    destruct (W r' (g_params f) None (bare x) b Pf M) as (w & Ew & G). rewrite Ew. cbn [bind]. eexists. split; [reflexivity|]. apply Up. intros Lw.
    pose proof (len_wrap (t_explicit t) w). destruct G as (b' & Hb & j & Ej & Bj & Tj & R); [lia|]. exists b'.
    split. { unfold WriteSpec.body. rewrite D. exists (g_name f), x. split; auto. exists q, f, r'. auto. }
    assert (Dw : der_wrapped (t_explicit t) w (wrap (t_explicit t) [] w ++ w)) by (apply (wrap_wrapped (t_explicit t) [] w); [apply TO|exact Lw]).
    assert (Dw' : der_wrapped (t_explicit t) (encoding_of j) (wrap (t_explicit t) [] w ++ w)) by (rewrite <- Ej; exact Dw).
    assert (Al : alternative_recoded (recoded n) alts fx b' w j).
    { split; auto. exists q, f. split; auto. split; auto. unfold element_recoded. now rewrite Gc. }
    destruct (wrapped_cut (t_explicit t) _ _ j Bj Tj Al Dw') as (j2 & E2 & B2 & T2 & Q).
    exists j2. split; auto. split; auto. split; auto. intros a' Ha'. cbn [RecodeSpec.recoded]. rewrite Ek, D. exists b'. split; auto. exists w. auto.
Qed.
End Env.
