(* Proofs about EC private keys. *)
Require Import Verif.Base Verif.BaseFacts Verif.IntModel Verif.IntSpec Verif.IntProofs Verif.Text Verif.PrimModel
  Verif.PrimSpec Verif.PrimProofs Verif.PrimSet Verif.PrimDump Verif.PrimLoad Verif.PrimHist Verif.PrimSide Verif.BitModel
  Verif.BitProofs Verif.ParserModel Verif.KeyModel Verif.KeySpec.

Lemma priv_tagging_ok : tagging_ok priv_tagging.
Proof. split; [cbn; lia|]. split; [cbn; lia|constructor]. Qed.

Lemma octets_bounds z n : 1 <= n -> (n = 1 \/ 256 ^ (n - 1) <= z) -> 0 <= z < 256 ^ n -> octets z = n.
Proof.
  intros Hn L U. unfold octets. enough (Z.log2 z / 8 = n - 1) by lia.
  rewrite pow256 in * by lia.
  assert (A : Z.log2 z < 8 * n \/ z = 0).
  { destruct (Z.eq_dec z 0); [auto|]. left. apply Z.log2_lt_pow2; lia. }
  assert (B : n = 1 \/ 8 * (n - 1) <= Z.log2 z).
  { destruct L as [L|L]; [auto|]. right. apply Z.log2_le_pow2; [|lia].
    pose proof (Z.pow_pos_nonneg 2 (8 * (n - 1))). lia. }
  pose proof (Z.log2_nonneg z). destruct A as [A| ->].
  - destruct B as [->|B]; [apply Z.div_small; lia|].
    symmetry. apply Z.div_unique with (r := Z.log2 z - 8 * (n - 1)); lia.
  - destruct B as [->|B]; [reflexivity|]. change (Z.log2 0) with 0 in *. replace n with 1 by lia. reflexivity.
Qed.

Lemma der_nat_octets z c : der_nat z c -> len c = octets z.
Proof.
  intros (B & N & V & M). symmetry. destruct c as [|a c]; [contradiction|]. apply octets_bounds.
  - rewrite len_cons. pose proof (len_nonneg c). lia.
  - destruct c as [|b c]; [left; reflexivity|]. right. rewrite len_cons.
    replace (1 + len (b :: c) - 1) with (len (b :: c)) by lia. subst z. cbn [be_value] in *. fold (be_value (b :: c)).
    inversion B as [|? ? Ba Bc]; subst. pose proof (be_value_bound _ Bc) as Q. change (be_value (b :: c)) with (b * 256 ^ len c + be_value c) in Q.
    unfold byte_ok in Ba. assert (0 < 256 ^ len (b :: c)) by (apply Z.pow_pos_nonneg; [lia|apply len_nonneg]). nia.
  - subst z. pose proof (be_value_bound _ B). lia.
Qed.

Definition carried (w : option Z) (v : native) (o : obj) : Prop := carries KIntOctets priv_cls priv_tagging w v o.

Lemma set_width_cases w n z o : carried w (NInt z) o ->
  (n < 0 -> exists o', set_width priv_cls o n = (o', Err ValueError)) /\ (0 <= n -> z < 256 ^ n -> exists o', set_width priv_cls o n = (o', Ok tt) /\ carried (Some n) (NInt z) o') /\
 (0 <= n -> 256 ^ n <= z -> exists o', set_width priv_cls o n = (o', Err OverflowError)).
Proof.
  intros C. split; [|split].
  - intros Hn. pose proof C as (_ & _ & _ & c & Ec & D & _ & o1 & v1 & Eg & Sv & Hv & _). cbn [same_value] in Sv. subst v1.
    unfold set_width. change (contents (Obj _ _ _ _)) with (contents o). rewrite Ec.
    destruct (Z.eqb_spec (len c) n); [pose proof (len_nonneg c); lia|].
    assert (E : exists o2, get_native KIntOctets priv_cls (Obj (o_tagging o) (o_enc o) (o_cache o) (Some n)) = (o2, Ok (NInt z)) /\ o_width o2 = Some n).
    { unfold get_native, contents, cached in *. cbn [o_enc o_cache] in *. rewrite Ec in *. destruct (c_native (o_cache o)).
      - injection Eg as <- <-. eexists. split; reflexivity.
      - destruct (do b <- merged_bytes KIntOctets priv_cls (e_indef (o_enc o)) c; Ok (NInt (intoctets_decode b))); [|discriminate].
        injection Eg as <- ->. eexists. split; reflexivity. }
    destruct E as (o2 & -> & Ew). cbn [set_value as_int]. cbn [holds] in Hv. destruct (Z.ltb_spec z 0); [lia|].
    cbn [set_native with_cache o_width]. rewrite Ew. unfold intoctets_encode, int_to_bytes, py_to_bytes.
    destruct (Z.ltb_spec n 0); [|lia]. destruct (z <? 0); eexists; reflexivity.
  - intros Hn Hz. destruct (width_carries _ _ _ n _ _ priv_tagging_ok C Hn) as [A _]. auto.
  - intros Hn Hz. destruct (width_carries _ _ _ n _ _ priv_tagging_ok C Hn) as [_ A]. specialize (A Hz).
    destruct (set_width priv_cls o n) as [o' r]. cbn [snd] in A. subst r. eauto.
Qed.

Lemma make_private z : 0 <= z -> exists o c, make KIntOctets priv_cls no_params (NInt z) = Ok o /\ carried None (NInt z) o /\
 contents o = Some c /\ der_nat z c.
Proof.
  intros Hz. destruct (make_settled KIntOctets priv_cls no_params priv_tagging (NInt z)) as (o & Em & C & _); auto.
  - exact I.
  - apply priv_tagging_ok.
  - cbn [holds]. auto.
  - pose proof C as (_ & _ & _ & c & Ec & D & _). exists o, c. auto.
Qed.
Lemma make_negative z : z < 0 -> make KIntOctets priv_cls no_params (NInt z) = Err ValueError.
Proof. intros Hz. unfold make, new_obj. cbn [init_tagging bind]. cbn. destruct (Z.ltb_spec z 0); [reflexivity|lia]. Qed.

Section Key.
  Variable octets_of : Z -> Z.
  Variable sizes : list (text * Z).
  Notation ks := (key_size octets_of sizes).
  Notation step := (step octets_of sizes).
  Definition sized (d : dom) : option Z := match ks d with Ok n => Some n | Err _ => None end.
  Notation abs_step := (abs_step sized).

  Definition inv (a : abs) (k : eck) : Prop :=
    k_version k = a_version a /\ k_size k = a_width a /\ option_map snd (k_params k) = a_params a /\ k_public k = a_public a /\
   match a_value a with
    | None => k_private k = None
    | Some z => exists o, k_private k = Some o /\ carried (a_width a) (NInt z) o
    end.

  (* resizing: the key kept so far carries its value under any width *)
  Lemma update_inv a k n : k_version k = a_version a -> k_size k = Some n -> option_map snd (k_params k) = a_params a ->
    k_public k = a_public a ->
    match a_value a with None => k_private k = None | Some z => exists o w, k_private k = Some o /\ carried w (NInt z) o end ->
    match a_value a with
    | None => update_size k = (k, Ok tt) /\ inv (Abs (a_version a) None (Some n) (a_params a) (a_public a)) k
    | Some z =>
        (n < 0 -> exists k', update_size k = (k', Err ValueError)) /\
       (0 <= n -> 256 ^ n <= z -> exists k', update_size k = (k', Err OverflowError)) /\
       (0 <= n -> z < 256 ^ n -> exists k', update_size k = (k', Ok tt) /\ k_mutated k' = k_mutated k /\
          inv (Abs (a_version a) (Some z) (Some n) (a_params a) (a_public a)) k')
    end.
  Proof.
    intros Ev Es Ep Eu Hv. unfold update_size. rewrite Es. destruct (a_value a) as [z|].
    - destruct Hv as (o & w & -> & C). destruct (set_width_cases w n z o C) as (A & B & D). split; [|split].
      + intros H. destruct (A H) as (o' & ->). eauto.
      + intros H H'. destruct (D H H') as (o' & ->). eauto.
      + intros H H'. destruct (B H H') as (o' & -> & C'). eexists. split; [reflexivity|]. split; [reflexivity|].
        repeat split; cbn; auto. exists o'. auto.
    - rewrite Hv. split; [reflexivity|]. repeat split; cbn; auto.
  Qed.
  (* assigning the private key *)
  Lemma set_private_inv a k z : inv a k ->
    (z < 0 -> set_private k ByName z = (k, Err ValueError)) /\
    (0 <= z ->
       match a_width a with
       | Some n =>
           (n < 0 -> exists k', set_private k ByName z = (k', Err ValueError)) /\
           (0 <= n -> 256 ^ n <= z -> exists k', set_private k ByName z = (k', Err OverflowError)) /\
           (0 <= n -> z < 256 ^ n -> exists k', set_private k ByName z = (k', Ok tt) /\ k_mutated k' = true /\
              inv (abs_step a (SetPrivate ByName z)) k')
       | None => exists k', set_private k ByName z = (k', Ok tt) /\ k_mutated k' = true /\ inv (abs_step a (SetPrivate ByName z)) k'
       end).
  Proof.
    intros (Ev & Es & Ep & Eu & _). split.
    - intros Hz. unfold set_private. now rewrite make_negative.
    - intros Hz. destruct (make_private z Hz) as (o & c & Em & C & Ec & D). unfold set_private. rewrite Em.
      set (k1 := fields_changed k (k_version k) (Some o) (k_params k) (k_public k)).
      assert (E1 : k_size k1 = a_width a) by exact Es. rewrite E1.
      set (a1 := Abs (a_version a) (Some z) (a_width a) (a_params a) (a_public a)).
      assert (U : forall k2 n, k2 = with_size k1 n \/ k2 = k1 -> k_size k2 = Some n ->
        (n < 0 -> exists k', update_size k2 = (k', Err ValueError)) /\
        (0 <= n -> 256 ^ n <= z -> exists k', update_size k2 = (k', Err OverflowError)) /\
        (0 <= n -> z < 256 ^ n -> exists k', update_size k2 = (k', Ok tt) /\ k_mutated k' = true /\
           inv (Abs (a_version a) (Some z) (Some n) (a_params a) (a_public a)) k')).
      { intros k2 n Hk2 Hs.
        assert (F : k_version k2 = a_version a1 /\ option_map snd (k_params k2) = a_params a1 /\ k_public k2 = a_public a1 /\
                    k_private k2 = Some o /\ k_mutated k2 = true) by (destruct Hk2 as [-> | ->]; cbn; auto).
        destruct F as (F1 & F2 & F3 & F4 & F5).
        pose proof (update_inv a1 k2 n F1 Hs F2 F3) as H. cbn [a1 a_value a_version a_params a_public] in H.
        destruct H as (A & B & D'); [exists o, None; auto|]. split; [exact A|]. split; [exact B|].
        intros H H'. destruct (D' H H') as (k' & -> & M & I). exists k'. rewrite M. auto. }
      pose proof (der_nat_octets z c D) as Lc. destruct (a_width a) as [n|] eqn:Ew.
      + destruct (U k1 n) as (A & B & D'); auto. split; [exact A|]. split; [exact B|].
        intros H H'. destruct (D' H H') as (k' & -> & M & I). exists k'. split; [reflexivity|]. split; [exact M|].
        cbn [KeySpec.abs_step]. rewrite Ew. exact I.
      + rewrite Ec, Lc. cbn [KeySpec.abs_step]. rewrite Ew. destruct (Z.ltb_spec 1 (octets z)) as [G|G].
        * unfold set_key_size. destruct (U (with_size k1 (octets z)) (octets z)) as (_ & _ & D'); auto.
          assert (Hb : z < 256 ^ octets z).
          { rewrite <- Lc. destruct D as (B & _ & <- & _). pose proof (be_value_bound c B). lia. }
          destruct D' as (k' & -> & M & I); [lia|exact Hb|]. exists k'. auto.
        * exists k1. split; [reflexivity|]. split; [reflexivity|]. repeat split; cbn; auto. exists o. auto.
  Qed.

  Lemma set_size_inv a k n : inv a k ->
    match a_value a with
    | None => exists k', set_key_size k n = (k', Ok tt) /\ k_mutated k' = k_mutated k /\ inv (abs_step a (SetSize n)) k'
    | Some z =>
        (n < 0 -> exists k', set_key_size k n = (k', Err ValueError)) /\
        (0 <= n -> 256 ^ n <= z -> exists k', set_key_size k n = (k', Err OverflowError)) /\
        (0 <= n -> z < 256 ^ n -> exists k', set_key_size k n = (k', Ok tt) /\ k_mutated k' = k_mutated k /\
           inv (abs_step a (SetSize n)) k')
    end.
  Proof.
    intros (Ev & Es & Ep & Eu & Hv). unfold set_key_size. pose proof (update_inv a (with_size k n) n Ev eq_refl Ep Eu) as H.
    cbn [KeySpec.abs_step]. destruct (a_value a) as [z|].
    - destruct Hv as (o & Eo & C). apply H. exists o, (a_width a). auto.
    - destruct (H Hv) as [H1 H2]. rewrite H1. eexists. split; [reflexivity|]. split; [reflexivity|exact H2].
  Qed.

  Lemma inv_params a k p : inv a k ->
    inv (Abs (a_version a) (a_value a) (a_width a) (option_map snd p) (a_public a))
        (fields_changed k (k_version k) (k_private k) p (k_public k)).
  Proof. intros (Ev & Es & Ep & Eu & Hv). repeat split; cbn; auto. Qed.

  (* the outcome of assigning parameters whose domain has a size *)
  Lemma set_params_inv a k d b : inv a k -> d <> ImplicitCA ->
    match ks d with
    | Err e => exists k', set_params octets_of sizes k ByName (Some (d, b)) = (k', Err e)
    | Ok n =>
        match a_value a with
        | None => exists k', set_params octets_of sizes k ByName (Some (d, b)) = (k', Ok tt) /\ k_mutated k' = true /\
            inv (abs_step a (SetParams ByName (Some (d, b)))) k'
        | Some z =>
            (n < 0 -> exists k', set_params octets_of sizes k ByName (Some (d, b)) = (k', Err ValueError)) /\
            (0 <= n -> 256 ^ n <= z -> exists k', set_params octets_of sizes k ByName (Some (d, b)) = (k', Err OverflowError)) /\
            (0 <= n -> z < 256 ^ n -> exists k', set_params octets_of sizes k ByName (Some (d, b)) = (k', Ok tt) /\ k_mutated k' = true /\
               inv (abs_step a (SetParams ByName (Some (d, b)))) k')
        end
    end.
  Proof.
    intros I Nd. pose proof (inv_params a k (Some (d, b)) I) as J. cbn [option_map snd] in J.
    set (k1 := fields_changed k (k_version k) (k_private k) (Some (d, b)) (k_public k)) in *.
    assert (E : set_params octets_of sizes k ByName (Some (d, b)) =
                match ks d with Ok n => set_key_size k1 n | Err e => (k1, Err e) end).
    { unfold set_params. fold k1. destruct d; [reflexivity|reflexivity|contradiction]. }
    rewrite E. destruct (ks d) as [n|e] eqn:Ek; [|eauto].
    assert (A : abs_step a (SetParams ByName (Some (d, b))) =
                abs_step (Abs (a_version a) (a_value a) (a_width a) (Some b) (a_public a)) (SetSize n)).
    { cbn [KeySpec.abs_step a_version a_value a_params a_public]. unfold sized. rewrite Ek. destruct d; [reflexivity|reflexivity|contradiction]. }
    rewrite A. pose proof (set_size_inv _ k1 n J) as H. cbn [a_value] in H. exact H.
  Qed.

  Definition fresh (a : abs) (k : eck) (c : bytes) : Prop :=
    exists v z o p, a_version a = Some v /\ a_value a = Some z /\ k_private k = Some o /\ contents o = Some p /\ private_form a z p /\
      c = v ++ object_bytes priv_tagging p ++ opt (a_params a) ++ opt (a_public a).

  Lemma private_of a k z : inv a k -> a_value a = Some z ->
    exists o p, k_private k = Some o /\ contents o = Some p /\ private_form a z p /\ snd (get_native KIntOctets priv_cls o) = Ok (NInt z).
  Proof.
    intros (_ & _ & _ & _ & Hv) Ez. rewrite Ez in Hv. destruct Hv as (o & Eo & C). exists o.
    pose proof C as (_ & _ & _ & c & Ec & D & _ & o1 & v1 & Eg & Sv & _). cbn [same_value] in Sv. subst v1.
    exists c. split; [exact Eo|]. split; [exact Ec|]. split; [|now rewrite Eg].
    unfold private_form. cbn [der_value] in D. destruct (a_width a); exact D.
  Qed.

  Lemma contents_inv a k f : inv a k -> a_version a <> None -> a_value a <> None ->
    exists k' c, set_key_contents k f = (k', Ok tt) /\ inv a k' /\ k_mutated k' = false /\ k_contents k' = Some c /\ fresh a k' c.
  Proof.
    intros (Ev & Es & Ep & Eu & Hv) Nv Nz. destruct (a_version a) as [v|] eqn:Ea; [|contradiction].
    destruct (a_value a) as [z|] eqn:Ez; [|contradiction]. destruct Hv as (o & Eo & C).
    unfold set_key_contents. rewrite Eo.
    destruct (carries_dump KIntOctets priv_cls priv_tagging (a_width a) (NInt z) o f I priv_tagging_ok C) as (o' & c & -> & D & C').
    eexists. eexists. split; [reflexivity|]. cbn [k_mutated k_contents with_private k_version k_params k_public].
    split; [repeat split; cbn; auto; [now rewrite Ea|rewrite Ez; exists o'; auto]|]. split; [reflexivity|]. split; [reflexivity|].
    pose proof C' as (_ & _ & _ & c' & Ec' & D' & _).
    assert (c' = c) as ->.
    { apply (der_value_unique KIntOctets (a_width a) (NInt z)); auto. exact I. }
    exists v, z, o', c. split; [exact Ea|]. split; [exact Ez|]. split; [reflexivity|]. split; [exact Ec'|]. split.
    - unfold private_form. cbn [der_value] in D. destruct (a_width a); exact D.
    - rewrite Ev, Eu, Ep. reflexivity.
  Qed.

  (* ---- dump ---- *)
  Lemma dump_missing a k f : inv a k -> a_version a = None \/ a_value a = None -> exists k', dump_key k f = (k', Err ValueError).
  Proof.
    intros I H. unfold dump_key.
    assert (M : forall k', inv a k' -> match k_version k', k_private k' with Some _, Some _ => get_contents k' | _, _ => (k', Err ValueError) end = (k', Err ValueError)).
    { intros k' (Ev & _ & _ & _ & Hv). rewrite Ev. destruct H as [H|H]; rewrite H in *; [reflexivity|].
      rewrite Hv. destruct (a_version a); reflexivity. }
    destruct f.
    - destruct (a_value a) as [z|] eqn:Ez.
      + destruct H as [H|H]; [|discriminate].
        destruct I as (Ev & Es & Ep & Eu & Hv). rewrite Ez in Hv. destruct Hv as (o & Eo & C).
        unfold set_key_contents. rewrite Eo.
        destruct (carries_dump KIntOctets priv_cls priv_tagging (a_width a) (NInt z) o true Logic.I priv_tagging_ok C) as (o' & c & -> & _ & _).
        cbn [k_version with_private]. rewrite Ev, H. eauto.
      + unfold set_key_contents. destruct I as (Ev & Es & Ep & Eu & Hv). rewrite Ez in Hv. rewrite Hv.
        cbn [k_version k_private]. destruct (k_version k); eauto.
    - rewrite (M k I). eauto.
  Qed.

  (* what a key that is not marked as mutated keeps *)
  Definition current (a : abs) (k : eck) : Prop :=
    k_mutated k = false -> (a_version a = None \/ a_value a = None) \/ exists c, k_contents k = Some c /\ fresh a k c.

  Lemma dump_forced a k : inv a k -> a_version a <> None -> a_value a <> None ->
    exists k' c, dump_key k true = (k', Ok c) /\ inv a k' /\ current a k' /\ fresh a k' c.
  Proof.
    intros J Nv Nz. destruct (contents_inv a k true J Nv Nz) as (k' & c & E & J' & M & Ec & F). unfold dump_key. rewrite E.
    pose proof J' as (Ev & _ & _ & _ & Hv).
    destruct (a_version a) as [v|] eqn:Ea; [|contradiction]. destruct (a_value a) as [z|] eqn:Ez; [|contradiction].
    destruct Hv as (o & Eo & _). rewrite Ev, Eo. unfold get_contents. rewrite M, Ec. exists k', c. split; [reflexivity|].
    split; [exact J'|]. split; [|exact F]. intros _. right. eauto.
  Qed.
  Lemma dump_plain a k : inv a k -> current a k -> a_version a <> None -> a_value a <> None ->
    exists k' c, dump_key k false = (k', Ok c) /\ inv a k' /\ current a k' /\ fresh a k' c.
  Proof.
    intros J Cu Nv Nz. unfold dump_key. pose proof J as (Ev & _ & _ & _ & Hv).
    destruct (a_version a) as [v|] eqn:Ea; [|contradiction]. destruct (a_value a) as [z|] eqn:Ez; [|contradiction].
    destruct Hv as (o & Eo & _). rewrite Ev, Eo. unfold get_contents. destruct (k_mutated k) eqn:M.
    - destruct (contents_inv a k false J) as (k' & c & E & J' & M' & Ec & F); [congruence|congruence|]. rewrite E, Ec.
      exists k', c. split; [reflexivity|]. split; [exact J'|]. split; [|exact F]. intros _. right. eauto.
    - destruct (Cu M) as [[H|H]|(c & Ec & F)]; [congruence|congruence|]. rewrite Ec. exists k, c. auto.
  Qed.

  (* a dump that succeeds leaves the key what it is *)
  Lemma dump_any a k f k' b : inv a k -> dump_key k f = (k', Ok b) -> inv a k'.
  Proof.
    intros J E.
    assert (Nv : a_version a <> None) by (intros H; destruct (dump_missing a k f J (or_introl H)) as (x & E'); congruence).
    assert (Nz : a_value a <> None) by (intros H; destruct (dump_missing a k f J (or_intror H)) as (x & E'); congruence).
    destruct f.
    - destruct (dump_forced a k J Nv Nz) as (k2 & c & E2 & J' & _). congruence.
    - unfold dump_key in E. pose proof J as (Ev & _ & _ & _ & Hv).
      destruct (a_version a) as [v|] eqn:Ea; [|contradiction]. destruct (a_value a) as [z|] eqn:Ez; [|contradiction].
      destruct Hv as (o & Eo & _). rewrite Ev, Eo in E. unfold get_contents in E. destruct (k_mutated k).
      + destruct (contents_inv a k false J) as (k2 & c & E2 & J' & M' & Ec & F); [congruence|congruence|]. rewrite E2, Ec in E. congruence.
      + destruct (k_contents k); congruence.
  Qed.

  Lemma new_inv : inv nothing new_key.
  Proof. repeat split. Qed.

  Lemma ran_ok (x : eck * res unit) k b : ran ([] : bytes) x = (k, Ok b) -> x = (k, Ok tt).
  Proof. destruct x as [k1 [[]|e]]; cbn; intros H; [injection H as -> _; reflexivity|discriminate]. Qed.

  Lemma step_params a k d e k' : inv a k -> d <> ImplicitCA ->
    set_params octets_of sizes k ByName (Some (d, e)) = (k', Ok tt) ->
    inv (abs_step a (SetParams ByName (Some (d, e)))) k' /\
    (no_resize (SetParams ByName (Some (d, e))) -> current a k -> current (abs_step a (SetParams ByName (Some (d, e)))) k').
  Proof.
    intros J Q E. pose proof (set_params_inv a k d e J Q) as H.
    enough (G : k_mutated k' = true /\ inv (abs_step a (SetParams ByName (Some (d, e)))) k').
    { destruct G as [M G]. split; [exact G|]. intros _ _ M'. congruence. }
    destruct (ks d) as [n|x]; [|destruct H; congruence]. destruct (a_value a) as [z|] eqn:Ez.
    - destruct H as (B1 & B2 & B3). destruct (Z.ltb_spec n 0) as [Hn|Hn]; [destruct (B1 Hn); congruence|].
      destruct (Z.ltb_spec z (256 ^ n)) as [Hb|Hb]; [|destruct (B2 Hn Hb); congruence].
      destruct (B3 Hn Hb) as (k2 & E2 & M & I2). assert (k2 = k') as -> by congruence. auto.
    - destruct H as (k2 & E2 & M & I2). assert (k2 = k') as -> by congruence. auto.
  Qed.

  Lemma step_inv a k x k' b : by_name x -> inv a k -> step k x = (k', Ok b) -> inv (abs_step a x) k' /\
    (no_resize x -> current a k -> current (abs_step a x) k').
  Proof.
    intros N J E. destruct x as [v|w z|w p|p| |n|f]; cbn [KeyModel.step KeySpec.abs_step] in *.
    - injection E as <- _. destruct J as (Ev & Es & Ep & Eu & Hv). split; [repeat split; cbn; auto|]. intros _ _ M. discriminate M.
    - destruct w; [|contradiction]. apply ran_ok in E. destruct (set_private_inv a k z J) as [A B].
      destruct (Z.ltb_spec z 0) as [Hz|Hz]; [rewrite (A Hz) in E; discriminate|]. specialize (B Hz).
      enough (G : k_mutated k' = true /\ inv (abs_step a (SetPrivate ByName z)) k').
      { destruct G as [M G]. split; [exact G|]. intros _ _ M'. congruence. }
      destruct (a_width a) as [n|].
      + destruct B as (B1 & B2 & B3). destruct (Z.ltb_spec n 0) as [Hn|Hn]; [destruct (B1 Hn); congruence|].
        destruct (Z.ltb_spec z (256 ^ n)) as [Hb|Hb]; [|destruct (B2 Hn Hb); congruence].
        destruct (B3 Hn Hb) as (k2 & E2 & M & I2). assert (k2 = k') as -> by congruence. auto.
      + destruct B as (k2 & E2 & M & I2). assert (k2 = k') as -> by congruence. auto.
    - destruct w; [|contradiction]. apply ran_ok in E. destruct p as [[d e]|].
      + assert (Q : d = ImplicitCA \/ d <> ImplicitCA) by (destruct d; auto; right; discriminate).
        destruct Q as [-> | Q]; [|exact (step_params a k d e k' J Q E)].
        cbn in E. injection E as <-. split; [exact (inv_params a k (Some (ImplicitCA, e)) J)|]. intros _ _ M. discriminate M.
      + cbn in E. injection E as <-. split; [exact (inv_params a k None J)|]. intros _ _ M. discriminate M.
    - injection E as <- _. destruct J as (Ev & Es & Ep & Eu & Hv). split; [repeat split; cbn; auto|]. intros _ _ M. discriminate M.
    - injection E as <- _. split; [exact (inv_params a k None J)|]. intros _ _ M. discriminate M.
    - apply ran_ok in E. pose proof (set_size_inv a k n J) as H. split; [|intros []].
      destruct (a_value a) as [z|] eqn:Ez.
      + destruct H as (B1 & B2 & B3). destruct (Z.ltb_spec n 0) as [Hn|Hn]; [destruct (B1 Hn); congruence|].
        destruct (Z.ltb_spec z (256 ^ n)) as [Hb|Hb]; [|destruct (B2 Hn Hb); congruence].
        destruct (B3 Hn Hb) as (k2 & E2 & M & I2). assert (k2 = k') as -> by congruence. cbn [KeySpec.abs_step] in I2. rewrite Ez in I2. exact I2.
      + destruct H as (k2 & E2 & M & I2). assert (k2 = k') as -> by congruence. cbn [KeySpec.abs_step] in I2. rewrite Ez in I2. exact I2.
    - split; [exact (dump_any a k f k' b J E)|]. intros _ Cu.
      assert (Nv : a_version a <> None) by (intros H; destruct (dump_missing a k f J (or_introl H)) as (x & E'); congruence).
      assert (Nz : a_value a <> None) by (intros H; destruct (dump_missing a k f J (or_intror H)) as (x & E'); congruence).
      destruct f.
      + destruct (dump_forced a k J Nv Nz) as (k2 & c & E2 & _ & C' & _). assert (k2 = k') as -> by congruence. exact C'.
      + destruct (dump_plain a k J Cu Nv Nz) as (k2 & c & E2 & _ & C' & _). assert (k2 = k') as -> by congruence. exact C'.
  Qed.

  Lemma run_inv : forall ops a k k', Forall by_name ops -> inv a k -> run octets_of sizes k ops = Ok k' ->
    inv (fold_left abs_step ops a) k' /\ (Forall no_resize ops -> current a k -> current (fold_left abs_step ops a) k').
  Proof.
    induction ops as [|x ops IH]; intros a k k' N J E; cbn [run fold_left] in *.
    - injection E as <-. auto.
    - inversion N as [|? ? Nx Nr]; subst. destruct (step k x) as [k1 [b|e]] eqn:Ex; [|discriminate].
      destruct (step_inv a k x k1 b Nx J Ex) as [J1 C1]. destruct (IH _ _ _ Nr J1 E) as [J2 C2]. split; [exact J2|].
      intros R Cu. inversion R; subst. auto.
  Qed.

  Lemma new_current : current nothing new_key.
  Proof. intros _. left. left. reflexivity. Qed.

  Lemma fresh_form a k c : fresh a k c -> len c < 2 ^ 1008 -> key_form a c.
  Proof.
    intros (v & z & o & p & Ev & Ez & _ & _ & F & ->) L. exists v, z, p, (object_bytes priv_tagging p).
    split; [exact Ev|]. split; [exact Ez|]. split; [exact F|]. split; [|reflexivity].
    apply object_bytes_der; [apply priv_tagging_ok|]. rewrite !len_app in L. pose proof (len_nonneg v).
    pose proof (len_nonneg (opt (a_params a))). pose proof (len_nonneg (opt (a_public a))). lia.
  Qed.

  (* what the histories of a new key show *)
  Lemma history_private ops k : Forall by_name ops -> run octets_of sizes new_key ops = Ok k ->
    match a_value (abs_run sized ops) with
    | None => k_private k = None
    | Some z => exists o c, k_private k = Some o /\ contents o = Some c /\ private_form (abs_run sized ops) z c /\
        snd (get_native KIntOctets priv_cls o) = Ok (NInt z)
    end.
  Proof.
    intros N E. destruct (run_inv ops nothing new_key k N new_inv E) as [J _]. fold (abs_run sized ops) in J.
    destruct (a_value (abs_run sized ops)) as [z|] eqn:Ez; [exact (private_of _ k z J Ez)|].
    destruct J as (_ & _ & _ & _ & Hv). now rewrite Ez in Hv.
  Qed.
  Lemma history_forced ops k : Forall by_name ops -> run octets_of sizes new_key ops = Ok k ->
    a_version (abs_run sized ops) <> None -> a_value (abs_run sized ops) <> None ->
    exists d, snd (dump_key k true) = Ok d /\ (len d < 2 ^ 1008 -> key_form (abs_run sized ops) d).
  Proof.
    intros N E Nv Nz. destruct (run_inv ops nothing new_key k N new_inv E) as [J _].
    destruct (dump_forced _ k J Nv Nz) as (k' & c & -> & _ & _ & F). exists c. split; [reflexivity|]. intros L. eapply fresh_form; eauto.
  Qed.
  Lemma history_dump ops k : Forall by_name ops -> Forall no_resize ops -> run octets_of sizes new_key ops = Ok k ->
    a_version (abs_run sized ops) <> None -> a_value (abs_run sized ops) <> None ->
    exists d, snd (dump_key k false) = Ok d /\ (len d < 2 ^ 1008 -> key_form (abs_run sized ops) d).
  Proof.
    intros N R E Nv Nz. destruct (run_inv ops nothing new_key k N new_inv E) as [J C].
    destruct (dump_plain _ k J (C R new_current) Nv Nz) as (k' & c & -> & _ & _ & F). exists c. split; [reflexivity|]. intros L. eapply fresh_form; eauto.
  Qed.

  (* the outcome of an assignment *)
  Lemma ran_snd (x : eck * res unit) : snd (ran ([] : bytes) x) = match snd x with Ok tt => Ok [] | Err e => Err e end.
  Proof. reflexivity. Qed.

  Lemma outcome_ok ops k x : Forall by_name ops -> run octets_of sizes new_key ops = Ok k -> by_name x ->
    match x with Dump _ => False | _ => True end ->
    snd (step k x) = match outcome ks (abs_run sized ops) x with Ok tt => Ok [] | Err e => Err e end.
  Proof.
    intros N E Nx Nd. destruct (run_inv ops nothing new_key k N new_inv E) as [J _]. fold (abs_run sized ops) in J.
    set (a := abs_run sized ops) in *.
    assert (F : forall n f, match a_value a with
        | None => exists k', f = (k', Ok tt)
        | Some z => (n < 0 -> exists k', f = (k', Err ValueError)) /\ (0 <= n -> 256 ^ n <= z -> exists k', f = (k', Err OverflowError)) /\
                    (0 <= n -> z < 256 ^ n -> exists k', f = (k', Ok tt))
        end -> snd (ran ([] : bytes) f) = match fits (Some n) (a_value a) with Ok tt => Ok [] | Err e => Err e end).
    { intros n f H. unfold fits. rewrite ran_snd. destruct (a_value a) as [z|].
      - destruct H as (A & B & C). destruct (Z.ltb_spec n 0) as [Hn|Hn]; [destruct (A Hn) as (x1 & ->); reflexivity|].
        destruct (Z.ltb_spec z (256 ^ n)) as [Hb|Hb]; [destruct (C Hn Hb) as (x1 & ->)|destruct (B Hn Hb) as (x1 & ->)]; reflexivity.
      - destruct H as (x1 & ->). reflexivity. }
    destruct x as [v|w z|w p|p| |n|f]; cbn [KeyModel.step outcome]; try reflexivity.
    - destruct w; [|contradiction]. rewrite ran_snd. destruct (set_private_inv a k z J) as [A B].
      destruct (Z.ltb_spec z 0) as [Hz|Hz]; [rewrite (A Hz); reflexivity|]. specialize (B Hz). unfold fits.
      destruct (a_width a) as [n|].
      + destruct B as (B1 & B2 & B3). destruct (Z.ltb_spec n 0) as [Hn|Hn]; [destruct (B1 Hn) as (x1 & ->); reflexivity|].
        destruct (Z.ltb_spec z (256 ^ n)) as [Hb|Hb]; [destruct (B3 Hn Hb) as (x1 & -> & _)|destruct (B2 Hn Hb) as (x1 & ->)]; reflexivity.
      + destruct B as (x1 & -> & _). reflexivity.
    - destruct w; [|contradiction]. destruct p as [[d e]|]; [|reflexivity].
      assert (Q : d = ImplicitCA \/ d <> ImplicitCA) by (destruct d; auto; right; discriminate).
      destruct Q as [-> | Q]; [reflexivity|]. pose proof (set_params_inv a k d e J Q) as H.
      replace (match d with ImplicitCA => Ok tt | _ => do n <- ks d; fits (Some n) (a_value a) end)
        with (do n <- ks d; fits (Some n) (a_value a)) by (destruct d; [reflexivity|reflexivity|contradiction]).
      destruct (ks d) as [n|x1]; cbn [bind].
      + apply F. destruct (a_value a) as [z|].
        * destruct H as (A & B & C). split; [exact A|]. split; [exact B|]. intros H1 H2. destruct (C H1 H2) as (k' & E' & _). eauto.
        * destruct H as (k' & E' & _). eauto.
      + destruct H as (k' & E'). rewrite E'. reflexivity.
    - apply F. pose proof (set_size_inv a k n J) as H. destruct (a_value a) as [z|].
      + destruct H as (A & B & C). split; [exact A|]. split; [exact B|]. intros H1 H2. destruct (C H1 H2) as (k' & E' & _). eauto.
      + destruct H as (k' & E' & _). eauto.
    - contradiction.
  Qed.

  (* ---- keys that were loaded ---- *)
  Lemma loaded_read c w : bytes_ok c ->
    get_native KIntOctets priv_cls (Obj priv_tagging (o_enc (loaded_private c)) no_cache w) =
      (Obj priv_tagging (o_enc (loaded_private c)) (Cache (Some (NInt (be_value c))) None None [] None) w, Ok (NInt (be_value c))).
  Proof.
    intros B. unfold get_native, contents. cbn [o_enc loaded_private e_contents e_indef]. unfold cached. cbn [o_cache no_cache c_native].
    unfold merged_bytes. cbn [merge bytes_chunk bind]. unfold intoctets_decode. rewrite int_from_bytes_unsigned. reflexivity.
  Qed.

  Lemma loaded_width c n : bytes_ok c -> 0 <= n -> be_value c < 256 ^ n ->
    exists o', set_width priv_cls (loaded_private c) n = (o', Ok tt) /\ carried (Some n) (NInt (be_value c)) o' /\
      (len c = n -> o' = Obj priv_tagging (o_enc (loaded_private c)) no_cache (Some n)).
  Proof.
    intros B Hn Hb. unfold set_width. set (ow := Obj _ _ _ _). change (contents ow) with (Some c). cbv beta iota.
    assert (Hz : 0 <= be_value c) by (pose proof (be_value_bound c B); lia).
    assert (H : holds KIntOctets (Some n) (NInt (be_value c))) by (cbn [holds]; auto).
    destruct (Z.eqb_spec (len c) n) as [L|L].
    - exists ow. split; [reflexivity|]. split; [|reflexivity]. split; [reflexivity|]. split; [reflexivity|]. split; [left; reflexivity|].
      exists c. split; [reflexivity|]. split; [cbn [der_value]; auto|]. split; [right; split; reflexivity|].
      eexists. eexists. split; [exact (loaded_read c (Some n) B)|]. split; [reflexivity|]. split; [exact H|]. cbn [der_value]. auto.
    - unfold ow. cbn [o_tagging o_cache loaded_private]. rewrite (loaded_read c (Some n) B).
      match goal with |- context [set_value _ ?o _] => destruct (carries_set KIntOctets priv_cls priv_tagging (Some n) (NInt (be_value c)) o) as (o' & E' & C') end;
        try exact Logic.I; try reflexivity; auto.
      + apply priv_tagging_ok.
      + discriminate.
      + exists o'. rewrite E'. split; [reflexivity|]. split; [exact C'|]. intros; contradiction.
  Qed.
  Lemma loaded_dump c : len c < 128 -> dump KIntOctets priv_cls (loaded_private c) false = (loaded_private c, Ok (object_bytes priv_tagging c)).
  Proof.
    intros L. unfold dump, base_dump. cbn [loaded_private o_enc e_header e_contents e_trailer orb].
    assert (E : ends_80 (Some (full_header priv_tagging 0 c)) = false).
    { unfold full_header, dump_header. cbn [priv_tagging t_explicit t_class t_tag wrap fold_left].
      destruct (Z.leb_spec (len c) 127); [|lia]. change (ends_80 (Some [4; len c]) = false). cbn [ends_80 last].
      destruct (Z.eqb_spec (len c) 128); [lia|reflexivity]. }
    rewrite E. rewrite app_nil_r. reflexivity.
  Qed.

  (* once its parameters are assigned a loaded key is as good as a new one *)
  Lemma loaded_inv v c p u d b n : bytes_ok c -> d <> ImplicitCA -> ks d = Ok n -> 0 <= n -> be_value c < 256 ^ n ->
    exists k, step (loaded v c p u) (SetParams ByName (Some (d, b))) = (k, Ok []) /\
      inv (Abs (Some v) (Some (be_value c)) (Some n) (Some b) u) k /\ k_mutated k = true.
  Proof.
    intros B Nd Ek Hn Hb. destruct (loaded_width c n B Hn Hb) as (o' & E & C & _).
    exists (K (Some v) (Some o') (Some (d, b)) u (Some n) true (k_contents (loaded v c p u))). split.
    - cbn [KeyModel.step]. unfold set_params. cbn [fields_changed loaded].
      replace (match d with ImplicitCA => _ | _ => _ end)
        with (set_key_size (fields_changed (loaded v c p u) (Some v) (Some (loaded_private c)) (Some (d, b)) u) n)
        by (destruct d; [rewrite Ek; reflexivity|rewrite Ek; reflexivity|contradiction]).
      unfold set_key_size, update_size. cbn [with_size k_size fields_changed k_private k_version k_params k_public k_mutated k_contents]. rewrite E. reflexivity.
    - split; [|reflexivity]. repeat split; cbn; auto. exists o'. auto.
  Qed.
  Lemma loaded_history v c p u d b n ops k : bytes_ok c -> d <> ImplicitCA -> ks d = Ok n -> 0 <= n -> be_value c < 256 ^ n ->
    Forall by_name ops -> Forall no_resize ops ->
    run octets_of sizes (loaded v c p u) (SetParams ByName (Some (d, b)) :: ops) = Ok k ->
    let a := fold_left abs_step ops (Abs (Some v) (Some (be_value c)) (Some n) (Some b) u) in
    exists e, snd (dump_key k false) = Ok e /\ (len e < 2 ^ 1008 -> key_form a e).
  Proof.
    intros B Nd Ek Hn Hb N R E a. destruct (loaded_inv v c p u d b n B Nd Ek Hn Hb) as (k1 & E1 & J & M).
    cbn [run] in E. rewrite E1 in E. destruct (run_inv ops _ k1 k N J E) as [J2 C2]. fold a in J2, C2.
    assert (Cu : current a k) by (apply C2; auto; intros M'; congruence).
    assert (P : forall l a0, a_version a0 <> None -> a_value a0 <> None ->
      a_version (fold_left abs_step l a0) <> None /\ a_value (fold_left abs_step l a0) <> None).
    { induction l as [|x l IH]; intros a0 H1 H2; [auto|]. cbn [fold_left].
      apply IH; destruct x as [?|? ?|? [[? ?]|]|?| |?|?]; cbn; auto; discriminate. }
    destruct (P ops (Abs (Some v) (Some (be_value c)) (Some n) (Some b) u)) as [P1 P2]; [discriminate|discriminate|].
    destruct (dump_plain a k J2 Cu P1 P2) as (k' & e & -> & _ & _ & F). exists e. split; [reflexivity|]. intros L. eapply fresh_form; eauto.
  Qed.
  (* a loaded key is written as it was *)
  Lemma loaded_same v c p u : snd (dump_key (loaded v c p u) false) = Ok (v ++ object_bytes priv_tagging c ++ opt (option_map snd p) ++ opt u).
  Proof. reflexivity. Qed.

  (* ---- PrivateKeyInfo ---- *)
  Lemma resize_inv a k d b n : inv a k -> d <> ImplicitCA -> ks d = Ok n ->
    match a_value a with
    | None => True
    | Some z =>
      (0 <= n -> 256 ^ n <= z -> snd (resize octets_of sizes (PKI d b k)) = Err OverflowError) /\
      (0 <= n -> z < 256 ^ n -> exists k', resize octets_of sizes (PKI d b k) = (PKI d b k', Ok tt) /\ inv (abs_step a (SetSize n)) k')
    end.
  Proof.
    intros J Nd Ek. assert (E : resize octets_of sizes (PKI d b k) = let '(k', r) := set_key_size k n in (PKI d b k', r)).
    { unfold resize. cbn [p_params p_octets p_parsed]. destruct d; [rewrite Ek; reflexivity|rewrite Ek; reflexivity|contradiction]. }
    rewrite E. pose proof (set_size_inv a k n J) as H. destruct (a_value a) as [z|]; [|exact Logic.I].
    destruct H as (_ & H2 & H3). split.
    - intros G1 G2. destruct (H2 G1 G2) as (k' & ->). reflexivity.
    - intros G1 G2. destruct (H3 G1 G2) as (k' & -> & _ & J'). eauto.
  Qed.

  Lemma make_info ops k d n z : Forall by_name ops -> Forall no_resize ops -> run octets_of sizes new_key ops = Ok k ->
    d <> ImplicitCA -> ks d = Ok n -> 0 <= n -> let a := abs_run sized ops in a_version a <> None -> a_value a = Some z ->
    (256 ^ n <= z -> exists x, pki_make octets_of sizes d k = Ok (x, Err OverflowError)) /\
    (z < 256 ^ n -> exists x, pki_make octets_of sizes d k = Ok (x, Ok tt) /\
       (exists o c, k_private (p_parsed x) = Some o /\ contents o = Some c /\ fixed n z c) /\
       (exists e, snd (pki_dump x true) = Ok e /\ (len e < 2 ^ 1008 -> key_form (abs_step a (SetSize n)) e)) /\
       (a_width a = Some n -> exists e, snd (pki_dump x false) = Ok e /\ (len e < 2 ^ 1008 -> key_form a e))).
  Proof.
    intros N R E Nd Ek Hn a Nv Ez. destruct (run_inv ops nothing new_key k N new_inv E) as [J C]. fold (abs_run sized ops) in J, C. fold a in J, C.
    destruct (dump_plain a k J (C R new_current) Nv ltac:(congruence)) as (k1 & e & Ed & J1 & _ & F).
    unfold pki_make. rewrite Ed. pose proof (resize_inv a k1 d e n J1 Nd Ek) as Q. rewrite Ez in Q. destruct Q as [Q1 Q2]. split.
    - intros G. specialize (Q1 Hn G). destruct (resize octets_of sizes (PKI d e k1)) as [x r]. cbn [snd] in Q1. subst r. eauto.
    - intros G. destruct (Q2 Hn G) as (k2 & E2 & J2). rewrite E2. eexists. split; [reflexivity|]. cbn [p_parsed]. split; [|split].
      + destruct (private_of _ k2 z J2 Ez) as (o & c & Eo & Ec & Fm & _). exists o, c. auto.
      + unfold pki_dump. cbn [p_parsed p_params p_octets]. destruct (dump_forced _ k2 J2 Nv ltac:(cbn [KeySpec.abs_step a_value]; congruence)) as (k3 & e3 & -> & _ & _ & F3).
        exists e3. split; [reflexivity|]. intros L. eapply fresh_form; eauto.
      + intros _. exists e. split; [reflexivity|]. intros L. eapply fresh_form; eauto.
  Qed.

  Lemma stripped_dump v c u x : len c < 128 ->
    dump_key (K (Some v) (Some (loaded_private c)) None u None true x) false =
      (K (Some v) (Some (loaded_private c)) None u None false (Some (v ++ object_bytes priv_tagging c ++ some_bytes u)),
       Ok (v ++ object_bytes priv_tagging c ++ some_bytes u)).
  Proof.
    intros L. unfold dump_key, get_contents. cbn [k_version k_private k_mutated]. unfold set_key_contents. cbn [k_private].
    rewrite (loaded_dump c L). reflexivity.
  Qed.

  (* wrap: the copy loses the width, the parameters of the algorithm bring it back *)
  Lemma wrap_info ops k d b n z : Forall by_name ops -> Forall no_resize ops -> run octets_of sizes new_key ops = Ok k ->
    d <> ImplicitCA -> ks d = Ok n -> 0 <= n < 128 -> let a := abs_run sized ops in
    k_params k = Some (d, b) -> a_version a <> None -> a_value a = Some z -> a_width a = Some n ->
    exists x, wrap_ec octets_of sizes k = Ok (x, Ok tt) /\
      (exists o c, k_private (p_parsed x) = Some o /\ contents o = Some c /\ fixed n z c) /\
      forall f, exists e, snd (pki_dump x f) = Ok e /\ (len e < 2 ^ 1008 -> key_form (abs_step a DelParams) e).
  Proof.
    intros N R E Nd Ek Hn a Ekp Nv Ez Ew. destruct (run_inv ops nothing new_key k N new_inv E) as [J C]. fold (abs_run sized ops) in J, C. fold a in J, C.
    specialize (C R new_current).
    (* the contents are brought up to date *)
    assert (G : exists k1 e, get_contents k = (k1, Ok e) /\ inv a k1 /\ k_params k1 = Some (d, b)).
    { unfold get_contents. destruct (k_mutated k) eqn:M.
      - destruct (contents_inv a k false J Nv ltac:(congruence)) as (k1 & c & E1 & J1 & M1 & Ec & _). rewrite E1, Ec. exists k1, c.
        split; [reflexivity|]. split; [exact J1|]. unfold set_key_contents in E1.
        destruct (k_private k) as [o|]; [destruct (dump KIntOctets priv_cls o false) as [o' [x|x]]|]; [|discriminate|]; injection E1 as <-; exact Ekp.
      - destruct (C M) as [[H|H]|(c & Ec & _)]; [contradiction|congruence|]. rewrite Ec. exists k, c. auto. }
    destruct G as (k1 & e1 & Eg & J1 & Ep1). destruct (private_of a k1 z J1 Ez) as (o & c & Eo & Ec & Fm & _).
    unfold private_form in Fm. rewrite Ew in Fm. destruct Fm as (Bc & Lc & Vc). pose proof J1 as (Ev1 & _ & _ & Eu1 & _).
    destruct (a_version a) as [v|] eqn:Ea; [|contradiction].
    assert (Ew1 : wrap_ec octets_of sizes k = pki_make octets_of sizes d
      (K (Some v) (Some (loaded_private c)) None (k_public k1) None true (k_contents (loaded v c (Some (d, b)) (k_public k1))))).
    { unfold wrap_ec, copy_key. rewrite Eg, Ev1, Eo, Ec, Ep1. reflexivity. }
    rewrite Ew1. unfold pki_make. rewrite (stripped_dump v c (k_public k1) _ ltac:(lia)).
    set (e := v ++ object_bytes priv_tagging c ++ some_bytes (k_public k1)).
    set (k2 := K (Some v) (Some (loaded_private c)) None (k_public k1) None false (Some e)).
    assert (Hb : be_value c < 256 ^ n) by (subst n; pose proof (be_value_bound c Bc); lia).
    destruct (loaded_width c n Bc ltac:(lia) Hb) as (o2 & Eo2 & C2 & _).
    set (k3 := K (Some v) (Some o2) None (k_public k1) (Some n) false (Some e)).
    assert (Er : resize octets_of sizes (PKI d e k2) = (PKI d e k3, Ok tt)).
    { unfold resize. cbn [p_params p_parsed p_octets]. assert (S : set_key_size k2 n = (k3, Ok tt)) by (unfold set_key_size, update_size; cbn [with_size k_size k_private k2]; rewrite Eo2; reflexivity).
      destruct d; [rewrite Ek, S; reflexivity|rewrite Ek, S; reflexivity|contradiction]. }
    rewrite Er. eexists. split; [reflexivity|]. cbn [p_parsed k3 k_private].
    assert (J3 : inv (abs_step a DelParams) k3).
    { repeat split; cbn; auto. rewrite Ez, Ew. exists o2. subst z. auto. }
    assert (F3 : len e < 2 ^ 1008 -> key_form (abs_step a DelParams) e).
    { intros L. exists v, z, c, (object_bytes priv_tagging c). cbn [KeySpec.abs_step a_version a_value a_params a_public opt]. split; [exact Ea|]. split; [exact Ez|].
      split; [unfold private_form; cbn [a_width]; rewrite Ew; repeat split; auto|]. split.
      - apply object_bytes_der; [apply priv_tagging_ok|]. unfold e in L. rewrite !len_app in L. pose proof (len_nonneg v).
        pose proof (len_nonneg (some_bytes (k_public k1))). lia.
      - unfold e. rewrite Eu1. reflexivity. }
    split.
    - destruct (private_of _ k3 z J3 Ez) as (o3 & c3 & Eo3 & Ec3 & Fm3 & _). exists o3, c3. split; [exact Eo3|]. split; [exact Ec3|].
      unfold private_form in Fm3. cbn [KeySpec.abs_step a_width] in Fm3. rewrite Ew in Fm3. exact Fm3.
    - intros [|].
      + unfold pki_dump. cbn [p_parsed]. destruct (dump_forced _ k3 J3) as (k4 & e4 & E4 & _ & _ & F4).
        * cbn [KeySpec.abs_step a_version]. congruence.
        * cbn [KeySpec.abs_step a_value]. congruence.
        * rewrite E4. exists e4. split; [reflexivity|]. intros L. eapply fresh_form; eauto.
      + exists e. auto.
  Qed.
End Key.

Lemma wrap_needs oct sizes k : k_params k = None -> forall x, wrap_ec oct sizes k <> Ok x.
Proof.
  intros N x E. unfold wrap_ec in E. apply bind_ok in E as (c & C & E). assert (P : k_params c = None); [|rewrite P in E; discriminate E].
  unfold copy_key in C. destruct (get_contents k) as [k' [y|e]] eqn:G; [|discriminate]. assert (P : k_params k' = None).
  { unfold get_contents in G. destruct (k_mutated k).
    - unfold set_key_contents in G. destruct (k_private k) as [o|]; [destruct (dump _ _ _ _) as [o' [b|e]]|]; injection G as <- _; exact N.
    - injection G as <- _. exact N. }
  destruct (k_version k'); [|discriminate]. destruct (k_private k') as [o|]; [|discriminate]. destruct (contents o); [|discriminate]. injection C as <-.
  exact P.
Qed.
