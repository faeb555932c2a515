(* Values loaded without a class. *)
Require Import Verif.Base Verif.BaseFacts Verif.IntModel Verif.IntSpec Verif.IntProofs
  Verif.ParserModel Verif.ParserSpec Verif.ParserProofs Verif.ParserFacts Verif.Text Verif.CodecModel Verif.TagSpec Verif.TagProofs
  Verif.PrimModel Verif.PrimSpec Verif.PrimProofs Verif.PrimSet Verif.PrimDump Verif.PrimLoad Verif.HistSpec Verif.PrimHist
  Verif.PrimRead Verif.PrimSide Verif.ContModel Verif.ContSpec Verif.ContBase Verif.ContRep Verif.ContPrim Verif.BerSpec Verif.BerProofs
  Verif.GenModel Verif.GenSpec.

Section Ind.
  Variable P : uval -> Prop.
  Hypothesis H1 : forall tag k v, P (USimple tag k v).
  Hypothesis H2 : forall l, Forall P l -> P (USeq l).
  Fixpoint uval_ind' (u : uval) : P u :=
    match u with
    | USimple tag k v => H1 tag k v
    | USeq l => H2 l ((fix go l := match l return Forall P l with [] => Forall_nil _ | x :: r => Forall_cons _ (uval_ind' x) (go r) end) l)
    end.
End Ind.

Section Gen.
Variable pad : bool.
Notation gbuild := (gbuild pad).

Definition leaf (tag : Z) : pcls := Cls 0 tag [] [].
Definition own_tags (tag : Z) : tagging := Tagging 0 tag false [].

Lemma simple_cases tag k : simple_type pad tag k -> universal pad tag = Some (GPrimitive k (leaf tag)) /\ kind_ok k /\ 0 <= tag.
Proof.
  unfold simple_type. cbn [In]. intros H.
  repeat (destruct H as [H|H]; [injection H as <- <-; split; [reflexivity|]; split; [cbn; repeat split; try constructor; tauto|lia]|]).
  contradiction.
Qed.
Lemma leaf_wf tag k : simple_type pad tag k -> wf (SPrim k (leaf tag)).
Proof. intros H. apply simple_cases in H as (_ & K & N). split; auto. split; [cbn; lia|]. split; [exact N|constructor]. Qed.
Lemma leaf_taggable tag k : taggable (SPrim k (leaf tag)) no_params.
Proof. apply taggable_none. discriminate. Qed.
Lemma own_ok tag : 0 <= tag -> tagging_ok (own_tags tag).
Proof. intros H. split; [cbn; lia|]. split; [exact H|constructor]. Qed.

Lemma same_build tag k i o : simple_type pad tag k -> build k (leaf tag) no_params i = Ok o -> gbuild i = Ok (OPrim k (leaf tag) o).
Proof.
  intros S H. apply simple_cases in S as (U & _ & _). unfold build in H. change (has_explicit (leaf tag) no_params) with false in H. cbn iota in H.
  unfold build_plain in H. change (init_tagging (leaf tag) no_params) with (Ok (own_tags tag)) in H. cbn [bind own_tags t_class t_tag leaf k_bad existsb] in H.
  destruct (i_class i =? 0) eqn:E1; [|discriminate]. cbn [negb] in H.
  destruct (negb (i_method i =? 0) && _) eqn:E2 in H; [discriminate|].
  destruct (i_tag i =? tag) eqn:E3; [|discriminate]. cbn [negb andb] in H. apply Z.eqb_eq in E1, E3. injection H as <-.
  unfold GenModel.gbuild. rewrite E1, E3, U. do 5 f_equal.
  destruct (i_method i =? 0) eqn:E4; cbn [negb andb] in *.
  - apply Z.eqb_eq in E4. rewrite E4. reflexivity.
  - apply negb_false_iff in E2. exact E2.
Qed.

Definition piece (st : bool) (u : uval) (y : bytes) : Prop := if st then uder pad u y else one_of (uber pad u) y.
Definition fine (st : bool) (u : uval) (i : info) : Prop := if st then uder pad u (encoding_of i) else uber pad u i.

Lemma piece_info st u y : piece st u y -> exists i, ber_info max_budget i /\ y = encoding_of i /\ fine st u i.
Proof.
  unfold piece, fine. destruct st; [|auto]. intros H.
  assert (exists c m t x, der_tlv c m t x y) as (c & m & t & x & D).
  { destruct u; cbn in H; [destruct H as (_ & _ & x & _ & D)|destruct H as (ds & _ & D)]; eauto 6. }
  destruct (tlv_info _ _ _ _ _ D) as (h & B & E). exists (mkInfo c m t h x []). split; [exact B|]. split; [now symmetry|]. now rewrite E.
Qed.

Lemma leaf_der tag k v d : uder pad (USimple tag k v) d -> simple_type pad tag k /\ der (SPrim k (leaf tag)) (own_tags tag) (APrim v) d.
Proof.
  intros (S & H & x & D & T). split; auto. cbn. split; auto. exists x. split; auto. exists d. split; [exact T|reflexivity].
Qed.
Lemma der_leaf tag k v d : simple_type pad tag k -> der (SPrim k (leaf tag)) (own_tags tag) (APrim v) d -> uder pad (USimple tag k v) d.
Proof.
  intros S H. cbn in H. destruct H as (H & x & D & inner & T & W). cbn in W. subst d. cbn. split; auto. split; auto. exists x. auto.
Qed.

Lemma seq_parts st l i : ber_info max_budget i -> fine st (USeq l) i -> i_class i = 0 /\ i_method i = 1 /\ i_tag i = 16 /\
  exists ds, i_contents i = concat ds /\ all2 (piece st) l ds /\
    (st = true -> i_trailer i = [] /\ der_tlv 0 1 16 (concat ds) (i_header i ++ concat ds)).
Proof.
  intros B H. unfold fine in H. destruct st.
  - cbn in H. destruct H as (ds & A & D). destruct (tlv_info _ _ _ _ _ D) as (h & B' & E).
    assert (X := same_info0 _ _ B B' (eq_sym E)). subst i. cbn. repeat (split; [reflexivity|]). exists ds. split; [reflexivity|]. split; [exact A|].
    intros _. split; [reflexivity|]. unfold encoding_of in E, D. cbn in E, D. rewrite app_nil_r in D. exact D.
  - cbn in H. destruct H as (H1 & H2 & H3 & ds & E & A). repeat (split; [assumption|]). exists ds. split; auto. split; [exact A|discriminate].
Qed.

(* what an object holds: st says whether encodings are known to be in DER *)
Fixpoint urep (st : bool) (u : uval) (o : gobj) {struct u} : Prop :=
  match u, o with
  | USimple tag k v, OPrim k' c p =>
      simple_type pad tag k /\ k' = k /\ c = leaf tag /\
      exists q v', same_value k v v' /\ (st = true -> acc q = true) /\ rep q true (SPrim k c) (own_tags tag) (APrim v') (VPrim p) /\
        (st = true -> exists d, uder pad (USimple tag k v) d /\ encodes (SPrim k c) (own_tags tag) (APrim v') d)
  | USeq l, ONode w t e ch nat =>
      w = NSeq /\ t = own_tags 16 /\
      (exists ds, e_contents e = Some (concat ds) /\ all2 (piece st) l ds /\
         (st = true -> exists h, e = Enc 1 (Some h) (Some (concat ds)) [] false /\ der_tlv 0 1 16 (concat ds) (h ++ concat ds))) /\
      match ch with
      | None => True
      | Some cs => all2 (fun u x => match x with
                                    | inl i => ber_info max_budget i /\ fine st u i
                                    | inr o' => urep st u o'
                                    end) l cs
      end /\
      match nat with None => True | Some d => numbered unative 0 l d end
  | _, _ => False
  end.
Definition kid (st : bool) (u : uval) (x : info + gobj) : Prop :=
  match x with inl i => ber_info max_budget i /\ fine st u i | inr o' => urep st u o' end.

(* not parsed yet *)
Definition bare (o : gobj) : Prop := match o with ONode _ _ _ ch nat => ch = None /\ nat = None | _ => True end.

Lemma build_ok st u i : ber_info max_budget i -> fine st u i -> exists o, gbuild i = Ok o /\ urep st u o /\ bare o.
Proof.
  intros B H. destruct u as [tag k v|l].
  - assert (exists o v' q, build k (leaf tag) no_params i = Ok o /\ same_value k v v' /\ simple_type pad tag k /\ (st = true -> acc q = true) /\
       rep q true (SPrim k (leaf tag)) (own_tags tag) (APrim v') (VPrim o) /\
       (st = true -> exists d, uder pad (USimple tag k v) d /\ encodes (SPrim k (leaf tag)) (own_tags tag) (APrim v') d))
      as (o & v' & q & E & Sv & S & Q & R & Dx).
    { destruct st; unfold fine in H.
      - pose proof H as H0. apply leaf_der in H as (S & D).
        destruct (K_build _ (contract_prim k (leaf tag) (leaf_wf _ _ S)) no_params None i (APrim v) (leaf_taggable _ _) Logic.I B D) as (w & a' & E & Sm & (R & _)).
        cbn [methods prim_ops x_build] in E. apply bind_ok in E as (o & E & X). injection X as <-.
        destruct a' as [|v'| | | |]; try (cbn in Sm; contradiction). exists o, v', Own. split; [exact E|]. split; [apply Sm|]. split; auto. split; auto. split; [exact R|].
        intros _. exists (encoding_of i). split; [exact H0|]. eapply encodes_sim; [apply leaf_wf; exact S|exact Sm|].
        apply der_encodes; [now apply leaf_wf|apply own_ok, (simple_cases _ _ S)|exact D].
      - cbn in H. destruct H as (S & H).
        destruct (loads_prim k (leaf tag) (leaf_wf _ _ S) no_params None i (APrim v) (leaf_taggable _ _) Logic.I B H) as (w & a' & E & Sm & (R & _)).
        cbn [methods prim_ops x_build] in E. apply bind_ok in E as (o & E & X). injection X as <-.
        destruct a' as [|v'| | | |]; try (cbn in Sm; contradiction). exists o, v', Stale. split; [exact E|]. split; [apply Sm|]. split; auto. split; [discriminate|]. split; [exact R|discriminate]. }
    exists (OPrim k (leaf tag) o). split; [now apply same_build|]. split; [|exact Logic.I]. cbn. do 3 (split; auto). exists q, v'. auto.
  - destruct (seq_parts st l i B H) as (H1 & H2 & H3 & ds & E & A & D). unfold GenModel.gbuild. rewrite H1, H3.
    change (universal pad 16) with (Some (GNode NSeq)). cbn iota. eexists. split; [reflexivity|]. split; [|split; reflexivity].
    cbn [urep]. split; [reflexivity|]. split; [reflexivity|]. split; [|split; exact Logic.I]. exists ds. split; [cbn; now rewrite E|]. split; [exact A|].
    intros K. destruct (D K) as (D1 & D2). exists (i_header i). split; auto. now rewrite H2, E, D1.
Qed.

(* the children found one after another *)
Lemma loop_ok {A} (f : info -> res A) st (P : uval -> A -> Prop) :
  forall l ds, all2 (piece st) l ds -> (forall u i, In u l -> ber_info max_budget i -> fine st u i -> exists x, f i = Ok x /\ P u x) ->
  forall n pre, (length (concat ds) < n)%nat ->
  exists xs, kids_loop f n (pre ++ concat ds) (len pre) = Ok xs /\ all2 P l xs.
Proof.
  induction l as [|u l IH]; intros [|d ds]; cbn [all2]; try tauto.
  - intros _ _ [|n] pre L; cbn in L; [lia|]. cbn [kids_loop concat]. rewrite app_nil_r, Z.ltb_irrefl. exists []. cbn. auto.
  - intros [D1 D2] F [|n] pre L; cbn in L; [lia|]. cbn [concat kids_loop].
    destruct (piece_info _ _ _ D1) as (i & B & -> & Fi). pose proof (encoding_pos i B) as Lp.
    replace (len pre <? len (pre ++ encoding_of i ++ concat ds)) with true by (rewrite !len_app; pose proof (len_nonneg (concat ds)); lia).
    rewrite (parse_complete i pre (concat ds) B). cbn [bind]. rewrite app_length in L. unfold len in Lp.
    destruct (F u i (or_introl eq_refl) B Fi) as (x & Ex & Px). rewrite Ex. cbn [bind].
    destruct (IH ds D2 (fun u i Hu => F u i (or_intror Hu)) n (pre ++ encoding_of i)) as (xs & El & Ps); [lia|].
    rewrite <- app_assoc, len_app in El. rewrite El. cbn [bind]. exists (x :: xs). cbn. auto.
Qed.

Fixpoint udepth (u : uval) : nat := match u with USimple _ _ _ => O | USeq l => S (fold_right (fun u n => Nat.max (udepth u) n) O l) end.
Definition ldepth (l : list uval) : nat := fold_right (fun u n => Nat.max (udepth u) n) O l.
Lemma ldepth_in l u : In u l -> (udepth u <= ldepth l)%nat.
Proof. induction l as [|x l IH]; cbn; [tauto|]. intros [->|H]; [lia|]. apply IH in H. unfold ldepth in H. lia. Qed.

Lemma pieces_depth st l : Forall (fun u => forall y, piece st u y -> (udepth u <= length y)%nat) l -> forall ds, all2 (piece st) l ds -> (ldepth l <= length (concat ds))%nat.
Proof.
  induction 1 as [|u l H _ IH]; intros [|d ds]; cbn; try tauto; [lia|]. intros [D1 D2]. rewrite app_length. apply H in D1. apply IH in D2. unfold ldepth in D2. lia.
Qed.
Lemma depth_len st u : forall y, piece st u y -> (udepth u <= length y)%nat.
Proof.
  induction u as [tag k v|l IH] using uval_ind'; intros y H; [cbn; lia|].
  destruct (piece_info _ _ _ H) as (i & B & -> & F). destruct (seq_parts st l i B F) as (_ & _ & _ & ds & E & A & _).
  pose proof (pieces_depth st l IH ds A). cbn [udepth]. fold (ldepth l). unfold encoding_of. rewrite !app_length, E.
  assert (length (i_header i) > 0)%nat; [|lia].
  unfold ber_info in B. remember (i_header i) as h eqn:Eh. clear Eh.
  inversion B as [? ? ? ? i0 ? ? Hi|? ? ? i0 ? Hi]; subst h; inversion Hi; rewrite app_length; cbn; lia.
Qed.

(* ---- _parse_children ---- *)
Lemma kids_eq n r cont : parse_kids pad (S n) r NSeq cont =
  kids_loop (fun i => if r then
              do o <- gbuild i;
              match o with
              | ONode w' t e _ nat => do l <- parse_kids pad n true w' (cont_of e); Ok (inr (ONode w' t e (Some l) nat))
              | _ => Ok (inr o)
              end
            else Ok (inl i)) (S (length cont)) cont 0.
Proof. reflexivity. Qed.
Lemma flat_ok st l ds n : all2 (piece st) l ds -> exists xs, parse_kids pad (S n) false NSeq (concat ds) = Ok xs /\ all2 (kid st) l xs.
Proof.
  intros A. cbn [parse_kids]. destruct (loop_ok (fun i => Ok (inl i)) st (kid st) l ds A) with (n := S (length (concat ds))) (pre := @nil Z) as (xs & E & K).
  - intros u i _ B F. exists (inl i). cbn. auto.
  - lia.
  - exists xs. auto.
Qed.
Lemma deep_ok st : forall n l ds, (ldepth l <= n)%nat -> all2 (piece st) l ds ->
  exists xs, parse_kids pad (S n) true NSeq (concat ds) = Ok xs /\ all2 (kid st) l xs.
Proof.
  induction n as [|n IH]; intros l ds L A; rewrite kids_eq.
  - set (f := fun i : info => _).
    destruct (loop_ok f st (kid st) l ds A) with (n := S (length (concat ds))) (pre := @nil Z) as (xs & E & K).
    + intros u i Hu B F. destruct (build_ok st u i B F) as (o & Eb & R & N). unfold f. cbv beta. rewrite Eb. cbn [bind].
      destruct u as [tag k v|l']; [|pose proof (ldepth_in l _ Hu) as L'; cbn in L'; lia].
      destruct o as [k' c p|]; [|contradiction]. exists (inr (OPrim k' c p)). split; [reflexivity|exact R].
    + lia.
    + exists xs. auto.
  - set (f := fun i : info => _).
    destruct (loop_ok f st (kid st) l ds A) with (n := S (length (concat ds))) (pre := @nil Z) as (xs & E & K).
    + intros u i Hu B F. destruct (build_ok st u i B F) as (o & Eb & R & N). unfold f. cbv beta. rewrite Eb. cbn [bind].
      destruct u as [tag k v|l']; destruct o as [k' c p|w t e ch nat]; try contradiction.
      * exists (inr (OPrim k' c p)). split; [reflexivity|exact R].
      * destruct R as (-> & -> & (ds' & Ec & A' & D) & _). destruct N as [-> ->]. unfold cont_of. rewrite Ec.
        pose proof (ldepth_in l _ Hu) as L'. cbn [udepth] in L'. fold (ldepth l') in L'.
        destruct (IH l' ds') as (xs & Ex & K); [lia|exact A'|]. rewrite Ex. cbn [bind].
        eexists. split; [reflexivity|]. cbn [kid urep]. split; [reflexivity|]. split; [reflexivity|]. split; [exists ds'; auto|]. split; [exact K|exact Logic.I].
    + lia.
    + exists xs. auto.
Qed.
Lemma kids_ok st b l w t e ch nat : urep st (USeq l) (ONode w t e ch nat) -> exists xs, kids pad b w e ch = Ok xs /\ all2 (kid st) l xs.
Proof.
  intros (-> & _ & (ds & Ec & A & _) & K & _). unfold kids. destruct ch as [xs|]; [exists xs; auto|]. unfold cont_of. rewrite Ec.
  destruct b; [|now apply flat_ok]. apply deep_ok; auto. apply (pieces_depth st); auto. apply Forall_forall. intros u _. apply depth_len.
Qed.
Lemma with_kids st l w t e ch nat xs : urep st (USeq l) (ONode w t e ch nat) -> all2 (kid st) l xs -> urep st (USeq l) (ONode w t e (Some xs) nat).
Proof. intros (H1 & H2 & H3 & _ & H5) K. cbn [urep]. auto. Qed.
Lemma lazy_ok st u x : kid st u x -> exists o, lazy pad x = Ok o /\ urep st u o.
Proof.
  destruct x as [i|o]; cbn [kid lazy]; [|eauto]. intros (B & F). destruct (build_ok st u i B F) as (o & E & R & _). eauto.
Qed.

(* ---- native ---- *)
Lemma leaf_native st tag k v k' c p : urep st (USimple tag k v) (OPrim k' c p) ->
  exists p' v', get_native k' c p = (p', Ok v') /\ same_value k v v' /\ urep st (USimple tag k v) (OPrim k' c p').
Proof.
  intros (S & -> & -> & q & v0 & Sv & Q & R & Dx).
  destruct (K_native _ (contract_prim k (leaf tag) (leaf_wf _ _ S)) q true _ _ _ (own_ok tag (proj2 (proj2 (simple_cases _ _ S)))) R) as (w & x & E & R' & _ & _ & _ & Sh).
  cbn [methods prim_ops x_native on_prim] in E. destruct (get_native k (leaf tag) p) as [p' r] eqn:G.
  destruct r as [v'|]; cbn [bind] in E; [|discriminate]. injection E as <- <-. exists p', v'. split; [reflexivity|].
  assert (Sv' : same_value k v0 v').
  { destruct (Sh eq_refl) as (v2 & S2 & E2). assert (v' = v2); [|now subst]. destruct v', v2; cbn in E2; congruence. }
  split; [eapply same_value_trans; eauto|]. cbn [urep]. do 3 (split; auto). exists q, v0. auto.
Qed.

Lemma read_ok st n : (forall u o, (udepth u <= n)%nat -> urep st u o -> exists o' a, gnative pad (S n) o = (o', Ok a) /\ unative u a /\ urep st u o') ->
  forall l xs idx, (ldepth l <= n)%nat -> all2 (kid st) l xs ->
  exists xs' d, read_loop pad (gnative pad (S n)) idx xs = (xs', d, None) /\ all2 (kid st) l xs' /\ numbered unative idx l d.
Proof.
  intros IH. induction l as [|u l IHl]; intros [|x xs] idx L; cbn [all2]; try tauto.
  - intros _. exists [], []. cbn. auto.
  - intros [K1 K2]. cbn in L. destruct (lazy_ok st u x K1) as (o & Eo & R). destruct (IH u o) as (o' & a & En & Na & R'); [lia|exact R|].
    destruct (IHl xs (idx + 1)) as (xs' & d & El & K' & Nd); [unfold ldepth; lia|exact K2|].
    cbn [read_loop]. rewrite Eo, En, El. exists (inr o' :: xs'), ((dec idx, a) :: d). split; [reflexivity|]. split; cbn; auto.
Qed.
Lemma native_ok st : forall n u o, (udepth u <= n)%nat -> urep st u o ->
  exists o' a, gnative pad (S n) o = (o', Ok a) /\ unative u a /\ urep st u o'.
Proof.
  assert (P : forall n tag k v o, urep st (USimple tag k v) o -> exists o' a, gnative pad (S n) o = (o', Ok a) /\ unative (USimple tag k v) a /\ urep st (USimple tag k v) o').
  { intros n tag k v [k' c p|] R; [|contradiction]. destruct (leaf_native _ _ _ _ _ _ _ R) as (p' & v' & E & S & R'). cbn [gnative]. rewrite E.
    cbn [bind]. eexists _, _. split; [reflexivity|]. split; [|exact R']. cbn. exists v'. auto. }
  induction n as [|n IH]; intros [tag k v|l] o L R; auto; [cbn in L; lia|]. cbn [udepth] in L. fold (ldepth l) in L.
  destruct o as [|w t e ch nat]; [contradiction|]. remember (S n) as m eqn:Em. cbn [gnative]. destruct nat as [d|].
  - exists (ONode w t e ch (Some d)), (ADict d). split; [reflexivity|]. split; [apply R|exact R].
  - destruct (kids_ok st true _ _ _ _ _ _ R) as (xs & Ek & K). rewrite Ek.
    subst m. destruct (read_ok st n IH l xs 0) as (xs' & d & El & K' & Nd); [lia|exact K|]. rewrite El.
    eexists _, _. split; [reflexivity|]. split; [exact Nd|]. destruct R as (R1 & R2 & R3 & _ & _). cbn [urep]. auto.
Qed.

Lemma height_ok st u : forall o, urep st u o -> (udepth u <= height o)%nat.
Proof.
  induction u as [tag k v|l IH] using uval_ind'; intros o R; [cbn; lia|]. destruct o as [|w t e ch nat]; [contradiction|].
  destruct R as (-> & _ & (ds & Ec & A & _) & K & _). cbn [udepth]. fold (ldepth l).
  assert (PD : (ldepth l <= length (concat ds))%nat).
  { apply (pieces_depth st); auto. apply Forall_forall. intros u _. apply depth_len. }
  destruct ch as [xs|]; cbn [height]; [|unfold cont_of; rewrite Ec; lia]. apply le_n_S. clear ds Ec A PD.
  revert xs K. induction IH as [|u l Hu _ IHl]; intros [|x xs]; cbn; try tauto; [lia|]. intros [K1 K2]. apply IHl in K2. unfold ldepth in K2.
  assert (udepth u <= match x with inl i => S (length (i_contents i)) | inr c => height c end)%nat; [|lia].
  destruct x as [i|o]; [|now apply Hu]. destruct K1 as (B & F). destruct u as [|l']; [cbn; lia|].
  destruct (seq_parts st l' i B F) as (_ & _ & _ & ds & E & A & _). rewrite E. cbn [udepth]. fold (ldepth l'). apply le_n_S.
  apply (pieces_depth st); auto. apply Forall_forall. intros u _. apply depth_len.
Qed.
Lemma whole_ok st u o : urep st u o -> exists o' a, whole_native pad o = (o', Ok a) /\ unative u a /\ urep st u o'.
Proof. intros R. apply native_ok; auto. now apply (height_ok st). Qed.

(* ---- dump ---- *)
Lemma dump_ok st u o f : urep st u o -> exists o' d, gdump pad f o = (o', Ok d) /\ urep st u o' /\ (st = true -> uder pad u d).
Proof.
  intros R. destruct u as [tag k v|l]; destruct o as [k' c p|w t e ch nat]; try contradiction.
  - destruct R as (S & -> & -> & q & v' & Sv & Q & R & Dx). pose proof (leaf_wf _ _ S) as W. pose proof (own_ok tag (proj2 (proj2 (simple_cases _ _ S)))) as To.
    destruct (K_dump _ (contract_prim k (leaf tag) W) q true _ _ _ f To R) as (x & d & E & _ & _ & R' & En).
    cbn [methods prim_ops x_dump on_prim] in E. destruct (dump k (leaf tag) p f) as [p' r] eqn:G. injection E as <- ->.
    exists (OPrim k (leaf tag) p'), d. cbn [gdump]. rewrite G. split; [reflexivity|]. split.
    + cbn [urep]. do 3 (split; auto). exists (join q f), v'. split; auto. split; [rewrite acc_join; intros K; now rewrite Q|]. auto.
    + intros K. destruct (Dx K) as (d0 & U & E0). assert (d = d0); [|now subst].
      eapply encodes_fun; eauto.
  - pose proof R as (-> & -> & (ds & Ec & A & D) & K & N). cbn [gdump]. rewrite andb_false_r. unfold node_dump. unfold cont_of. rewrite Ec.
    destruct (if ends_80 (e_header e) then None else e_header e) as [h|] eqn:Eh.
    + eexists _, _. split; [reflexivity|]. split; [exact R|]. intros St. destruct (D St) as (h' & -> & T). cbn [e_header e_trailer] in *.
      assert (h' = h) as -> by (destruct (ends_80 (Some h')); congruence). rewrite app_nil_r. exists ds. split; [|exact T].
      eapply all2_impl; [|exact A]. intros u y _ Hy. unfold piece in Hy. now rewrite St in Hy.
    + eexists _, _. split; [reflexivity|]. split.
      * cbn [urep]. split; auto. split; auto. split; [|auto]. exists ds. split; [reflexivity|]. split; auto. intros St. destruct (D St) as (h' & -> & T).
        cbn. eexists. split; [reflexivity|]. pose proof T as X; apply der_tlv_header in X as [X _]; [|lia|lia|lia]. apply app_inv_tail in X.
        unfold full_header. cbn. now rewrite <- X.
      * intros St. destruct (D St) as (h' & -> & T). cbn. exists ds. split.
        -- eapply all2_impl; [|exact A]. intros u y _ Hy. unfold piece in Hy. now rewrite St in Hy.
        -- pose proof T as X; apply der_tlv_header in X as [X _]; [|lia|lia|lia]. apply app_inv_tail in X. unfold full_header. cbn. now rewrite <- X.
Qed.

(* ---- reading along a path ---- *)
Lemma all2_nth {A B} (R : A -> B -> Prop) : forall l m n x, all2 R l m -> nth_error m n = Some x -> exists u, nth_error l n = Some u /\ R u x.
Proof.
  induction l as [|u l IH]; intros [|y m] [|n] x; cbn; try tauto; try discriminate.
  - intros [H _] E. injection E as <-. eauto.
  - intros [_ H] E. eauto.
Qed.
Lemma all2_put {A B} (R : A -> B -> Prop) : forall l m n u x, all2 R l m -> nth_error l n = Some u -> R u x -> all2 R l (put m n x).
Proof.
  induction l as [|v l IH]; intros [|y m] [|n] u x; cbn; try tauto; try discriminate.
  - intros [_ H] E K. injection E as <-. auto.
  - intros [H1 H2] E K. split; auto. eapply IH; eauto.
Qed.
Lemma place_element l i : match place (length l) i with
  | Some n => ((- Z.of_nat (length l) <=? i) && (i <? Z.of_nat (length l))) = true /\ element l i = nth_error l n /\ (n < length l)%nat
  | None => ((- Z.of_nat (length l) <=? i) && (i <? Z.of_nat (length l))) = false
  end.
Proof.
  unfold place, element. destruct ((0 <=? i) && (i <? Z.of_nat (length l))) eqn:E1.
  - replace (i <? 0) with false by lia. split; [lia|]. split; [reflexivity|lia].
  - destruct ((i <? 0) && (0 <=? i + Z.of_nat (length l))) eqn:E2; [|lia]. replace (i <? 0) with true by lia.
    split; [lia|]. split; [reflexivity|lia].
Qed.

Notation expected := (expected pad).
Lemma ask_ok st q : forall path u o, urep st u o -> exists o' r, ask_at pad path q o = (o', r) /\ urep st u o' /\
  match found u path with Some u' => expected st u' q r | None => exists e, r = Err e end.
Proof.
  induction path as [|i path IH]; intros u o R.
  - cbn [found ask_at]. destruct q as [|f| |].
    + destruct (whole_ok st u o R) as (o' & a & E & N & R'). rewrite E. cbn [bind]. exists o', (Ok (ANative a)). split; [reflexivity|]. split; auto. exists a. auto.
    + destruct (dump_ok st u o f R) as (o' & d & E & R' & D). rewrite E. cbn [bind]. exists o', (Ok (ABytes d)). split; [reflexivity|]. split; auto. exists d. auto.
    + destruct u as [tag k v|l]; destruct o as [k' c p|w t e ch nat]; try contradiction.
      * eexists _, _. split; [reflexivity|]. split; [exact R|]. cbn. discriminate.
      * destruct (kids_ok st false _ _ _ _ _ _ R) as (xs & E & K). rewrite E. eexists _, _. split; [reflexivity|]. split; [eapply with_kids; eauto|].
        intros l' X. injection X as <-. do 3 f_equal. symmetry. eapply all2_length; eauto.
    + destruct u as [tag k v|l]; destruct o as [k' c p|w t e ch nat]; try contradiction.
      * eexists _, _. split; [reflexivity|]. split; [exact R|]. cbn. discriminate.
      * destruct (kids_ok st false _ _ _ _ _ _ R) as (xs & E & K). rewrite E. eexists _, _. split; [reflexivity|]. split; [eapply with_kids; eauto|].
        intros l' X. reflexivity.
  - destruct u as [tag k v|l]; destruct o as [k' c p|w t e ch nat]; try contradiction; cbn [ask_at found].
    { eexists _, _. split; [reflexivity|]. split; [exact R|]. eauto. }
    destruct (kids_ok st false _ _ _ _ _ _ R) as (xs & E & K). rewrite E. pose proof (all2_length _ _ _ K) as Len. rewrite <- Len.
    pose proof (place_element l i) as P. destruct (place (length l) i) as [n|].
    + destruct P as (P1 & P2 & P3). rewrite P1, P2. destruct (nth_error xs n) as [x|] eqn:Ex; [|apply nth_error_None in Ex; lia].
      destruct (all2_nth _ _ _ _ _ K Ex) as (u & Eu & Ku). rewrite Eu. destruct (lazy_ok st u x Ku) as (o & Eo & Ro). rewrite Eo.
      destruct (IH u o Ro) as (o' & r & Ea & R' & X). rewrite Ea. eexists _, _. split; [reflexivity|]. split; [|exact X].
      eapply with_kids; eauto. eapply all2_put; eauto.
    + rewrite P. eexists _, _. split; [reflexivity|]. split; [eapply with_kids; eauto|]. eauto.
Qed.
Lemma asks_ok st u : forall h o, urep st u o -> urep st u (ask_all pad h o).
Proof.
  induction h as [|[p q] h IH]; intros o R; cbn [ask_all]; auto. apply IH. destruct (ask_ok st q p u o R) as (o' & r & E & R' & _). now rewrite E.
Qed.

Lemma load_ok st u y rest s : piece st u y -> (s = true -> rest = []) -> exists o, gload pad (y ++ rest) s = Ok o /\ urep st u o.
Proof.
  intros P Hs. destruct (piece_info _ _ _ P) as (i & B & -> & F). destruct (build_ok st u i B F) as (o & E & R & _). exists o. split; auto.
  unfold gload. rewrite (parse__0_complete i rest B). cbn [bind]. destruct s; [|exact E]. rewrite (Hs eq_refl), app_nil_r, Z.eqb_refl. exact E.
Qed.

Theorem read_history st u y rest s h path q : piece st u y -> (s = true -> rest = []) ->
  exists o, gload pad (y ++ rest) s = Ok o /\
    let r := snd (ask_at pad path q (ask_all pad h o)) in
    match found u path with Some u' => expected st u' q r | None => exists e, r = Err e end.
Proof.
  intros P Hs. destruct (load_ok st u y rest s P Hs) as (o & E & R). exists o. split; auto.
  destruct (ask_ok st q path u _ (asks_ok st u h o R)) as (o' & r & Ea & _ & X). rewrite Ea. exact X.
Qed.

(* ---- one encoding for a value ---- *)
Lemma uder_fun u : forall d d', uder pad u d -> uder pad u d' -> d = d'.
Proof.
  induction u as [tag k v|l IH] using uval_ind'; intros d d' H K.
  - apply leaf_der in H as (S & H), K as (_ & K). pose proof (leaf_wf _ _ S) as W. pose proof (own_ok tag (proj2 (proj2 (simple_cases _ _ S)))) as To.
    eapply encodes_fun; [exact W| |]; apply der_encodes; eauto.
  - cbn in H, K. destruct H as (ds & A & T), K as (ds' & A' & T').
    assert (ds = ds') as ->.
    { clear T T' d d'. revert ds ds' A A'. induction IH as [|u l Hu _ IHl]; intros [|y ds] [|y' ds']; cbn; try tauto.
      intros [H1 H2] [K1 K2]. f_equal; auto. }
    apply der_tlv_header in T as [-> _]; [|lia|lia|lia]. apply der_tlv_header in T' as [-> _]; [|lia|lia|lia]. reflexivity.
Qed.

(* ---- what is loaded at all ---- *)
Lemma universal_iff t : universal pad t <> None <-> (1 <= t <= 13 \/ 16 <= t <= 30).
Proof.
  split.
  - intros H. unfold universal in H. cbv zeta in H. destruct t as [|p|p]; [now contradiction H| |now contradiction H].
    repeat (match type of H with context [match ?p with _ => _ end] => is_var p; destruct p end; try lia); now contradiction H.
  - intros H. assert (G : In t [1;2;3;4;5;6;7;8;9;10;11;12;13;16;17;18;19;20;21;22;23;24;25;26;27;28;29;30]) by (cbn; lia).
    cbn [In] in G. repeat (destruct G as [<-|G]; [discriminate|]). contradiction.
Qed.
Lemma gload_iff d s : bytes_ok d -> ((exists o, gload pad d s = Ok o) <->
  exists i r, ber_info max_budget i /\ d = encoding_of i ++ r /\ (s = true -> r = []) /\ (1 <= i_tag i <= 13 \/ 16 <= i_tag i <= 30)).
Proof.
  intros Ok. split.
  - intros (o & H). unfold gload in H. destruct (parse_ d (len d) 0) as [[i e]|] eqn:E; [|discriminate]. cbn [bind] in H.
    apply (parse_sound [] d) in E as (B & (r & Er) & Ee); [|exact Ok]. cbn [app] in *. exists i, r. split; auto. split; auto. split.
    + intros ->. cbn [andb] in H. destruct (e =? len d) eqn:El; [|discriminate]. apply Z.eqb_eq in El. rewrite Er, len_app in El.
      destruct r as [|z r]; [reflexivity|]. rewrite len_cons in El. pose proof (len_nonneg r). change (len []) with 0 in Ee. lia.
    + apply universal_iff. destruct (s && _); [discriminate|]. unfold GenModel.gbuild in H. destruct (universal pad (i_tag i)); [discriminate|]. discriminate H.
  - intros (i & r & B & -> & Hs & T). apply universal_iff in T. unfold gload. rewrite (parse__0_complete i r B). cbn [bind].
    replace (s && negb (len (encoding_of i) =? len (encoding_of i ++ r))) with false.
    + unfold GenModel.gbuild. destruct (universal pad (i_tag i)) as [[k c|w]|]; try contradiction; eauto.
    + destruct s; [|reflexivity]. now rewrite (Hs eq_refl), app_nil_r, Z.eqb_refl.
Qed.
Lemma gload_err d s e : bytes_ok d -> gload pad d s = Err e -> e = ValueError.
Proof.
  intros Ok H. unfold gload in H. destruct (parse_ d (len d) 0) as [[i x]|x] eqn:E; cbn [bind] in H.
  - destruct (s && _); [congruence|]. unfold GenModel.gbuild in H. destruct (universal pad (i_tag i)) as [[]|]; congruence.
  - apply parse__err in E; auto; [congruence|lia].
Qed.

(* ---- a sequence without fields is dumped as it was found ---- *)
Definition dumps (t : tagging) (d : bytes) (e : enc) : Prop := forall w ch nat, exists e',
  node_dump w t e ch nat = (ONode w t e' ch nat, Ok d) /\ cont_of e' = cont_of e /\ forall w ch nat, node_dump w t e' ch nat = (ONode w t e' ch nat, Ok d).
Definition plain (t : tagging) (d : bytes) (o : gobj) : Prop := match o with ONode NSeq t' e _ _ => t' = t /\ dumps t d e | _ => False end.
Lemma ends_dec h : ends_80 h = true \/ ends_80 h = false.
Proof. destruct (ends_80 h); auto. Qed.
Lemma remade t m x i w ch nat : exists e', node_dump w t (Enc m (Some (full_header t m x)) (Some x) [] i) ch nat = (ONode w t e' ch nat, Ok (full_header t m x ++ x)) /\
  e' = Enc m (Some (full_header t m x)) (Some x) [] i.
Proof.
  unfold node_dump, cont_of. cbn [e_header e_contents e_method e_trailer e_indef]. destruct (ends_80 (Some (full_header t m x))); eexists; split; try reflexivity.
  rewrite app_nil_r. reflexivity.
Qed.
Lemma dumps_any t e h : e_header e = Some h -> e_contents e <> None -> dumps t (if ends_80 (Some h) then full_header t (e_method e) (cont_of e) ++ cont_of e else h ++ cont_of e ++ e_trailer e) e.
Proof.
  intros Eh Nc w ch nat. unfold node_dump. rewrite Eh. destruct (ends_80 (Some h)) eqn:E8.
  - eexists. split; [reflexivity|]. split; [reflexivity|]. intros w' ch' nat'. destruct (remade t (e_method e) (cont_of e) (e_indef e) w' ch' nat') as (e' & X & ->). exact X.
  - exists e. split; [reflexivity|]. split; [reflexivity|]. intros. now rewrite Eh, E8.
Qed.
Lemma plain_node t d w t' e ch nat ch' nat' : plain t d (ONode w t' e ch nat) -> plain t d (ONode w t' e ch' nat').
Proof. destruct w; cbn; auto. Qed.
Lemma plain_ask t d path q o : plain t d o -> plain t d (fst (ask_at pad path q o)) /\
  (forall f, path = [] -> q = QDump f -> snd (ask_at pad path q o) = Ok (ABytes d)).
Proof.
  intros P. destruct o as [k c p|[] t' e ch nat]; try contradiction. pose proof P as (-> & D). destruct path as [|i path]; cbn [ask_at].
  - destruct q as [|f| |].
    + split; [|discriminate]. unfold whole_native. cbn [gnative]. destruct nat as [v|]; [exact P|]. destruct (kids pad true NSeq e ch) as [xs|x]; [|exact P].
      set (n := height _). destruct (read_loop pad (gnative pad n) 0 xs) as [[xs' v] [x|]]; cbn [fst]; eapply plain_node; exact P.
    + cbn [gdump]. rewrite andb_false_r. destruct (D NSeq ch nat) as (e' & E & _ & S). rewrite E. cbn. split; [|reflexivity].
      split; auto. intros w' ch' nat'. exists e'. split; [apply S|]. split; [reflexivity|exact S].
    + split; [|discriminate]. destruct (kids pad false NSeq e ch) as [xs|x]; exact P.
    + split; [|discriminate]. destruct (kids pad false NSeq e ch) as [xs|x]; exact P.
  - split; [|discriminate]. destruct (kids pad false NSeq e ch) as [xs|x]; [|exact P]. destruct (place (length xs) i) as [n|]; [|exact P].
    destruct (nth_error xs n) as [x|]; [|exact P]. destruct (lazy pad x) as [c|]; [|exact P]. destruct (ask_at pad path q c). exact P.
Qed.
Lemma plain_asks t d : forall h o, plain t d o -> plain t d (ask_all pad h o).
Proof. induction h as [|[p q] h IH]; intros o P; cbn [ask_all]; auto. apply IH. now apply plain_ask. Qed.

Theorem sequence_octets d s o i r h f : gload pad d s = Ok o -> ber_info max_budget i -> d = encoding_of i ++ r -> i_tag i = 16 ->
  snd (ask_at pad [] (QDump f) (ask_all pad h o)) =
    Ok (ABytes (if ends_80 (Some (i_header i)) then dump_header (i_class i) (i_method i) 16 (i_contents i) ++ i_contents i else encoding_of i)).
Proof.
  intros E B -> T. unfold gload in E. rewrite (parse__0_complete i r B) in E. cbn [bind] in E. destruct (s && _); [discriminate|].
  unfold GenModel.gbuild in E. rewrite T in E. change (universal pad 16) with (Some (GNode NSeq)) in E. cbn iota in E. injection E as <-.
  set (e := Enc _ _ _ _ _). set (t := Tagging _ _ _ _).
  pose proof (dumps_any t e (i_header i) eq_refl ltac:(discriminate)) as D.
  match type of D with dumps _ ?d _ => assert (P : plain t d (ONode NSeq t e None None)) by (split; auto) end.
  apply (plain_asks _ _ h) in P. apply (plain_ask _ _ [] (QDump f)) in P as [_ P]. rewrite (P f eq_refl eq_refl). reflexivity.
Qed.
End Gen.
