(* Histories of operations on a primitive object. *)
Require Import Verif.Base Verif.BaseFacts Verif.IntModel Verif.IntSpec Verif.IntProofs
  Verif.ParserModel Verif.ParserSpec Verif.ParserProofs Verif.ParserFacts Verif.Text Verif.OidModel Verif.OidSpec
  Verif.OidProofs Verif.BitModel Verif.BitSpec Verif.BitProofs Verif.CodecModel Verif.CodecSpec Verif.CodecProofs
  Verif.Calendar Verif.TimeModel Verif.TimeSpec Verif.TimeProofs Verif.TimeFacts Verif.TagSpec Verif.TagProofs
  Verif.PrimModel Verif.PrimSpec Verif.PrimProofs Verif.PrimSet Verif.PrimDump Verif.PrimLoad Verif.HistSpec.

Lemma same_value_trans k a b c : same_value k a b -> same_value k b c -> same_value k a c.
Proof.
  unfold same_value. destruct a, b; try (intros E; discriminate E).
  1-6: intros E; injection E as -> || clear E; destruct c; try (intros E; discriminate E); auto.
  - destruct c; try (intros _ E; discriminate E). intros H K y. rewrite H. apply K.
  - destruct c; try (intros _ E; discriminate E).
    intros (t & t' & I & I' & E) (u & u' & J & J' & E'). rewrite J in I'. injection I' as ->.
    exists t, u'. split; auto. split; auto. destruct k; congruence.
Qed.

(* the object holds the abstract value v *)
Definition carries (k : kind) (cls : pcls) (t : tagging) (w : option Z) (v : native) (o : obj) : Prop :=
  o_tagging o = t /\ o_width o = w /\
  (e_method (o_enc o) = 0 \/ (constructable k = true /\ e_indef (o_enc o) = true)) /\
  exists c, contents o = Some c /\ der_value k w v c /\
    (e_header (o_enc o) = None \/ (e_header (o_enc o) = Some (full_header t 0 c) /\ e_trailer (o_enc o) = [])) /\
    exists o' v', get_native k cls o = (o', Ok v') /\ same_value k v v' /\ holds k w v' /\ der_value k w v' c.

Lemma carries_read k cls t w v o : kind_ok k -> carries k cls t w v o ->
  exists o' v', get_native k cls o = (o', Ok v') /\ same_value k v v' /\ carries k cls t w v o'.
Proof.
  intros Hk (Et & Ew & M & c & Ec & D & H & o' & v' & Eg & Sv & Hv & Dv). exists o', v'. split; auto. split; auto.
  pose proof (get_frame k cls o c Ec) as F. rewrite Eg in F. destruct F as (Ft & Fe & Fw). cbn [fst] in *.
  pose proof (get_idem k cls o c Hk Ec) as I. rewrite Eg in I. cbn [fst] in I.
  split; [congruence|]. split; [congruence|]. rewrite Fe. split; [exact M|].
  exists c. unfold contents. rewrite Fe. split; [exact Ec|]. split; [exact D|]. split; [exact H|].
  exists o', v'. auto.
Qed.

Lemma carries_dump k cls t w v o f : kind_ok k -> tagging_ok t -> carries k cls t w v o ->
  exists o' c, dump k cls o f = (o', Ok (object_bytes t c)) /\ der_value k w v c /\ carries k cls t w v o'.
Proof.
  intros Hk Ht (Et & Ew & M & c & Ec & D & H & o' & v' & Eg & Sv & Hv & Dv).
  destruct (f || ends_80 (e_header (o_enc o))) eqn:Ef.
  - destruct (kind_eq_null k) as [->|Nk].
    + (* Null: set keeps the header *)
      destruct v; cbn [der_value] in D; try contradiction. subst c.
      unfold dump. rewrite Ef. unfold get_native. rewrite Ec. cbn [ret].
      change (set_value KNull (set_contents o None) NNone) with (set_contents o (Some []), Ok tt). cbn iota beta.
      assert (Eo : set_contents o (Some []) = o).
      { destruct o as [ta [em eh ec et ei] ca wi]. unfold contents in Ec. cbn in Ec. subst ec. reflexivity. }
      rewrite Eo. destruct M as [M|[M _]]; [|discriminate].
      assert (Z : exists o2, base_dump KNull o = (o2, Ok (object_bytes t [])) /\
        (o2 = o \/ o2 = with_enc o (Enc 0 (Some (full_header t 0 [])) (Some []) [] (e_indef (o_enc o))))).
      { unfold base_dump. unfold contents in Ec. rewrite Ec. destruct H as [H|[H T]]; rewrite H.
        - cbn [ends_80 constructable andb]. rewrite M, Et. eexists. split; [reflexivity|auto].
        - rewrite T, M, Et. destruct (ends_80 (Some (full_header t 0 []))); cbn [constructable andb]; eexists; (split; [reflexivity|auto]). }
      destruct Z as (o2 & E2 & Z). rewrite E2. exists o2, []. split; [reflexivity|]. split; [reflexivity|].
      assert (G : forall x, contents x = Some [] -> get_native KNull cls x = (x, Ok NNone)).
      { intros x Ex. unfold get_native. now rewrite Ex. }
      destruct Z as [->| ->].
      * split; [exact Et|]. split; [exact Ew|]. split; [auto|]. exists []. split; [exact Ec|]. split; [reflexivity|].
        split; [exact H|]. exists o, NNone. rewrite G by exact Ec. repeat split.
      * split; [exact Et|]. split; [exact Ew|]. split; [left; reflexivity|]. exists []. split; [reflexivity|]. split; [reflexivity|].
        split; [right; split; reflexivity|]. eexists _, NNone. rewrite G by reflexivity. repeat split.
    + assert (So : state_ok k o) by (split; [now rewrite Et|]; split; [exact M|contradiction]).
      rewrite <- Ew in Hv.
      destruct (forced_dump k cls o c o' v' f Hk So Ec Ef Eg Hv) as
        (c' & o2 & Ed & Dc & B & Ec2 & Et2 & Ew2 & So2 & Eh2 & Etr2 & o3 & v3 & Eg3 & Sv3 & Hv3 & Dv3).
      rewrite Ew in *. pose proof (der_value_unique k w v' c c' Hk Dv Dc) as <-. rewrite Et in *.
      exists o2, c. split; [exact Ed|]. split; [exact D|]. split; [exact Et2|]. split; [exact Ew2|].
      split; [destruct k; try contradiction; apply So2|]. exists c. split; [exact Ec2|]. split; [exact D|].
      split; [right; auto|]. exists o3, v3. split; [exact Eg3|]. split; [eapply same_value_trans; eauto|auto].
  - unfold dump. rewrite Ef. apply orb_false_iff in Ef as [_ E8].
    destruct H as [H|[H T]].
    + rewrite (base_dump_none k o c Ec H M), Et. eexists _, c. split; [reflexivity|]. split; [exact D|].
      split; [exact Et|]. split; [exact Ew|]. split; [left; reflexivity|]. exists c. split; [reflexivity|]. split; [exact D|].
      split; [right; split; reflexivity|].
      rewrite (get_with_enc k cls o c); [|exact Ec|reflexivity|reflexivity]. rewrite Eg. cbn [fst snd].
      eexists _, v'. split; [reflexivity|auto].
    + unfold base_dump. unfold contents in Ec. rewrite E8, Ec, H, T, app_nil_r.
      exists o, c. split; [reflexivity|]. split; [exact D|]. split; [exact Et|]. split; [exact Ew|]. split; [exact M|].
      exists c. split; [exact Ec|]. split; [exact D|]. split; [right; auto|]. exists o', v'. auto.
Qed.

Lemma carries_set k cls t w v o : kind_ok k -> tagging_ok t -> o_tagging o = t -> o_width o = w ->
  (e_method (o_enc o) = 0 \/ (constructable k = true /\ e_indef (o_enc o) = true)) -> k <> KNull ->
  holds k w v -> exists o', set_value k o v = (o', Ok tt) /\ carries k cls t w v o'.
Proof.
  intros Hk Ht Et Ew M Nk Hv. rewrite <- Ew in Hv.
  destruct (set_ok k cls o v Hk Hv) as (c & o' & Es & D & B & St & o'' & v' & Eg & Fg & Sv & Hv' & Dv). rewrite Ew in *.
  assert (So : state_ok k o) by (split; [now rewrite Et|]; split; [exact M|contradiction]).
  destruct (store_state k o c o' So St) as ((tr & ind & Ee) & S1).
  exists o'. split; [exact Es|]. pose proof St as (St1 & St2 & _).
  split; [congruence|]. split; [congruence|]. split; [apply S1|]. exists c.
  split; [exact (stored_contents _ _ _ _ St)|]. split; [exact D|]. split; [left; now rewrite Ee|].
  exists o'', v'. auto.
Qed.

Lemma carries_set_null cls t w v u o : carries KNull cls t w u o -> holds KNull w v ->
  exists o', set_value KNull o v = (o', Ok tt) /\ carries KNull cls t w v o'.
Proof.
  intros C Hv. destruct v; cbn [holds] in Hv; try contradiction.
  pose proof C as (Et & Ew & M & c & Ec & D & H & _).
  destruct u; cbn [der_value] in D; try contradiction. subst c.
  assert (Eo : set_contents o (Some []) = o).
  { destruct o as [ta [em eh ec et ei] ca wi]. unfold contents in Ec. cbn in Ec. subst ec. reflexivity. }
  exists (set_contents o (Some [])). split; [reflexivity|]. now rewrite Eo.
Qed.

Lemma history_agrees k cls t w : kind_ok k -> tagging_ok t -> forall ops v o,
  carries k cls t w v o -> Forall (legal_op k w) ops -> agrees k w t v (trace k cls o ops).
Proof.
  intros Hk Ht. induction ops as [|x ops IH]; intros v o C L; [exact I|].
  inversion L as [|? ? Lx Lr]; subst. cbn [trace]. destruct x as [|f|u]; cbn [step].
  - destruct (carries_read k cls t w v o Hk C) as (o' & v' & Eg & Sv & C'). rewrite Eg. cbn [agrees]. auto.
  - destruct (carries_dump k cls t w v o f Hk Ht C) as (o' & c & Ed & D & C'). rewrite Ed. cbn [agrees]. split; [|auto].
    exists c. split; [exact D|]. intros Len. now apply object_bytes_der.
  - cbn [legal_op] in Lx. destruct (kind_eq_null k) as [->|Nk].
    + destruct (carries_set_null cls t w u v o C Lx) as (o' & Es & C'). rewrite Es. cbn [agrees]. auto.
    + pose proof C as (Et & Ew & M & _).
      destruct (carries_set k cls t w u o Hk Ht Et Ew M Nk Lx) as (o' & Es & C'). rewrite Es. cbn [agrees]. auto.
Qed.

(* ---- reachable objects ---- *)
Definition meth_ok (k : kind) (o : obj) : Prop :=
  e_method (o_enc o) = 0 \/ (constructable k = true /\ e_indef (o_enc o) = true).

(* what an operation can do to the attributes other than the caches *)
Definition moved (k : kind) (o o' : obj) : Prop :=
  o_tagging o' = o_tagging o /\ o_width o' = o_width o /\ (meth_ok k o -> meth_ok k o') /\
  (e_indef (o_enc o) = false -> e_indef (o_enc o') = false).

Lemma moved_refl k o : moved k o o.
Proof. repeat split; auto. Qed.
Lemma moved_trans k a b c : moved k a b -> moved k b c -> moved k a c.
Proof. intros (A & B & C & C') (D & E & F & F'). repeat split; try congruence; auto. Qed.
Lemma moved_frame k a b : frame b a -> moved k a b.
Proof. intros (A & B & C). split; auto. split; auto. unfold meth_ok. now rewrite B. Qed.
Lemma moved_store k o c : moved k o (store k o c).
Proof.
  split; [apply store_tagging|]. split; [apply store_width|]. unfold meth_ok, store.
  destruct (constructable k && e_indef (o_enc o)) eqn:E; cbn; auto.
Qed.
Lemma moved_contents k o x : moved k o (set_contents o x).
Proof. repeat split; auto. Qed.

Ltac mv := cbn [fst done fail];
  repeat first [apply moved_refl | apply moved_contents | apply moved_store
  | (eapply moved_trans; [|apply moved_store]) | (eapply moved_trans; [|apply moved_contents])
  | apply moved_frame; (apply frame_native || apply frame_bytes || apply frame_unused || apply frame_unicode)
  | (eapply moved_trans; [|apply moved_frame, frame_unused]) | (eapply moved_trans; [|apply moved_frame, frame_native])
  | (eapply moved_trans; [|apply moved_frame, frame_unicode]) | (eapply moved_trans; [|apply moved_frame, frame_bytes])].

Lemma set_int_moved k m o z : moved k o (fst (set_int k m o z)).
Proof. unfold set_int. destruct (int_to_bytes z true None); mv. Qed.
Lemma set_bits_moved k m o l : moved k o (fst (set_bits k m o l)).
Proof. unfold set_bits. destruct (bitstring_encode (size_of m) l); mv. Qed.
Lemma set_text_moved k e o s : moved k o (fst (set_text k e o s)).
Proof. unfold set_text. destruct (encode e s); mv. Qed.
Lemma set_time_moved k o s : moved k o (fst (set_time k o s)).
Proof.
  unfold set_time. pose proof (set_text_moved k Latin1 o s) as H. destruct (set_text k Latin1 o s) as [o' [[]|]]; auto.
Qed.

Lemma set_moved k o v : moved k o (fst (set_value k o v)).
Proof.
  destruct k as [|m|m|m| | | | | |m|e| |pad|]; cbn [set_value].
  - mv.
  - destruct v; cbn [as_int]; try apply set_int_moved; try mv.
    destruct m; [mv|]. destruct (rev_get _ s); [apply set_int_moved|mv].
  - destruct m as [m|]; [|mv]. destruct v; cbn [as_int]; try mv.
    + destruct (map_get m (if b then 1 else 0)); [apply set_int_moved|mv].
    + destruct (map_get m z); [apply set_int_moved|mv].
    + destruct (rev_get m s); [apply set_int_moved|mv].
  - destruct v; try mv.
    + eapply moved_trans; [|apply set_bits_moved]. mv.
    + destruct m; [|mv]. eapply moved_trans; [|apply set_bits_moved]. mv.
  - destruct v; mv.
  - destruct (as_int v); [|mv]. destruct (z <? 0); [mv|]. destruct (intbits_encode z); mv.
  - destruct v; mv.
  - destruct (as_int v); [|mv]. destruct (z <? 0); [mv|]. destruct (intoctets_encode _ z); mv.
  - mv.
  - destruct v; try mv. destruct (oid_set_parts _) as [c [x|]]; mv.
  - destruct v; try mv. apply set_text_moved.
  - destruct v; try mv; [apply set_time_moved|]. destruct (d_year x =? 0); [mv|].
    destruct (utctime_format x); [apply set_time_moved|mv].
  - destruct v; try mv; [apply set_time_moved|]. destruct (gentime_format pad x); [apply set_time_moved|mv].
  - destruct v; mv.
Qed.

Lemma get_moved k cls o : moved k o (fst (get_native k cls o)).
Proof.
  destruct (contents o) as [c|] eqn:Ec.
  - apply moved_frame. now apply (get_frame k cls o c).
  - unfold get_native. rewrite Ec. destruct k as [|m|m|m| | | | | |m|e| |pad|]; try apply moved_refl.
    pose proof (set_moved (KBits m) o (match m with None => NBits [] | Some _ => NSet [] end)) as H.
    destruct (set_value (KBits m) o _) as [o' [[]|x]]; [|exact H]. cbn [fst] in H.
    destruct (contents o') as [c|] eqn:Ec'; [|exact H].
    eapply moved_trans; [exact H|]. apply moved_frame.
    pose proof (get_frame (KBits m) cls o' c Ec') as F. unfold get_native in F. rewrite Ec' in F. exact F.
Qed.

Lemma base_moved k o : moved k o (fst (base_dump k o)).
Proof.
  unfold base_dump. destruct (e_contents (o_enc o)) as [c|]; [|apply moved_refl].
  destruct (if ends_80 (e_header (o_enc o)) then None else e_header (o_enc o)); [apply moved_refl|].
  repeat split; auto. unfold meth_ok. cbn. destruct (constructable k && e_indef (o_enc o)); auto.
Qed.

Lemma dump_moved k cls o f : moved k o (fst (dump k cls o f)).
Proof.
  unfold dump. destruct (f || ends_80 (e_header (o_enc o))); [|apply base_moved].
  pose proof (get_moved k cls o) as H. destruct (get_native k cls o) as [o1 [v|x]]; [|exact H]. cbn [fst] in H.
  pose proof (set_moved k (set_contents o1 None) v) as K.
  assert (HK : moved k o (fst (set_value k (set_contents o1 None) v))).
  { eapply moved_trans; [exact H|]. eapply moved_trans; [|exact K]. apply moved_contents. }
  destruct (set_value k (set_contents o1 None) v) as [o2 [[]|x]]; [|exact HK]. cbn [fst] in *.
  eapply moved_trans; [exact HK|]. apply base_moved.
Qed.

Lemma step_moved k cls o x : moved k o (fst (step k cls o x)).
Proof.
  destruct x as [|f|v]; cbn [step].
  - pose proof (get_moved k cls o). destruct (get_native k cls o); auto.
  - pose proof (dump_moved k cls o f). destruct (dump k cls o f); auto.
  - pose proof (set_moved k o v). destruct (set_value k o v); auto.
Qed.

Lemma build_plain_meth k cls p i o : i_method i = 0 \/ i_method i = 1 -> build_plain k cls p i = Ok o -> meth_ok k o.
Proof.
  intros Mi H. unfold build_plain in H. destruct (init_tagging cls p) as [t|]; [|discriminate]. cbn [bind] in H.
  destruct (negb (i_class i =? t_class t)); [discriminate|].
  destruct (i_method i =? 0) eqn:M0; cbn [negb andb] in H.
  - destruct (negb (i_tag i =? t_tag t) && _); [discriminate|]. injection H as <-. left. cbn. now apply Z.eqb_eq.
  - destruct ((i_method i =? 1) && eqb_bytes (i_trailer i) [0; 0] && constructable k) eqn:E; [|discriminate].
    cbn [negb] in H. destruct (negb (i_tag i =? t_tag t) && _); [discriminate|]. injection H as <-. right. cbn.
    split; auto. apply andb_prop in E. tauto.
Qed.

Lemma build_plain_width k cls p i o : build_plain k cls p i = Ok o -> o_width o = None.
Proof.
  intros H. unfold build_plain in H. destruct (init_tagging cls p) as [t|]; [|discriminate]. cbn [bind] in H.
  destruct (negb (i_class i =? t_class t)); [discriminate|]. destruct (negb (i_method i =? 0) && _); [discriminate|].
  destruct (negb (i_tag i =? t_tag t) && _); [discriminate|]. now injection H as <-.
Qed.

Lemma ber_method n i : ber_info n i -> i_method i = 0 \/ i_method i = 1.
Proof.
  unfold ber_info. intros B. inversion B as [? ? ? ? ? ? ? I|]; subst; auto.
  inversion I; subst; auto; lia.
Qed.

Lemma contents_bytes d i r : bytes_ok d -> d = encoding_of i ++ r -> bytes_ok (i_contents i).
Proof.
  intros B ->. unfold encoding_of in B. apply bytes_ok_app in B as [B _]. apply bytes_ok_app in B as [_ B].
  now apply bytes_ok_app in B as [B _].
Qed.

Lemma parse_method d i e : bytes_ok d -> parse_ d (len d) 0 = Ok (i, e) ->
  (i_method i = 0 \/ i_method i = 1) /\ bytes_ok (i_contents i).
Proof.
  intros B H. apply parse__0 in H as (Bi & (r & E) & _); auto.
  split; [eapply ber_method; eauto|eapply contents_bytes; eauto].
Qed.

Lemma peel_method ex : forall i P T j P' T', bytes_ok (i_contents i) -> i_method i = 0 \/ i_method i = 1 ->
  peel ex i P T = Ok (j, P', T') -> i_method j = 0 \/ i_method j = 1.
Proof.
  induction ex as [|[c t] ex IH]; intros i P T j P' T' Bi Mi H; cbn [peel] in H.
  - injection H as <- <- <-. exact Mi.
  - destruct (negb (i_class i =? c)); [discriminate|]. destruct (negb (i_method i =? 1)); [discriminate|].
    destruct (negb (i_tag i =? t)); [discriminate|].
    destruct (parse_ (i_contents i) (len (i_contents i)) 0) as [[j' e]|] eqn:E; [|discriminate]. cbn [bind] in H.
    apply parse_method in E as [M B]; auto. apply (IH j' _ _ _ _ _ B M) in H; auto.
Qed.

Lemma load_meth k cls p d s o : bytes_ok d -> load k cls p d s = Ok o -> meth_ok k o.
Proof.
  intros B H. unfold load in H. destruct (parse_ d (len d) 0) as [[i e]|] eqn:E; [|discriminate]. cbn [bind] in H.
  destruct (s && negb (e =? len d)); [discriminate|]. apply parse_method in E as [M Bi]; auto.
  unfold build in H. destruct (has_explicit cls p).
  - destruct (init_tagging cls p) as [t|]; [|discriminate]. cbn [bind] in H.
    destruct (peel (rev (t_explicit t)) i (i_header i) (i_trailer i)) as [[[j P'] T']|] eqn:Ep; [|discriminate]. cbn [bind] in H.
    apply peel_method in Ep; auto.
    destruct (build_plain k cls (Params [] None true) j) as [o'|] eqn:Eb; [|discriminate]. cbn [bind] in H.
    apply build_plain_meth in Eb; auto. injection H as <-. exact Eb.
  - eapply build_plain_meth; eauto.
Qed.

Lemma reachable_ok k cls o : reachable k cls o -> tagging_ok (o_tagging o) /\ meth_ok k o.
Proof.
  induction 1 as [p o H T|p v o H T|p d s o B H T|o x H IH|o n K H IH].
  - split; auto. unfold new_obj in H. destruct (init_tagging cls p); [|discriminate]. injection H as <-. left. reflexivity.
  - split; auto. unfold make, new_obj in H. destruct (init_tagging cls p) as [t|]; [|discriminate]. cbn [bind] in H.
    set (o0 := Obj t (Enc 0 None (initial_contents k) [] false) no_cache None) in *.
    assert (M0 : meth_ok k o0) by (left; reflexivity).
    pose proof (set_moved k o0 v) as (_ & _ & M & _).
    destruct v; try (injection H as <-; exact M0);
      (destruct (set_value k o0 _) as [o' [[]|]]; [|discriminate]; injection H as <-; auto).
  - split; auto. eapply load_meth; eauto.
  - destruct IH as (T & M). destruct (step_moved k cls o x) as (E & _ & M' & _). rewrite E. auto.
  - destruct IH as (T & M). subst k. unfold set_width.
    set (o1 := Obj (o_tagging o) (o_enc o) (o_cache o) (Some n)).
    assert (T1 : tagging_ok (o_tagging o1)) by exact T. assert (M1 : meth_ok KIntOctets o1) by exact M.
    destruct (contents o1); [|auto]. destruct (len b =? n); [auto|].
    pose proof (get_moved KIntOctets cls o1) as (E & _ & M' & _). destruct (get_native KIntOctets cls o1) as [o2 [v|]]; cbn [fst] in *.
    + pose proof (set_moved KIntOctets o2 v) as (E2 & _ & M2 & _). split; [now rewrite E2, E|auto].
    + cbn [fst fail]. split; [now rewrite E|auto].
Qed.

(* a value assigned to any object, then any history *)
Lemma set_history k cls o v ops : kind_ok k -> k <> KNull -> reachable k cls o ->
  holds k (o_width o) v -> Forall (legal_op k (o_width o)) ops ->
  forall u, agrees k (o_width o) (o_tagging o) u (trace k cls o (OSet v :: ops)).
Proof.
  intros Hk Nk R Hv L u. apply reachable_ok in R as (T & M). cbn [trace step].
  destruct (carries_set k cls _ _ v o Hk T eq_refl eq_refl M Nk Hv) as (o' & Es & C). rewrite Es. cbn [agrees].
  now apply history_agrees.
Qed.

(* a constructed object, then any history *)
Lemma make_history k cls p t v ops : kind_ok k -> init_tagging cls p = Ok t -> tagging_ok t -> holds k None v ->
  Forall (legal_op k None) ops ->
  exists o, make k cls p v = Ok o /\ agrees k None t v (trace k cls o ops).
Proof.
  intros Hk Hi Ht Hv L.
  destruct (make_good k cls p t v Hk Hi Ht Hv) as (o & c & Em & Eo & Ew & Ec & So & Eh & D & B & o' & v' & Eg & Sv & Hv' & Dv').
  exists o. split; [exact Em|]. apply history_agrees; auto.
  split; [exact Eo|]. split; [exact Ew|]. split; [apply So|]. exists c. split; [exact Ec|]. split; [exact D|].
  split; [left; exact Eh|]. exists o', v'. auto.
Qed.

Lemma der_wrapped_len ex : forall inner d, der_wrapped ex inner d -> len inner <= len d.
Proof.
  induction ex as [|[c t] ex IH]; intros inner d; cbn [der_wrapped].
  - intros ->. lia.
  - intros (mid & H & K). apply IH in K. apply der_tlv_len in H. lia.
Qed.

(* the encoding is the one computed *)
Lemma der_object_bytes t c d : tagging_ok t -> len d < 2 ^ 1008 -> der_object t c d -> d = object_bytes t c.
Proof.
  intros (T1 & T2 & T3) L (inner & Ht & Hw). unfold object_bytes, full_header.
  pose proof (der_wrapped_len _ _ _ Hw) as L1. pose proof (der_tlv_len _ _ _ _ _ Ht) as L2.
  assert (E : inner = dump_header (t_class t) 0 (t_tag t) c ++ c).
  { eapply der_tlv_unique; [exact Ht|]. apply dump_header_tlv; auto; lia. }
  subst inner. clear L1 L2 Ht. revert Hw L T3. generalize (dump_header (t_class t) 0 (t_tag t) c).
  generalize (t_explicit t). intros ex. induction ex as [|[cl tg] ex IH]; intros h Hw L T3; cbn [der_wrapped] in Hw.
  - exact Hw.
  - destruct Hw as (mid & H & K). inversion T3 as [|? ? [R1 R2] T3']; subst. cbn [fst snd] in *.
    pose proof (der_wrapped_len _ _ _ K) as L1. pose proof (der_tlv_len _ _ _ _ _ H) as L2.
    assert (E : mid = dump_header cl 1 tg (h ++ c) ++ h ++ c).
    { eapply der_tlv_unique; [exact H|]. apply dump_header_tlv; auto; lia. }
    subst mid. rewrite app_assoc in K. cbn [wrap fold_left fst snd]. exact (IH _ K L T3').
Qed.

(* the DER encoding of a value loaded, then any history *)
Lemma load_history k cls p t v c d s ops : kind_ok k -> init_tagging cls p = Ok t -> tagging_ok t -> tags_compatible cls p ->
  holds k None v -> der_value k None v c -> bytes_ok c -> der_object t c d -> len d < 2 ^ 1008 ->
  Forall (legal_op k None) ops ->
  exists o, load k cls p d s = Ok o /\ agrees k None t v (trace k cls o ops).
Proof.
  intros Hk Hi Ht Hc Hv D B Dd L Lo. destruct (load_own k cls p t c d s Hi Hc Dd) as (h & El & Eh).
  exists (loaded t h c [] 0 false). split; [exact El|]. apply history_agrees; auto.
  split; [reflexivity|]. split; [reflexivity|]. split; [left; reflexivity|]. exists c. split; [reflexivity|]. split; [exact D|].
  split.
  - right. split; [|reflexivity]. cbn. f_equal. apply (app_inv_tail c). rewrite Eh.
    now apply der_object_bytes.
  - destruct (get_loaded k cls t (Enc 0 (Some h) (Some c) [] false) None v c Hk Hv D B eq_refl eq_refl) as (o3 & v' & Eg & Sv & Hv' & Dv').
    exists o3, v'. auto.
Qed.
