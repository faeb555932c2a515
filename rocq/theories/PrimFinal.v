(* Corollaries of the object lemmas in the form the properties use. *)
Require Import Verif.Base Verif.BaseFacts Verif.IntModel Verif.IntSpec Verif.IntProofs
  Verif.ParserModel Verif.ParserSpec Verif.ParserProofs Verif.ParserFacts Verif.Text Verif.OidModel Verif.OidSpec
  Verif.OidProofs Verif.BitModel Verif.BitSpec Verif.BitProofs Verif.CodecModel Verif.CodecSpec Verif.CodecProofs
  Verif.Calendar Verif.TimeModel Verif.TimeSpec Verif.TimeProofs Verif.TimeFacts Verif.TagSpec Verif.TagProofs
  Verif.PrimModel Verif.PrimSpec Verif.PrimProofs Verif.PrimSet Verif.PrimDump Verif.PrimLoad Verif.HistSpec Verif.PrimHist
  Verif.ChunkSpec Verif.ChunkProofs Verif.PrimRead Verif.PrimMore Verif.PrimSide Verif.SegLoad.


(* one encoding under one tagging has one contents *)
Lemma der_object_inj t x y d : der_object t x d -> der_object t y d -> x = y.
Proof.
  intros X Y. pose (c := Cls (t_class t) (t_tag t) (t_explicit t) []). pose (t0 := Tagging (t_class t) (t_tag t) false (t_explicit t)).
  assert (I : init_tagging c no_params = Ok t0) by reflexivity.
  assert (C : tags_compatible c no_params) by (right; right; right; reflexivity).
  destruct (load_own KBool c no_params t0 x d false I C X) as (h & E & _).
  destruct (load_own KBool c no_params t0 y d false I C Y) as (h' & E' & _).
  rewrite E in E'. injection E' as _ E'. exact E'.
Qed.

Lemma der_int_inj a b c : der_int a c -> der_int b c -> a = b.
Proof. intros (_ & _ & <- & _) (_ & _ & <- & _). reflexivity. Qed.

Lemma integer_distinct cls p t a b oa ob da db : init_tagging cls p = Ok t -> tagging_ok t -> tags_compatible cls p ->
  make (KInt []) cls p (NInt a) = Ok oa -> make (KInt []) cls p (NInt b) = Ok ob ->
  snd (dump (KInt []) cls oa false) = Ok da -> snd (dump (KInt []) cls ob false) = Ok db -> len da < 2 ^ 1008 ->
  (da = db <-> a = b).
Proof.
  intros I T C Ma Mb Da Db L. split; [|intros ->; congruence]. intros <-.
  assert (K : kind_ok (KInt [])) by (cbn; split; constructor).
  destruct (construct_dump_load (KInt []) cls p t (NInt a) K I T C ltac:(cbn; auto)) as (o & o' & c & d & M & D & V & R).
  destruct (construct_dump_load (KInt []) cls p t (NInt b) K I T C ltac:(cbn; auto)) as (u & u' & c' & d' & M' & D' & V' & R').
  rewrite M in Ma. injection Ma as ->. rewrite M' in Mb. injection Mb as ->.
  rewrite D in Da. rewrite D' in Db. injection Da as ->. injection Db as ->.
  destruct (R L) as [R1 _]. destruct (R' L) as [R1' _].
  rewrite (der_object_inj t c c' da R1 R1') in V. exact (der_int_inj a b c' V V').
Qed.

Lemma integer_any_contents cls p d s o : bytes_ok d -> load (KInt []) cls p d s = Ok o ->
  exists c, contents o = Some c /\ bytes_ok c /\ snd (get_native (KInt []) cls o) = Ok (NInt (twos_value c)).
Proof.
  intros B L. destruct (load_fresh _ _ _ _ _ _ B L) as (c & E & Bc & N & _). exists c. split; [exact E|]. split; [exact Bc|].
  unfold get_native. rewrite E. unfold cached. rewrite N. cbn [no_cache c_native snd ret].
  rewrite int_from_bytes_signed by auto. reflexivity.
Qed.

(* forced dump of anything loaded *)
Lemma forced_loaded k cls p t d s o o1 v : kind_ok k -> k <> KNull -> bytes_ok d ->
  init_tagging cls p = Ok t -> tagging_ok t -> tags_compatible cls p -> load k cls p d s = Ok o ->
  get_native k cls o = (o1, Ok v) -> (complete_kind k = true \/ holds k None v) ->
  exists c d', snd (dump k cls o true) = Ok d' /\ der_value k None v c /\
    (len d' < 2 ^ 1008 -> der_object t c d' /\
      exists o2 v2, load k cls p d' true = Ok o2 /\ snd (get_native k cls o2) = Ok v2 /\ same_value k v v2 /\
        snd (dump k cls o2 true) = Ok d').
Proof.
  intros K N B I T C L G H. pose proof (load_tagging _ _ _ _ _ _ _ L I C) as E.
  assert (H' : holds k None v).
  { destruct H as [H|H]; [|exact H]. destruct (load_fresh _ _ _ _ _ _ B L) as (c & Ec & Bc & Nc & W).
    destruct o as [ot oe oc ow]. cbn [contents o_enc o_cache o_width] in *. subst oc ow.
    exact (read_holds k cls ot oe c o1 v K H Bc Ec G). }
  destruct (forced_canonical k cls p t d s o o1 v K N B I T L E G H') as (c & d' & D & V & R).
  exists c, d'. split; [exact D|]. split; [exact V|]. intros Ln. destruct (R Ln) as [R1 R2]. split; [exact R1|]. exact (R2 C).
Qed.

(* two loaded encodings of the same value have the same forced dump *)
Lemma forced_same k cls p t d1 s1 o1 x1 v1 d2 s2 o2 x2 v2 f1 f2 : kind_ok k -> k <> KNull -> bytes_ok d1 -> bytes_ok d2 ->
  init_tagging cls p = Ok t -> tagging_ok t -> tags_compatible cls p ->
  load k cls p d1 s1 = Ok o1 -> get_native k cls o1 = (x1, Ok v1) -> (complete_kind k = true \/ holds k None v1) ->
  load k cls p d2 s2 = Ok o2 -> get_native k cls o2 = (x2, Ok v2) -> (complete_kind k = true \/ holds k None v2) ->
  same_value k v1 v2 -> snd (dump k cls o1 true) = Ok f1 -> snd (dump k cls o2 true) = Ok f2 ->
  len f1 < 2 ^ 1008 -> len f2 < 2 ^ 1008 -> f1 = f2.
Proof.
  intros K N B1 B2 I T C L1 G1 H1 L2 G2 H2 S F1 F2 Ln1 Ln2.
  destruct (forced_loaded k cls p t d1 s1 o1 x1 v1 K N B1 I T C L1 G1 H1) as (c1 & e1 & D1 & V1 & R1).
  destruct (forced_loaded k cls p t d2 s2 o2 x2 v2 K N B2 I T C L2 G2 H2) as (c2 & e2 & D2 & V2 & R2).
  rewrite F1 in D1. injection D1 as <-. rewrite F2 in D2. injection D2 as <-.
  destruct (R1 Ln1) as [O1 _]. destruct (R2 Ln2) as [O2 _].
  pose proof (der_value_same _ _ _ _ _ S V1) as V1'.
  rewrite (der_value_unique k None v2 c1 c2 K V1' V2) in O1.
  rewrite (der_object_bytes t c2 f1 T Ln1 O1). symmetry. exact (der_object_bytes t c2 f2 T Ln2 O2).
Qed.

Lemma read_error_loaded k cls p d s o e : k_explicit cls = [] -> bytes_ok d -> load k cls p d s = Ok o ->
  (forall c, contents o = Some c -> readable k (e_indef (o_enc o)) c) ->
  snd (get_native k cls o) = Err e -> value_error e.
Proof.
  intros X B L R E. destruct (load_fresh _ _ _ _ _ _ B L) as (c & Ec & Bc & _).
  exact (read_error k cls o c e X Bc Ec (R c Ec) E).
Qed.
