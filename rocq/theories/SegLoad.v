(* Loading a string sent in segments. *)
Require Import Verif.Base Verif.BaseFacts Verif.IntModel Verif.IntSpec Verif.IntProofs
  Verif.ParserModel Verif.ParserSpec Verif.ParserProofs Verif.ParserFacts Verif.Text Verif.OidModel Verif.OidSpec
  Verif.OidProofs Verif.BitModel Verif.BitSpec Verif.BitProofs Verif.CodecModel Verif.CodecSpec Verif.CodecProofs
  Verif.Calendar Verif.TimeModel Verif.TimeSpec Verif.TimeProofs Verif.TimeFacts Verif.TagSpec Verif.TagProofs
  Verif.PrimModel Verif.PrimSpec Verif.PrimProofs Verif.PrimSet Verif.PrimDump Verif.PrimLoad Verif.HistSpec Verif.PrimHist
  Verif.ChunkSpec Verif.ChunkProofs Verif.PrimRead Verif.PrimMore Verif.PrimSide.


Lemma load_segments k cls p t n cont xs i s : init_tagging cls p = Ok t -> t_explicit t = [] -> tags_compatible cls p ->
  constructable k = true -> ident (t_class t) 1 (t_tag t) i ->
  segments (k_class cls) (own_tag cls) (tolerant k) n cont xs -> (n < 10)%nat ->
  load k cls p ((i ++ [128]) ++ cont ++ [0; 0]) s = Ok (in_segments t (Some (i ++ [128])) [0; 0] None cont).
Proof.
  intros T X C K I G N.
  pose (j := mkInfo (t_class t) 1 (t_tag t) (i ++ [128]) cont [0; 0]).
  assert (J : ber_info max_budget j).
  { unfold ber_info, j. cbn [i_class i_method i_tag i_header i_contents i_trailer].
    change max_budget with (Datatypes.S 10). constructor; [exact I|]. eapply segments_series; [exact G|lia]. }
  pose proof (parse__0_complete j [] J) as P. rewrite app_nil_r in P.
  change (encoding_of j) with ((i ++ [128]) ++ cont ++ [0; 0]) in P. unfold load. rewrite P. cbn [bind].
  rewrite Z.eqb_refl, andb_false_r. unfold build.
  destruct (has_explicit cls p) eqn:E; [exfalso; destruct (has_explicit_true _ _ _ T E) as [H _]; contradiction|].
  unfold build_plain. rewrite T. cbn [bind]. unfold j. cbn [i_class i_method i_tag i_header i_contents i_trailer].
  rewrite !Z.eqb_refl, K. reflexivity.
Qed.

Lemma load_segments_native k cls p t n cont xs c i s v o1 h tr t' : init_tagging cls p = Ok t -> t_explicit t = [] ->
  tags_compatible cls p -> tagging_ok t -> kind_ok k ->
  k_explicit cls = [] -> constructable k = true -> ident (t_class t) 1 (t_tag t) i -> bytes_ok c ->
  segments (k_class cls) (own_tag cls) (tolerant k) n cont xs -> (n < 10)%nat -> (tolerant k = false -> xs <> []) ->
  joined k xs c -> get_native k cls (one_piece t' h tr None c) = (o1, Ok v) -> holds k None v ->
  exists o c' d, load k cls p ((i ++ [128]) ++ cont ++ [0; 0]) s = Ok o /\ snd (get_native k cls o) = Ok v /\
    snd (dump k cls o true) = Ok d /\ der_value k None v c' /\ (len d < 2 ^ 1008 -> der_object t c' d).
Proof.
  intros T X C TK KO KX K I B G N NE J V H.
  rewrite (load_segments k cls p t n cont xs i s T X C K I G N).
  pose proof (segmented_native k cls n cont xs c t (Some (i ++ [128])) [0; 0] None t' h tr KX K B G ltac:(lia) NE J) as R.
  rewrite V in R. cbn [snd] in R.
  destruct (get_native k cls (in_segments t (Some (i ++ [128])) [0; 0] None cont)) as [o2 r] eqn:E. cbn [snd] in R. subst r.
  assert (St : state_ok k (in_segments t (Some (i ++ [128])) [0; 0] None cont)).
  { unfold state_ok, in_segments. cbn. split; [exact TK|]. split; [right; auto|]. intros ->. discriminate. }
  destruct (forced_dump k cls (in_segments t (Some (i ++ [128])) [0; 0] None cont) cont o2 v true KO St eq_refl eq_refl E H)
    as (c' & o3 & D & DV & _). cbn [o_tagging in_segments o_width] in D, DV.
  exists (in_segments t (Some (i ++ [128])) [0; 0] None cont), c', (object_bytes t c').
  split; [reflexivity|]. rewrite E. split; [reflexivity|]. rewrite D. split; [reflexivity|]. split; [exact DV|].
  intros L. now apply object_bytes_der.
Qed.
