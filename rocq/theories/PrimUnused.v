(* The unused_bits property of the bit string classes. *)
Require Import Verif.Base Verif.BaseFacts Verif.IntModel Verif.IntSpec Verif.ParserModel Verif.Text Verif.BitModel Verif.BitSpec Verif.BitProofs Verif.CodecModel
  Verif.TimeModel Verif.TagSpec Verif.PrimModel Verif.PrimSpec Verif.ChunkProofs Verif.PrimRead.

(* core.py:2089-2101, 2490-2502 unused_bits: native is read for its side effect *)
Definition get_unused (k : kind) (c : pcls) (o : obj) : obj * res (list bool) :=
  match get_native k c o with
  | (o', Ok _) => (o', Ok (c_unused (o_cache o')))
  | (o', Err e) => (o', Err e)
  end.

Definition bit_kind (k : kind) : Prop := k = KOctetBits \/ k = KIntBits \/ exists m, k = KBits m.
Fixpoint read_times (n : nat) (k : kind) (c : pcls) (o : obj) : obj :=
  match n with O => o | S n' => read_times n' k c (fst (get_native k c o)) end.

Lemma first_read k cls o u body : bit_kind k -> contents o = Some (u :: body) -> o_cache o = no_cache -> e_indef (o_enc o) = false ->
  bytes_ok body -> 0 <= u <= 7 -> (u <> 0 -> body <> []) ->
  exists a b o' v, octets_bits body = a ++ b /\ len b = u /\ get_native k cls o = (o', Ok v) /\ c_unused (o_cache o') = b /\ get_native k cls o' = (o', Ok v).
Proof.
  intros Hk Hc Hn Hi Hb Hu Hne. destruct (octetbits_chunk_ok u body Hb Hu Hne) as (x & a & ub & E & _ & Hbits & Hl & _).
  pose proof (bit_chunk_ok u body a ub Hb Hu Hbits Hl) as Eb. exists a, ub.
  destruct o as [t e c w]. cbn in Hn, Hi. unfold contents in Hc. cbn [o_enc] in Hc. subst c. destruct Hk as [->|[->|[m ->]]]; unfold get_native; cbn [contents o_enc o_cache]; unfold contents; cbn [o_enc];
    rewrite Hc; cbn [o_cache no_cache c_bytes c_native].
  - unfold merged_octets. rewrite Hi, E. eexists _, _. split; [exact Hbits|]. split; [exact Hl|]. split; [reflexivity|]. split; [reflexivity|].
    unfold contents. cbn. rewrite Hc. reflexivity.
  - unfold merged_int. rewrite Hi, Eb. eexists _, _. split; [exact Hbits|]. split; [exact Hl|]. split; [reflexivity|]. split; [reflexivity|].
    unfold contents. cbn. rewrite Hc. reflexivity.
  - unfold bits_native, merged_int. cbn [o_cache no_cache c_native o_enc]. rewrite Hi, Eb, int_to_bits_ok.
    eexists _, _. split; [exact Hbits|]. split; [exact Hl|]. split; [reflexivity|]. split; [reflexivity|]. unfold contents. cbn. rewrite Hc. reflexivity.
Qed.

(* the bits after the value, as often as native was read before *)
Lemma unused_loaded k cls p d s o u body n : bit_kind k -> bytes_ok d -> load k cls p d s = Ok o -> contents o = Some (u :: body) -> e_indef (o_enc o) = false ->
  u <= 7 -> (u <> 0 -> body <> []) ->
  exists a b, octets_bits body = a ++ b /\ len b = u /\ snd (get_unused k cls (read_times n k cls o)) = Ok b.
Proof.
  intros Hk Bd Hl Hc Hi Hu Hne. destruct (load_fresh _ _ _ _ _ _ Bd Hl) as (c & Ec & Bc & Hn & _). rewrite Hc in Ec. injection Ec as <-.
  apply bytes_ok_cons in Bc as [B0 Bb].
  destruct (first_read k cls o u body Hk Hc Hn Hi Bb) as (a & b & o' & v & H1 & H2 & H3 & H4 & H5); auto; [unfold byte_ok in B0; lia|].
  exists a, b. split; auto. split; auto.
  assert (G : forall m, read_times m k cls o' = o') by (intros m; induction m as [|m IH]; cbn [read_times]; [auto|rewrite H5; exact IH]).
  assert (F : get_unused k cls o = (o', Ok b) /\ get_unused k cls o' = (o', Ok b)) by (unfold get_unused; rewrite H3, H5, H4; auto).
  destruct n as [|n]; cbn [read_times]; [now rewrite (proj1 F)|]. rewrite H3. cbn [fst]. rewrite G. now rewrite (proj2 F).
Qed.
