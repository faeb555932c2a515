(* BER encodings the examples of PropertiesBer.v are about. *)
Require Import Verif.Base Verif.BaseFacts Verif.IntSpec Verif.ParserModel Verif.ParserSpec Verif.ParserProofs Verif.ParserFacts Verif.Text
  Verif.TagSpec Verif.PrimModel Verif.PrimSpec
  Verif.ContModel Verif.ContSpec Verif.ContBase Verif.ContPath Verif.ContHistSpec Verif.ContEx Verif.BerSpec.
Require Import Sorting.Permutation.

(* the value rec_value: indefinite lengths, lengths in more octets than needed, the default
   written out, the set in another order, 7 for true *)
Definition rec_body : bytes :=
  [160; 3; 2; 1; 0; 49; 128; 2; 129; 1; 5; 2; 2; 0; 3; 0; 0; 162; 129; 7; 48; 128; 1; 1; 7; 0; 0].
Definition rec_ber : bytes := [48; 128] ++ rec_body ++ [0; 0].
Definition rec_long : bytes := [48; 130; 0; 27] ++ rec_body.

Lemma one_at (Q : info -> Prop) y i : forallb (fun z => (0 <=? z) && (z <? 256)) y = true -> parse y true = Ok i -> Q i -> one_of Q y.
Proof.
  intros B E H. assert (bytes_ok y).
  { apply Forall_forall. intros z Hz. rewrite forallb_forall in B. specialize (B z Hz). apply andb_prop in B as [B1 B2].
    apply Z.leb_le in B1. apply Z.ltb_lt in B2. unfold byte_ok. lia. }
  exists i. apply parse_strict_iff in E as [Bi ->]; auto.
Qed.
Ltac one := eapply one_at; [reflexivity|vm_compute; reflexivity|].

Lemma ber_int_at t z i : t_explicit t = [] -> i_class i = t_class t -> i_tag i = t_tag t -> i_method i = 0 -> i_contents i <> [] -> bytes_ok (i_contents i) ->
  twos_value (i_contents i) = z -> ber_of INTEGER t (num z) i.
Proof.
  intros E A B M N O V. cbn [ber_of INTEGER num]. split; [discriminate|]. split; [first [exact Logic.I|cbn; tauto]|]. rewrite E. cbn [rev within].
  split; auto. split; auto. left. split; auto. split; auto. right. cbn [ber_form]. auto.
Qed.
Lemma ber_bool_at t z i : t_explicit t = [] -> i_class i = t_class t -> i_tag i = t_tag t -> i_method i = 0 -> i_contents i = [z] -> byte_ok z -> z <> 0 ->
  ber_of BOOLEAN t (APrim (NBool true)) i.
Proof.
  intros E A B M N O V. cbn [ber_of BOOLEAN]. split; [discriminate|]. split; [first [exact Logic.I|cbn; tauto]|]. rewrite E. cbn [rev within].
  split; auto. split; auto. left. split; auto. rewrite N. split; [constructor; [exact O|constructor]|]. right. cbn [ber_form]. exists z. tauto.
Qed.
Ltac octets := repeat constructor; unfold byte_ok; lia.

Lemma rec_parts : exists ys, rec_body = concat ys /\
  all3 (fun f na y => fst na = fname f /\
          ((y = [] /\ match fpres f with
                      | Required => False
                      | Optional => snd na = ANone
                      | Default d => exists ad, denotes (snd f) d ad /\ sim (snd f) (snd na) ad
                      end) \/
           one_of (ber_of (snd f) (ftags f) (snd na)) y)) rec_fields
    [(tx "version", APrim (NInt 0)); (tx "flag", ANone); (tx "ids", AList [APrim (NInt 5); APrim (NInt 3)]); (tx "who", who_arg (AList [APrim (NBool true)]))] ys.
Proof.
  exists [[160; 3; 2; 1; 0]; []; [49; 128; 2; 129; 1; 5; 2; 2; 0; 3; 0; 0]; [162; 129; 7; 48; 128; 1; 1; 7; 0; 0]]. split; [reflexivity|].
  cbn [all3 rec_fields fst snd fname f_name fpres f_pres]. split; [|split; [|split; [|split; [|exact Logic.I]]]]; (split; [reflexivity|]).
  - right. one. split; [discriminate|]. split; [first [exact Logic.I|cbn; tauto]|]. cbn [ftags fst snd stags tags_of explicit p_explicit f_params rev t_explicit app k_explicit within].
    split; [reflexivity|]. split; [reflexivity|]. split; [reflexivity|]. exists (mkInfo 0 0 2 [2; 1] [0] []).
    assert (P : parse [2; 1; 0] true = Ok (mkInfo 0 0 2 [2; 1] [0] [])) by (vm_compute; reflexivity). apply parse_strict_iff in P as [P1 P2]; [|octets].
    split; auto. split; auto. split; [reflexivity|]. split; [reflexivity|]. left. split; [reflexivity|]. split; [octets|]. right. cbn [ber_form]. split; [discriminate|reflexivity].
  - left. auto.
  - right. one. cbn [ber_of]. split; [reflexivity|]. split; [reflexivity|]. split; [reflexivity|].
    exists [[2; 129; 1; 5]; [2; 2; 0; 3]], [APrim (NInt 5); APrim (NInt 3)]. split; [reflexivity|]. split; [apply Permutation_refl|].
    cbn [all2]. split; [|split; [|exact Logic.I]]; one; apply ber_int_at; try reflexivity; try discriminate; octets.
  - right. one. cbn [ber_of WHO who_arg]. split; [reflexivity|]. right. left. split; [reflexivity|].
    cbn [ber_of fst snd]. split; [reflexivity|]. split; [reflexivity|]. split; [reflexivity|].
    exists (mkInfo 0 1 16 [48; 128] [1; 1; 7] [0; 0]).
    assert (P : parse [48; 128; 1; 1; 7; 0; 0] true = Ok (mkInfo 0 1 16 [48; 128] [1; 1; 7] [0; 0])) by (vm_compute; reflexivity). apply parse_strict_iff in P as [P1 P2]; [|octets].
    split; auto. split; auto. split; [reflexivity|]. split; [reflexivity|]. split; [reflexivity|]. exists [[1; 1; 7]]. split; [reflexivity|]. cbn [all2]. split; [|exact Logic.I].
    one. eapply (ber_bool_at _ 7); try reflexivity; try discriminate. unfold byte_ok; lia.
Qed.
Lemma rec_ber_encodes : ber_encodes REC (stags REC no_params) rec_value rec_ber.
Proof. unfold ber_encodes. one. cbn [ber_of REC rec_value]. split; [reflexivity|]. split; [reflexivity|]. split; [reflexivity|]. exact rec_parts. Qed.
Lemma rec_long_encodes : ber_encodes REC (stags REC no_params) rec_value rec_long.
Proof. unfold ber_encodes. one. cbn [ber_of REC rec_value]. split; [reflexivity|]. split; [reflexivity|]. split; [reflexivity|]. exact rec_parts. Qed.

(* ---- classes of the counterexamples ---- *)
(* a field whose default is a sequence *)
Definition DEF : spec :=
  SSeq c_seq [(Fld (tx "cfg") no_params (Default (ADict [(tx "n", num 1)])), ONE); (Fld (tx "m") (implicit 0) Required, INTEGER)].
(* a choice under an explicit tag *)
Definition TCH : spec := SChoice [(2, 0)] [(Fld (tx "n") no_params Required, INTEGER); (Fld (tx "o") no_params Required, SPrim KOctets (Cls 0 4 [] []))].
