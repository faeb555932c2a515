(* A set and a value the examples of PropertiesSet.v are about. *)
Require Import Verif.Base Verif.BaseFacts Verif.IntSpec Verif.ParserModel Verif.ParserSpec Verif.ParserProofs Verif.ParserFacts Verif.Text
  Verif.TagSpec Verif.PrimModel Verif.PrimSpec
  Verif.ContModel Verif.ContSpec Verif.ContBase Verif.ContPath Verif.ContHistSpec Verif.ContEx Verif.BerSpec Verif.BerEx Verif.SetSpec.
Require Import Sorting.Permutation Sorting.Sorted.

(* SET { size INTEGER, flag [3] IMPLICIT BOOLEAN DEFAULT FALSE, ids [5] IMPLICIT SEQUENCE OF INTEGER, ok BOOLEAN } *)
Definition box_fields : list (fld * spec) :=
  [(Fld (tx "size") no_params Required, INTEGER);
   (Fld (tx "flag") (implicit 3) (Default (APrim (NBool false))), BOOLEAN);
   (Fld (tx "ids") (implicit 5) Required, SSeqOf c_seq INTEGER);
   (Fld (tx "ok") no_params Required, BOOLEAN)].
Definition BOX : spec := SSet c_set box_fields.
Definition BOXQ : spec := SSeq c_set box_fields.
Definition box_arg : aval := ADict [(tx "size", num 5); (tx "ids", AList [num 7]); (tx "ok", APrim (NBool true))].
Definition box_value : aval := ADict [(tx "size", num 5); (tx "flag", APrim (NBool false)); (tx "ids", AList [num 7]); (tx "ok", APrim (NBool true))].
Definition box_der : bytes := [49; 11; 1; 1; 255; 2; 1; 5; 165; 3; 2; 1; 7].
(* of indefinite length, in another order, the default written out *)
Definition box_ber : bytes := [49; 128; 165; 3; 2; 1; 7; 131; 1; 0; 2; 129; 1; 5; 1; 1; 1; 0; 0].

Lemma t_none t : 0 <= t -> tagging_ok (tags_of (Cls 0 t [] []) no_params).
Proof. intros H. apply tags_c; [now apply cls_small|apply params_none]. Qed.
Lemma t_im t n : 0 <= t -> 0 <= n -> tagging_ok (tags_of (Cls 0 t [] []) (implicit n)).
Proof. intros H N. apply tags_c; [now apply cls_small|now apply params_im]. Qed.
Lemma t_ex t n : 0 <= t -> 0 <= n -> tagging_ok (tags_of (Cls 0 t [] []) (explicit n)).
Proof. intros H N. apply tags_c; [now apply cls_small|now apply params_ex]. Qed.

Lemma flag_default : der BOOLEAN (tags_of c_bool (implicit 3)) (APrim (NBool false)) [131; 1; 0].
Proof. apply bool_at; [now apply t_im|reflexivity|short]. Qed.
Lemma false_given : denotes BOOLEAN (APrim (NBool false)) (APrim (NBool false)).
Proof. cbn. split; auto. split; [discriminate|tauto]. Qed.
Lemma wf_ints : wf (SSeqOf c_seq INTEGER).
Proof. split; [now apply cls_small|]. split; [exact wf_int|]. split; [apply take_plain; auto; apply params_none|reflexivity]. Qed.
Ltac sets := intros x A B; vm_compute in A, B; repeat destruct A as [A|A]; repeat destruct B as [B|B]; subst; try discriminate; auto.

Lemma wf_box : wf BOXQ.
Proof.
  split; [now apply cls_small|]. split; [discriminate|]. split; [|split].
  - repeat constructor; cbn; intros H; repeat destruct H as [H|H]; try discriminate; auto.
  - cbn [distinct box_fields]. split; [|split; [|split; [|split]]]; auto; intros N; try (exfalso; apply N; reflexivity).
    repeat constructor; sets.
  - cbn [all1 box_fields fst snd f_params fpres f_pres]. split; [|split; [|split; [|split; [|exact Logic.I]]]].
    + split; [exact wf_int|]. split; [apply take_plain; auto; apply params_none|exact Logic.I].
    + split; [exact wf_bool|]. split; [apply take_plain; auto; now apply params_im|]. split; [reflexivity|]. split; [exact Logic.I|].
      exists (APrim (NBool false)), [131; 1; 0]. split; [exact false_given|]. split; [exact flag_default|small].
    + split; [exact wf_ints|]. split; [apply take_plain; auto; now apply params_im|exact Logic.I].
    + split; [exact wf_bool|]. split; [apply take_plain; auto; apply params_none|exact Logic.I].
Qed.
Lemma box_plain : plain_members box_fields.
Proof. repeat constructor. Qed.
Ltac orders := intros f g Hf Hg; vm_compute in Hf, Hg; repeat destruct Hf as [<-|Hf]; try contradiction; repeat destruct Hg as [<-|Hg]; try contradiction;
  vm_compute; intros H; try (exfalso; apply H; reflexivity); try (left; reflexivity); (right; split; [reflexivity|discriminate]).
Lemma box_orderly : orderly box_fields.
Proof. orders. Qed.
Ltac apart_now := unfold apart; vm_compute; repeat constructor; cbn; intros H; repeat destruct H as [H|H]; try discriminate; auto.
Lemma box_apart : apart box_fields.
Proof. apart_now. Qed.
Lemma take_box : taggable BOXQ no_params.
Proof. apply take_plain; auto. apply params_none. Qed.
Lemma box_given : denotes BOXQ box_arg box_value.
Proof.
  split; [discriminate|]. split.
  - intros n x H. cbn in H. destruct H as [H|[H|[H|[]]]]; injection H as <- <-; cbn; auto.
  - cbn [all2 box_fields fst snd fname f_name fpres f_pres]. split; [|split; [|split; [|split; [|exact Logic.I]]]]; (split; [reflexivity|]).
    + cbn. split; auto. split; auto. split; [discriminate|tauto].
    + exact false_given.
    + cbn. repeat split; try discriminate; tauto.
    + cbn. split; auto. split; auto. split; [discriminate|tauto].
Qed.
Lemma box_full : full box_value.
Proof. repeat constructor; discriminate. Qed.

Lemma box_encoded : der_set box_fields (tags_of c_set no_params) box_value box_der.
Proof.
  exists [[2; 1; 5]; []; [165; 3; 2; 1; 7]; [1; 1; 255]], [((0, 1), [1; 1; 255]); ((0, 2), [2; 1; 5]); ((2, 5), [165; 3; 2; 1; 7])]. split; [|split; [|split]].
  - cbn [all3 box_fields]. unfold member_der. cbn [fst snd fname f_name fpres f_pres].
    split; [|split; [|split; [|split; [|exact Logic.I]]]]; (split; [reflexivity|]).
    + apply int_at; [now apply t_none|lia|reflexivity|short].
    + exists [131; 1; 0]. split; [exact flag_default|]. left. split; auto. exists (APrim (NBool false)). split; [exact false_given|exact flag_default].
    + exists [[2; 1; 7]]. split; [|apply constructed_at; [now apply t_im|reflexivity|short]].
      cbn [all2]. split; [|exact Logic.I]. apply int_at; [now apply t_none|lia|reflexivity|short].
    + apply bool_at; [now apply t_none|reflexivity|short].
  - vm_compute. eapply Permutation_trans; [|apply perm_skip; apply Permutation_refl]. apply Permutation_sym. apply (Permutation_cons_app [_; _] []). rewrite app_nil_r. apply Permutation_refl.
  - repeat constructor; cbn; lia.
  - apply constructed_at; [now apply t_none|reflexivity|short].
Qed.

Lemma box_ber_encoded : ber_set box_fields (tags_of c_set no_params) box_value box_ber.
Proof.
  cbn [ber_set box_value]. one. cbn [rev within t_explicit tags_of c_set no_params p_explicit p_implicit k_explicit app].
  split; [reflexivity|]. split; [reflexivity|]. split; [reflexivity|].
  exists [[2; 129; 1; 5]; [131; 1; 0]; [165; 3; 2; 1; 7]; [1; 1; 1]], [[165; 3; 2; 1; 7]; [131; 1; 0]; [2; 129; 1; 5]; [1; 1; 1]]. split; [|split].
  - cbn [all3 box_fields]. unfold member_ber. cbn [fst snd fname f_name fpres f_pres].
    split; [|split; [|split; [|split; [|exact Logic.I]]]]; (split; [reflexivity|]); right.
    + unfold ber_encodes. one. apply ber_int_at; try reflexivity; try discriminate; octets.
    + unfold ber_encodes. one. cbn [ber_of BOOLEAN]. split; [discriminate|]. split; [first [exact Logic.I|cbn; tauto]|]. cbn [within rev t_explicit ftags stags snd tags_of].
      split; [reflexivity|]. split; [reflexivity|]. left. split; [reflexivity|]. split; [octets|]. right. exists 0. split; [reflexivity|]. split; [discriminate|intros H; now contradiction H].
    + unfold ber_encodes. one. cbn [ber_of]. split; [reflexivity|]. split; [reflexivity|]. split; [reflexivity|]. exists [[2; 1; 7]]. split; [reflexivity|].
      cbn [all2]. split; [|exact Logic.I]. one. apply ber_int_at; try reflexivity; try discriminate; octets.
    + unfold ber_encodes. one. eapply (ber_bool_at _ 1); try reflexivity; try discriminate. unfold byte_ok; lia.
  - cbn [filter some_octets]. apply Permutation_sym. eapply Permutation_trans; [apply perm_skip, perm_swap|]. eapply Permutation_trans; [apply perm_swap|]. apply perm_skip. apply perm_swap.
  - reflexivity.
Qed.

(* ---- sets whose members the library does not put in order ---- *)
(* SET { a INTEGER, b [0] IMPLICIT INTEGER }: a comes first, being of the universal class *)
Definition pair_fields : list (fld * spec) := [(Fld (tx "a") no_params Required, INTEGER); (Fld (tx "b") (implicit 0) Required, INTEGER)].
Definition pair_value : aval := ADict [(tx "a", num 5); (tx "b", num 7)].
Definition pair_der : bytes := [49; 6; 2; 1; 5; 128; 1; 7].
(* SET { a [1] EXPLICIT BOOLEAN, b [0] EXPLICIT INTEGER }: b comes first *)
Definition outer_fields : list (fld * spec) := [(Fld (tx "a") (explicit 1) Required, BOOLEAN); (Fld (tx "b") (explicit 0) Required, INTEGER)].
Definition outer_value : aval := ADict [(tx "a", APrim (NBool true)); (tx "b", num 7)].
Definition outer_der : bytes := [49; 10; 160; 3; 2; 1; 7; 161; 3; 1; 1; 255].

Lemma wf_pair : wf (SSeq c_set pair_fields).
Proof.
  split; [now apply cls_small|]. split; [discriminate|]. split; [|split].
  - repeat constructor; cbn; intros H; repeat destruct H as [H|H]; try discriminate; auto.
  - cbn [distinct pair_fields]. split; [|split]; auto; intros N; exfalso; apply N; reflexivity.
  - cbn [all1 pair_fields fst snd f_params fpres f_pres]. split; [|split; [|exact Logic.I]].
    + split; [exact wf_int|]. split; [apply take_plain; auto; apply params_none|exact Logic.I].
    + split; [exact wf_int|]. split; [apply take_plain; auto; now apply params_im|exact Logic.I].
Qed.
Lemma wf_outer : wf (SSeq c_set outer_fields).
Proof.
  split; [now apply cls_small|]. split; [discriminate|]. split; [|split].
  - repeat constructor; cbn; intros H; repeat destruct H as [H|H]; try discriminate; auto.
  - cbn [distinct outer_fields]. split; [|split]; auto; intros N; exfalso; apply N; reflexivity.
  - cbn [all1 outer_fields fst snd f_params fpres f_pres]. split; [|split; [|exact Logic.I]].
    + split; [exact wf_bool|]. split; [apply take_plain; auto; now apply params_ex|exact Logic.I].
    + split; [exact wf_int|]. split; [apply take_plain; auto; now apply params_ex|exact Logic.I].
Qed.
Lemma pair_given : denotes (SSeq c_set pair_fields) pair_value pair_value.
Proof.
  split; [discriminate|]. split.
  - intros n x H. cbn in H. destruct H as [H|[H|[]]]; injection H as <- <-; cbn; auto.
  - cbn [all2 pair_fields fst snd fname f_name fpres f_pres]. split; [|split; [|exact Logic.I]]; (split; [reflexivity|]); cbn; split; auto; split; auto; split; try discriminate; tauto.
Qed.
Lemma outer_given : denotes (SSeq c_set outer_fields) outer_value outer_value.
Proof.
  split; [discriminate|]. split.
  - intros n x H. cbn in H. destruct H as [H|[H|[]]]; injection H as <- <-; cbn; auto.
  - cbn [all2 outer_fields fst snd fname f_name fpres f_pres]. split; [|split; [|exact Logic.I]]; (split; [reflexivity|]); cbn; split; auto; split; auto; split; try discriminate; tauto.
Qed.
Lemma pair_encoded : der_set pair_fields (tags_of c_set no_params) pair_value pair_der.
Proof.
  exists [[2; 1; 5]; [128; 1; 7]], [((0, 2), [2; 1; 5]); ((2, 0), [128; 1; 7])]. split; [|split; [|split]].
  - cbn [all3 pair_fields]. unfold member_der. cbn [fst snd fname f_name fpres f_pres].
    split; [|split; [|exact Logic.I]]; (split; [reflexivity|]).
    + apply int_at; [now apply t_none|lia|reflexivity|short].
    + apply int_at; [now apply t_im|lia|reflexivity|short].
  - apply Permutation_refl.
  - repeat constructor; cbn; lia.
  - apply constructed_at; [now apply t_none|reflexivity|short].
Qed.
Lemma outer_encoded : der_set outer_fields (tags_of c_set no_params) outer_value outer_der.
Proof.
  exists [[161; 3; 1; 1; 255]; [160; 3; 2; 1; 7]], [((2, 0), [160; 3; 2; 1; 7]); ((2, 1), [161; 3; 1; 1; 255])]. split; [|split; [|split]].
  - cbn [all3 outer_fields]. unfold member_der. cbn [fst snd fname f_name fpres f_pres].
    split; [|split; [|exact Logic.I]]; (split; [reflexivity|]).
    + apply bool_at; [now apply t_ex|reflexivity|short].
    + apply int_at; [now apply t_ex|lia|reflexivity|short].
  - apply perm_swap.
  - repeat constructor; cbn; lia.
  - apply constructed_at; [now apply t_none|reflexivity|short].
Qed.

(* ---- a set with 128 contents octets ---- *)
Definition long_fields : list (fld * spec) := [(Fld (tx "ids") (implicit 0) Required, SSeqOf c_seq INTEGER)].
Definition long_value : aval := ADict [(tx "ids", AList (map num (repeat 1 42)))].
Definition long_der : bytes := [49; 129; 128; 160; 126] ++ ints_contents (repeat 1 42).
Lemma wf_long : wf (SSeq c_set long_fields).
Proof.
  split; [now apply cls_small|]. split; [discriminate|]. split; [|split].
  - repeat constructor; cbn; auto.
  - cbn [distinct long_fields]. split; auto. intros N; exfalso; apply N; reflexivity.
  - cbn [all1 long_fields fst snd f_params fpres f_pres]. split; [|exact Logic.I].
    split; [exact wf_ints|]. split; [apply take_plain; auto; now apply params_im|exact Logic.I].
Qed.
Lemma long_encoded : der_set long_fields (tags_of c_set no_params) long_value long_der.
Proof.
  exists [160 :: 126 :: ints_contents (repeat 1 42)], [((2, 0), 160 :: 126 :: ints_contents (repeat 1 42))]. split; [|split; [|split]].
  - cbn [all3 long_fields]. unfold member_der. cbn [fst snd fname f_name fpres f_pres].
    split; [|exact Logic.I]. split; [reflexivity|]. destruct (ints_ders (repeat 1 42)) as (ds & A & C).
    { apply Forall_forall. intros z Z. apply repeat_spec in Z. lia. }
    exists ds. split; [exact A|]. rewrite C. apply constructed_at; [now apply t_im|reflexivity|short].
  - apply Permutation_refl.
  - repeat constructor.
  - apply constructed_at; [now apply t_none|reflexivity|short].
Qed.
