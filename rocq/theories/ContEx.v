(* A schema and a value the examples of PropertiesCont.v are about. *)
Require Import Verif.Base Verif.BaseFacts Verif.IntModel Verif.IntSpec Verif.IntProofs
  Verif.ParserModel Verif.ParserSpec Verif.ParserProofs Verif.ParserFacts Verif.Text Verif.CodecModel Verif.TagSpec Verif.TagProofs
  Verif.PrimModel Verif.PrimSpec Verif.PrimProofs Verif.PrimSet Verif.PrimDump Verif.PrimLoad
  Verif.ContModel Verif.ContSpec Verif.ContBase Verif.ContPath Verif.ContHistSpec.
Require Import Sorting.Permutation Sorting.Sorted.

Definition c_bool : pcls := Cls 0 1 [] [].
Definition c_int : pcls := Cls 0 2 [] [].
Definition c_seq : pcls := Cls 0 16 [] [].
Definition c_set : pcls := Cls 0 17 [] [].
Definition explicit (n : Z) : params := Params [(2, n)] None false.
Definition implicit (n : Z) : params := Params [] (Some (2, n)) false.
Definition INTEGER : spec := SPrim (KInt []) c_int.
Definition BOOLEAN : spec := SPrim KBool c_bool.
(* CHOICE { num [1] IMPLICIT INTEGER, bools [2] EXPLICIT SEQUENCE OF BOOLEAN } *)
Definition who_alts : list (fld * spec) :=
  [(Fld (tx "num") (implicit 1) Required, INTEGER); (Fld (tx "bools") (explicit 2) Required, SSeqOf c_seq BOOLEAN)].
Definition WHO : spec := SChoice [] who_alts.
(* SEQUENCE { version [0] EXPLICIT INTEGER DEFAULT 0, flag BOOLEAN OPTIONAL, ids SET OF INTEGER, who WHO } *)
Definition rec_fields : list (fld * spec) :=
  [(Fld (tx "version") (explicit 0) (Default (APrim (NInt 0))), INTEGER);
   (Fld (tx "flag") no_params Optional, BOOLEAN);
   (Fld (tx "ids") no_params Required, SSetOf c_set INTEGER);
   (Fld (tx "who") no_params Required, WHO)].
Definition REC : spec := SSeq c_seq rec_fields.

Definition who_arg (b : aval) : aval := AChoice (tx "bools") b.
Definition rec_arg : aval := ADict [(tx "ids", AList [APrim (NInt 5); APrim (NInt 3)]); (tx "who", who_arg (AList [APrim (NBool true)]))].
Definition rec_value : aval :=
  ADict [(tx "version", APrim (NInt 0)); (tx "flag", ANone); (tx "ids", AList [APrim (NInt 5); APrim (NInt 3)]); (tx "who", who_arg (AList [APrim (NBool true)]))].
Definition rec_der : bytes := [48; 15; 49; 6; 2; 1; 3; 2; 1; 5; 162; 5; 48; 3; 1; 1; 255].


Lemma int_der (t : tagging) (z : Z) (x : bytes) : tagging_ok t -> der_int z x -> len (object_bytes t x) < 2 ^ 1008 -> der INTEGER t (APrim (NInt z)) (object_bytes t x).
Proof. intros T D L. cbn. split; [tauto|]. exists x. split; auto. now apply object_bytes_der. Qed.
Lemma bool_der (t : tagging) (b : bool) (x : bytes) : tagging_ok t -> x = [if b then 255 else 0] -> len (object_bytes t x) < 2 ^ 1008 -> der BOOLEAN t (APrim (NBool b)) (object_bytes t x).
Proof. intros T D L. cbn. split; [tauto|]. exists x. split; auto. now apply object_bytes_der. Qed.

Lemma small_len (d : bytes) : len d <= 1000 -> len d < 2 ^ 1008.
Proof. intros H. assert (1000 < 2 ^ 1008) by reflexivity. lia. Qed.
Ltac small := apply small_len; vm_compute; discriminate.
Ltac tags := repeat split; vm_compute; try discriminate; repeat constructor; vm_compute; try discriminate; try reflexivity; auto.


Lemma tags_c c p : cls_ok c -> params_ok p -> tagging_ok (tags_of c p).
Proof.
  intros (A & B & C) (_ & D & _ & E). unfold tags_of, tagging_ok, tags_valid in *. destruct (p_explicit p) as [|x r].
  - destruct (p_implicit p) as [[cl tg]|]; cbn; [tauto|]. rewrite app_nil_r. auto.
  - cbn. split; auto. split; auto. apply Forall_app. auto.
Qed.
Lemma cls_small t : 0 <= t -> cls_ok (Cls 0 t [] []).
Proof. intros H. split; [cbn; lia|]. split; [exact H|constructor]. Qed.
Lemma params_none : params_ok no_params.
Proof. split; [reflexivity|]. split; [constructor|]. split; [cbn; lia|exact I]. Qed.
Lemma params_ex n : 0 <= n -> params_ok (explicit n).
Proof. intros H. split; [reflexivity|]. split; [constructor; [cbn; lia|constructor]|]. split; [cbn; lia|exact I]. Qed.
Lemma params_im n : 0 <= n -> params_ok (implicit n).
Proof. intros H. split; [reflexivity|]. split; [constructor|]. split; [cbn; lia|]. cbn. split; [lia|auto]. Qed.
Lemma int_octet z : 0 <= z < 128 -> der_int z [z].
Proof.
  intros H. split; [constructor; [unfold byte_ok; lia|constructor]|]. split; [discriminate|]. split; [|exact I].
  unfold twos_value. destruct (z <? 128) eqn:E; [|apply Z.ltb_ge in E; lia]. change (z * 1 + 0 = z). lia.
Qed.

Lemma take_plain s p : params_ok p -> is_choice s = false -> class_explicit s = [] -> taggable s p.
Proof. intros H N C. split; auto. split; auto. rewrite N. discriminate. Qed.


Lemma int_at (t : tagging) (z : Z) (d : bytes) : tagging_ok t -> 0 <= z < 128 -> object_bytes t [z] = d -> len d <= 1000 -> der INTEGER t (APrim (NInt z)) d.
Proof. intros T H <- L. apply int_der; auto; [now apply int_octet|now apply small_len]. Qed.
Lemma bool_at (t : tagging) (b : bool) (d : bytes) : tagging_ok t -> object_bytes t [if b then 255 else 0] = d -> len d <= 1000 -> der BOOLEAN t (APrim (NBool b)) d.
Proof. intros T <- L. apply bool_der; auto. now apply small_len. Qed.
Lemma constructed_at (t : tagging) (x d : bytes) : tagging_ok t -> cbytes t x = d -> len d <= 1000 -> der_constructed t x d.
Proof. intros T <- L. apply bytes_der_constructed; auto. now apply small_len. Qed.
Ltac short := vm_compute; discriminate.

Lemma wf_int : wf INTEGER.
Proof. split; [split; constructor|now apply cls_small]. Qed.
Lemma wf_bool : wf BOOLEAN.
Proof. split; [exact I|now apply cls_small]. Qed.
Lemma wf_who : wf WHO.
Proof.
  split; [constructor|]. split; [|split].
  - repeat constructor; cbn; intros H; repeat destruct H as [H|H]; try discriminate; auto.
  - repeat constructor; cbn; intros H; repeat destruct H as [H|H]; try discriminate; auto.
  - cbn [all1 who_alts fst snd f_params]. split; [|split; [|exact I]].
    + split; [exact wf_int|]. split; [apply take_plain; auto; now apply params_im|]. auto.
    + split; [|split; [apply take_plain; auto; now apply params_ex|auto]].
      split; [now apply cls_small|]. split; [exact wf_bool|]. split; [apply take_plain; auto; apply params_none|reflexivity].
Qed.
Lemma wf_rec : wf REC.
Proof.
  split; [now apply cls_small|]. split; [discriminate|]. split; [|split].
  - repeat constructor; cbn; intros H; repeat destruct H as [H|H]; try discriminate; auto.
  - cbn [distinct rec_fields]. split; [|split; [|split; [|split]]]; auto; intros N; try (exfalso; apply N; reflexivity).
    + repeat constructor; intros x A B; vm_compute in A, B; repeat destruct A as [A|A]; repeat destruct B as [B|B]; subst; try discriminate; auto.
    + repeat constructor; intros x A B; vm_compute in A, B; repeat destruct A as [A|A]; repeat destruct B as [B|B]; subst; try discriminate; auto.
  - cbn [all1 rec_fields fst snd f_params fpres f_pres]. split; [|split; [|split; [|split; [|exact I]]]].
    + split; [exact wf_int|]. split; [apply take_plain; auto; now apply params_ex|]. split; [reflexivity|]. split; [exact I|].
      exists (APrim (NInt 0)), [160; 3; 2; 1; 0]. split; [cbn; split; auto; split; [discriminate|tauto]|]. split; [|small].
      apply int_at; try lia; [apply tags_c; [now apply cls_small|now apply params_ex]|reflexivity|short].
    + split; [exact wf_bool|]. split; [apply take_plain; auto; apply params_none|reflexivity].
    + split; [split; [now apply cls_small|]; split; [exact wf_int|]; split; [apply take_plain; auto; apply params_none|reflexivity]|].
      split; [apply take_plain; auto; apply params_none|exact I].
    + split; [exact wf_who|]. split; [|exact I]. split; [apply params_none|]. split; [left; reflexivity|]. cbn. lia.
Qed.
Lemma take_rec : taggable REC no_params.
Proof. apply take_plain; auto. apply params_none. Qed.

Lemma rec_denotes : denotes REC rec_arg rec_value.
Proof.
  split; [discriminate|]. split.
  - intros n x H. cbn in H. destruct H as [H|[H|[]]]; injection H as <- <-; cbn; auto.
  - cbn [all2 rec_fields fst snd fname f_name fpres f_pres]. split; [|split; [|split; [|split; [|exact I]]]]; (split; [reflexivity|]).
    + cbn. split; auto. split; [discriminate|tauto].
    + reflexivity.
    + cbn. repeat split; try discriminate; tauto.
    + cbn [given dict_get eqb_text]. vm_compute dict_get. cbn. split; auto. split; auto. right. left. repeat split; discriminate.
Qed.

Lemma rec_encoded : der REC (stags REC no_params) rec_value rec_der.
Proof.
  assert (Ti : tagging_ok (stags INTEGER no_params)) by (apply tags_c; [now apply cls_small|apply params_none]).
  exists [[]; []; [49; 6; 2; 1; 3; 2; 1; 5]; [162; 5; 48; 3; 1; 1; 255]]. split.
  { apply constructed_at; [apply tags_c; [now apply cls_small|apply params_none]|reflexivity|short]. }
  cbn [all3 rec_fields fst snd fname f_name fpres f_pres]. split; [|split; [|split; [|split; [|exact I]]]]; (split; [reflexivity|]).
  - assert (D : der INTEGER (ftags (Fld (tx "version") (explicit 0) (Default (APrim (NInt 0))), INTEGER)) (APrim (NInt 0)) [160; 3; 2; 1; 0]).
    { apply int_at; try lia; [apply tags_c; [now apply cls_small|now apply params_ex]|reflexivity|short]. }
    exists [160; 3; 2; 1; 0]. split; [exact D|]. left. split; auto. exists (APrim (NInt 0)). split; [|exact D]. cbn. split; auto. split; [discriminate|tauto].
  - reflexivity.
  - exists [[2; 1; 5]; [2; 1; 3]], [[2; 1; 3]; [2; 1; 5]]. split.
    { cbn [all2]. split; [|split; [|exact I]]; apply int_at; auto; try lia; try reflexivity; short. }
    split; [apply perm_swap|]. split.
    { repeat constructor; cbn; lia. }
    apply constructed_at; [apply tags_c; [now apply cls_small|apply params_none]|reflexivity|short].
  - exists [162; 5; 48; 3; 1; 1; 255]. split; [reflexivity|]. right. left. split; [reflexivity|].
    exists [[1; 1; 255]]. split.
    { cbn [all2]. split; [|exact I]. apply bool_at; [apply tags_c; [now apply cls_small|apply params_none]|reflexivity|short]. }
    apply constructed_at; [apply tags_c; [now apply cls_small|now apply params_ex]|reflexivity|short].
Qed.

(* ---- schemas of the counterexamples ---- *)
Definition num (z : Z) : aval := APrim (NInt z).
Definition INTS : spec := SSeqOf c_seq INTEGER.
Definition ONE : spec := SSeq c_seq [(Fld (tx "n") no_params Required, INTEGER)].
Definition BOX : spec := SSeq c_seq [(Fld (tx "a") no_params Required, INTS)].
Definition OPT : spec := SSeq c_seq [(Fld (tx "n") no_params Optional, INTEGER)].
(* a sequence as the default of a field *)
Definition CFG : spec := SSeq c_seq [(Fld (tx "a") (implicit 0) Optional, INTEGER); (Fld (tx "b") (implicit 1) Optional, INTEGER)].
Definition HAS : spec := SSeq c_seq [(Fld (tx "cfg") no_params (Default (ADict [(tx "a", num 1)])), CFG)].
Definition ENUM : spec := SPrim (KEnum (Some [(0, tx "x")])) (Cls 0 10 [] []).
Definition TWO : spec := SSeq c_seq [(Fld (tx "n") no_params Required, INTEGER); (Fld (tx "e") no_params Required, ENUM)].
Definition CH : spec := SChoice [] [(Fld (tx "l") no_params Required, INTS)].
(* a choice with an explicit tag of its own, and a field that adds another *)
Definition CH1 : spec := SChoice [(2, 1)] [(Fld (tx "l") no_params Required, INTS)].
Definition FCH1 : spec := SSeq c_seq [(Fld (tx "c") (explicit 4) Required, CH1)].
Definition ST : spec := SSet c_set [(Fld (tx "a") (implicit 0) Required, INTEGER); (Fld (tx "b") (implicit 1) Optional, INTEGER)].

(* the result of a last operation *)
Definition lastly (s : spec) (h : list deed) (p : list nat) (x : act) (v : res value) : res answer :=
  match v with Ok v => snd (through p x s (after s h v)) | Err e => Err e end.

Lemma tags_seq : tagging_ok (tags_of c_seq no_params).
Proof. apply tags_c; [now apply cls_small|apply params_none]. Qed.
Lemma tags_int : tagging_ok (stags INTEGER no_params).
Proof. apply tags_c; [now apply cls_small|apply params_none]. Qed.
Lemma take_none s : is_choice s = false -> class_explicit s = [] -> taggable s no_params.
Proof. intros. apply take_plain; auto. apply params_none. Qed.
Lemma wf_ints : wf INTS.
Proof. split; [now apply cls_small|]. split; [exact wf_int|]. split; [now apply take_none|reflexivity]. Qed.
Lemma wf_one_field (n : text) s : wf s -> taggable s no_params -> wf (SSeq c_seq [(Fld n no_params Required, s)]).
Proof.
  intros W T. split; [now apply cls_small|]. split; [discriminate|]. split; [repeat constructor; auto|]. split.
  - split; [|exact I]. intros N. exfalso. now apply N.
  - split; [|exact I]. split; [exact W|]. split; [exact T|exact I].
Qed.
Lemma wf_box : wf BOX.
Proof. apply wf_one_field; [exact wf_ints|now apply take_none]. Qed.
Lemma wf_one : wf ONE.
Proof. apply wf_one_field; [exact wf_int|now apply take_none]. Qed.
Lemma wf_ch1 : wf CH1.
Proof.
  split; [repeat constructor; cbn; lia|]. split; [repeat constructor; auto|]. split; [repeat constructor; auto|]. split; [|exact I].
  split; [exact wf_ints|]. split; [now apply take_none|]. split; reflexivity.
Qed.

Fixpoint ints_contents (l : list Z) : bytes := match l with [] => [] | z :: r => [2; 1; z] ++ ints_contents r end.
Lemma ints_ders l : Forall (fun z => 0 <= z < 128) l ->
  exists ds, all2 (der INTEGER (stags INTEGER no_params)) (map num l) ds /\ concat ds = ints_contents l.
Proof.
  induction 1 as [|z l H _ (ds & A & E)]; [exists []; cbn; auto|]. exists ([2; 1; z] :: ds). split.
  - cbn [map all2]. split; [|exact A]. apply int_at; [apply tags_int|exact H|reflexivity|vm_compute; discriminate].
  - cbn. now rewrite E.
Qed.
Lemma ints_at l d : Forall (fun z => 0 <= z < 128) l -> cbytes (tags_of c_seq no_params) (ints_contents l) = d -> len d <= 1000 ->
  der INTS (tags_of c_seq no_params) (AList (map num l)) d.
Proof.
  intros H E L. destruct (ints_ders l H) as (ds & A & C). exists ds. split; [exact A|]. rewrite C. apply constructed_at; auto. apply tags_seq.
Qed.
Lemma one_field_at (n : text) s a y d : a <> ANone -> der s (stags s no_params) a y -> cbytes (tags_of c_seq no_params) y = d -> len d <= 1000 ->
  der (SSeq c_seq [(Fld n no_params Required, s)]) (tags_of c_seq no_params) (ADict [(n, a)]) d.
Proof.
  intros N D E L. exists [y]. split.
  - cbn [concat]. rewrite app_nil_r. apply constructed_at; auto. apply tags_seq.
  - cbn [all3]. split; [|exact I]. split; [reflexivity|]. cbn. destruct a; auto.
Qed.
Lemma int_accepted z : 0 <= z < 128 -> accepted INTEGER true (num z) (num z).
Proof.
  intros H. assert (Hh : holds (KInt []) None (NInt z)) by (cbn; tauto). exists (num z). split; [|split].
  - cbn. split; auto. split; auto. split; [discriminate|tauto].
  - exists (stags INTEGER no_params), [2; 1; z]. split; [apply tags_int|]. apply int_at; [apply tags_int|exact H|reflexivity|vm_compute; discriminate].
  - cbn. split; [tauto|]. split; [tauto|reflexivity].
Qed.
Lemma wrapped_at w d : wrap [(2, 1)] [] w ++ w = d -> len d <= 1000 -> der_wrapped [(2, 1)] w d.
Proof.
  intros <- L. apply (wrap_wrapped [(2, 1)] [] w); [repeat constructor; cbn; lia|now apply small_len].
Qed.
