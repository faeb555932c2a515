(* The class and the value the examples of PropertiesOpen.v are about. *)
Require Import Verif.Base Verif.BaseFacts Verif.IntModel Verif.IntSpec Verif.IntProofs Verif.OidSpec
  Verif.ParserModel Verif.ParserSpec Verif.ParserProofs Verif.ParserFacts Verif.Text Verif.CodecModel Verif.TagSpec Verif.TagProofs
  Verif.PrimModel Verif.PrimSpec Verif.PrimProofs Verif.PrimSet Verif.PrimDump Verif.PrimLoad
  Verif.ContModel Verif.ContSpec Verif.ContBase Verif.ContPath Verif.ContHistSpec Verif.ContEx Verif.OpenModel Verif.OpenSpec.

Definition c_oid : pcls := Cls 0 6 [] [].
Definition kinds : list (text * text) := [(tx "1.2.3", tx "ints"); (tx "1.2.4", tx "number")].
Definition KINDS : spec := SPrim (KOid kinds) c_oid.
(* SEQUENCE { type OBJECT IDENTIFIER, content [0] EXPLICIT ANY DEFINED BY type OPTIONAL } *)
Definition info_fields : list (fld * spec) :=
  [(Fld (tx "type") no_params Required, KINDS); (Fld (tx "content") (explicit 0) Optional, BOOLEAN)].
Definition info_table : list (text * spec) := [(tx "number", INTEGER); (tx "ints", INTS)].
Definition INFO (s : spec) : spec := closed c_seq info_fields 1 s.
Definition some_any : ops := methods BOOLEAN.

Definition ints_arg : list (text * aval) := [(tx "type", APrim (NText (tx "ints"))); (tx "content", AList [num 3; num 5])].
Definition ints_value : aval := ADict ints_arg.
Definition ints_der : bytes := [48; 14; 6; 2; 42; 3; 160; 8; 48; 6; 2; 1; 3; 2; 1; 5].

Lemma info_pair : open_pair info_fields 0 1 kinds.
Proof.
  split; [lia|]. split.
  - exists (Fld (tx "type") no_params Required, KINDS), c_oid. repeat split.
  - eexists. split; [reflexivity|]. right. split; reflexivity.
Qed.
Lemma info_entry : entry_for info_table (tx "ints") INTS.
Proof.
  split; [|right; left; reflexivity]. constructor; [|constructor; [intros []|constructor]]. intros [H|[]]. discriminate H.
Qed.
Lemma wf_ints : wf INTS.
Proof. split; [now apply cls_small|]. split; [exact wf_int|]. split; [apply take_plain; auto; apply params_none|reflexivity]. Qed.
Lemma wf_kinds : wf KINDS.
Proof.
  split; [|now apply cls_small]. split; [|split].
  - constructor; [|constructor; [intros []|constructor]]. intros [H|[]]. discriminate H.
  - constructor; [|constructor; [intros []|constructor]]. intros [H|[]]. discriminate H.
  - intros n H1 H2. destruct H1 as [<-|[<-|[]]]; destruct H2 as [H|[H|[]]]; discriminate H.
Qed.
Lemma wf_info : wf (INFO INTS).
Proof.
  split; [now apply cls_small|]. split; [discriminate|]. split; [|split].
  - constructor; [|constructor; [intros []|constructor]]. intros [H|[]]. discriminate H.
  - cbn [distinct INFO closed info_fields nth_error update fst]. split; [intros N; exfalso; apply N; reflexivity|]. split; [intros _; constructor|exact I].
  - cbn [all1 fst snd f_params fpres f_pres INFO closed info_fields nth_error update]. split; [|split; [|exact I]].
    + split; [exact wf_kinds|]. split; [apply take_plain; auto; apply params_none|exact I].
    + split; [exact wf_ints|]. split; [apply take_plain; auto; now apply params_ex|reflexivity].
Qed.
Lemma take_info : taggable (INFO INTS) no_params.
Proof. apply take_plain; auto. apply params_none. Qed.
Lemma arc_123 : legal_oid [1; 2; 3].
Proof. cbn. split; [lia|]. split; [lia|]. split; [lia|]. repeat constructor; lia. Qed.
Lemma holds_ints : holds (KOid kinds) None (NText (tx "ints")).
Proof. left. exists [1; 2; 3]. split; [exact arc_123|]. left. reflexivity. Qed.
Lemma ints_denotes : denotes (INFO INTS) (ADict ints_arg) ints_value.
Proof.
  split; [discriminate|]. split.
  - intros n x [H|[H|[]]]; injection H as <- <-; cbn; auto.
  - cbn [all2 fst snd fname f_name fpres f_pres INFO closed info_fields nth_error update ints_arg]. split; [|split; [|exact I]]; (split; [reflexivity|]).
    + vm_compute dict_get. cbn [given]. split; auto. split; [reflexivity|]. split; [discriminate|exact holds_ints].
    + vm_compute dict_get. cbn. repeat split; auto; discriminate.
Qed.
Lemma ints_encoded : der (INFO INTS) (stags (INFO INTS) no_params) ints_value ints_der.
Proof.
  assert (Ti : tagging_ok (stags INTEGER no_params)) by (apply tags_c; [now apply cls_small|apply params_none]).
  exists [[6; 2; 42; 3]; [160; 8; 48; 6; 2; 1; 3; 2; 1; 5]]. split.
  { apply constructed_at; [apply tags_c; [now apply cls_small|apply params_none]|reflexivity|short]. }
  cbn [all3 fst snd fname f_name fpres f_pres INFO closed info_fields nth_error update ints_value ints_arg]. split; [|split; [|exact I]]; (split; [reflexivity|]).
  - cbn. split; [exact holds_ints|]. exists [42; 3]. split.
    + exists [1; 2; 3]. split; [exact arc_123|]. split; [|left; left; reflexivity].
      apply (oid_cons 42 [42] [3] [3]); [|apply (oid_cons 3 [3] [] []); [|constructor]].
      * exists [], 42. repeat split; repeat constructor; lia.
      * exists [], 3. repeat split; repeat constructor; lia.
    + apply (object_bytes_der (tags_of c_oid no_params) [42; 3]); [apply tags_c; [now apply cls_small|apply params_none]|small].
  - exists [[2; 1; 3]; [2; 1; 5]]. split.
    { cbn [all2]. split; [|split; [|exact I]]; apply int_at; auto; try lia; try reflexivity; short. }
    apply constructed_at; [apply tags_c; [now apply cls_small|now apply params_ex]|reflexivity|short].
Qed.
