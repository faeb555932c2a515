Require Import Verif.Base Verif.BaseFacts Verif.Text Verif.TeletexTable Verif.CodecModel Verif.CodecSpec.

Lemma surrogate_spec c : surrogate c = true <-> 55296 <= c <= 57343.
Proof. unfold surrogate. lia. Qed.

Lemma consr_ok c x r : consr c x = Ok r <-> exists t, x = Ok t /\ r = c :: t.
Proof.
  unfold consr. split.
  - intros H. apply bind_ok in H as (t & H1 & H2). injection H2 as <-. eauto.
  - intros (t & -> & ->). reflexivity.
Qed.

(* ---- encoding succeeds exactly on representable text ---- *)
Lemma table_last_some t c : forall i f, c <> 65534 ->
  (exists b, table_last t i c f = Some b /\ (nth_error t (Z.to_nat (b - i)) = Some c /\ i <= b \/ f = Some b))
  \/ (table_last t i c f = None /\ ~ In c t /\ f = None).
Proof.
  induction t as [|x t IH]; intros i f Hc; cbn [table_last].
  - destruct f as [b|]; [left; exists b; auto|right; auto].
  - destruct (Z.eqb_spec x c) as [->|N]; cbn [andb].
    + destruct (Z.eqb_spec c 65534); [lia|]. cbn [negb].
      destruct (IH (i + 1) (Some i) Hc) as [(b & E & H)|(E & H & F)]; [|discriminate].
      left. exists b. split; auto. left. destruct H as [[H1 H2]|H].
      * split; [|lia]. replace (Z.to_nat (b - i)) with (S (Z.to_nat (b - (i + 1)))) by lia. exact H1.
      * injection H as ->. rewrite Z.sub_diag. cbn. split; [auto|lia].
    + destruct (IH (i + 1) f Hc) as [(b & E & H)|(E & H & F)].
      * left. exists b. split; auto. destruct H as [[H1 H2]|H]; auto. left. split; [|lia].
        replace (Z.to_nat (b - i)) with (S (Z.to_nat (b - (i + 1)))) by lia. exact H1.
      * right. repeat split; auto. intros [|]; auto.
Qed.

Lemma teletex_char_spec c : c <> 65534 -> In c teletex_table ->
  exists b, teletex_char c = Ok [b] /\ 0 <= b < 256 /\ nth (Z.to_nat b) teletex_table 65534 = c.
Proof.
  intros Hc Hi. unfold teletex_char.
  destruct (table_last_some teletex_table c 0 None Hc) as [(b & E & H)|(E & H & _)]; [|easy].
  rewrite E. exists b. destruct H as [[H1 H2]|H]; [|discriminate]. rewrite Z.sub_0_r in H1.
  split; auto. split.
  - assert (Z.to_nat b < length teletex_table)%nat by (apply nth_error_Some; congruence).
    change (length teletex_table) with 256%nat in H. lia.
  - now apply nth_error_nth.
Qed.

Lemma table_last_fffe t : forall i f, table_last t i 65534 f = f.
Proof.
  induction t as [|x t IH]; intros i f; cbn [table_last]; auto. rewrite IH.
  destruct (Z.eqb_spec x 65534); cbn; auto.
Qed.

Lemma encode_char_ok e c : 0 <= c <= 1114111 ->
  (representable e c -> exists b, encode_char e c = Ok b /\ bytes_ok b) /\
  (~ representable e c -> encode_char e c = Err UnicodeError).
Proof.
  intros Hc. destruct e; cbn [representable encode_char].
  - unfold latin1_char. destruct (Z.ltb_spec c 256); split; try lia; auto. intros _.
    eexists; split; [reflexivity|]. repeat constructor; unfold byte_ok; lia.
  - unfold ascii_char. destruct (Z.ltb_spec c 128); split; try lia; auto. intros _.
    eexists; split; [reflexivity|]. repeat constructor; unfold byte_ok; lia.
  - unfold utf8_char, surrogate. split; intros H.
    + replace ((55296 <=? c) && (c <=? 57343)) with false by lia.
      destruct (Z.ltb_spec c 128); [eexists; split; [reflexivity|]; repeat constructor; unfold byte_ok; lia|].
      destruct (Z.ltb_spec c 2048); [eexists; split; [reflexivity|]; repeat constructor; unfold byte_ok; lia|].
      destruct (Z.ltb_spec c 65536); (eexists; split; [reflexivity|]; repeat constructor; unfold byte_ok; lia).
    + assert (55296 <= c <= 57343) by lia. destruct (Z.ltb_spec c 128); [lia|]. destruct (Z.ltb_spec c 2048); [lia|].
      replace ((55296 <=? c) && (c <=? 57343)) with true by lia. reflexivity.
  - unfold utf16_char, surrogate. split; intros H.
    + replace ((55296 <=? c) && (c <=? 57343)) with false by lia.
      destruct (Z.ltb_spec c 65536); cbn zeta; (eexists; split; [reflexivity|]; repeat constructor; unfold byte_ok; lia).
    + replace ((55296 <=? c) && (c <=? 57343)) with true by lia. reflexivity.
  - unfold utf32_char, surrogate. split; intros H.
    + replace ((55296 <=? c) && (c <=? 57343)) with false by lia.
      (eexists; split; [reflexivity|]; repeat constructor; unfold byte_ok; lia).
    + replace ((55296 <=? c) && (c <=? 57343)) with true by lia. reflexivity.
  - split.
    + intros (N & Hi). destruct (teletex_char_spec c N Hi) as (b & E & Hb & _). exists [b]. split; auto.
      repeat constructor; auto; lia.
    + intros H. unfold teletex_char. destruct (Z.eq_dec c 65534) as [->|N].
      * now rewrite table_last_fffe.
      * destruct (table_last_some teletex_table c 0 None N) as [(b & E & [[H1 H2]|H1])|(E & _)]; try discriminate.
        -- exfalso. apply H. split; auto. eapply nth_error_In; eauto.
        -- now rewrite E.
Qed.

(* decoding undoes one encoded character *)
Lemma decode_char e c b r : 0 <= c <= 1114111 -> encode_char e c = Ok b ->
  decode e (b ++ r) = consr c (decode e r).
Proof.
  intros Hc H. destruct e; cbn [encode_char decode] in *.
  - unfold latin1_char in H. destruct (Z.ltb_spec c 256); [|discriminate]. injection H as <-. reflexivity.
  - unfold ascii_char in H. destruct (Z.ltb_spec c 128); [|discriminate]. injection H as <-. cbn [app ascii_dec].
    destruct (Z.ltb_spec c 128); [reflexivity|lia].
  - unfold utf8_char in H. destruct (Z.ltb_spec c 128).
    { injection H as <-. cbn [app utf8_dec]. destruct (Z.ltb_spec c 128); [reflexivity|lia]. }
    destruct (Z.ltb_spec c 2048).
    { injection H as <-. cbn [app utf8_dec]. destruct (Z.ltb_spec (192 + c / 64) 128); [lia|].
      replace ((194 <=? 192 + c / 64) && (192 + c / 64 <=? 223)) with true by lia.
      replace (cont (128 + c mod 64)) with true by (unfold cont; lia). f_equal. lia. }
    destruct (surrogate c) eqn:S; [discriminate|].
    assert (NS : ~ (55296 <= c <= 57343)) by (intros K; apply surrogate_spec in K; congruence). clear S.
    destruct (Z.ltb_spec c 65536).
    { injection H as <-. cbn [app utf8_dec]. destruct (Z.ltb_spec (224 + c / 4096) 128); [lia|].
      replace ((194 <=? 224 + c / 4096) && (224 + c / 4096 <=? 223)) with false by lia.
      replace ((224 <=? 224 + c / 4096) && (224 + c / 4096 <=? 239)) with true by lia.
      match goal with |- (if ?g then _ else _) = _ => replace g with true by (unfold cont; lia) end.
      f_equal. lia. }
    { injection H as <-. cbn [app utf8_dec]. destruct (Z.ltb_spec (240 + c / 262144) 128); [lia|].
      replace ((194 <=? 240 + c / 262144) && (240 + c / 262144 <=? 223)) with false by lia.
      replace ((224 <=? 240 + c / 262144) && (240 + c / 262144 <=? 239)) with false by lia.
      match goal with |- (if ?g then _ else _) = _ => replace g with true by (unfold cont; lia) end.
      f_equal. lia. }
  - unfold utf16_char in H. destruct (surrogate c) eqn:S; [discriminate|].
    destruct (Z.ltb_spec c 65536).
    { injection H as <-. cbn [app utf16_dec]. replace (c / 256 * 256 + c mod 256) with c by lia. now rewrite S. }
    cbn zeta in H. injection H as <-. cbn [app utf16_dec].
    set (hi := 55296 + (c - 65536) / 1024). set (lo := 56320 + (c - 65536) mod 1024).
    replace (hi / 256 * 256 + hi mod 256) with hi by lia.
    replace (lo / 256 * 256 + lo mod 256) with lo by lia.
    replace (surrogate hi) with true by (unfold surrogate, hi; lia).
    replace ((hi <=? 56319) && (56320 <=? lo) && (lo <=? 57343)) with true by (unfold hi, lo; lia).
    f_equal. unfold hi, lo. lia.
  - unfold utf32_char in H. destruct (surrogate c) eqn:S; [discriminate|]. injection H as <-.
    cbn [app utf32_dec].
    replace (c / 16777216 * 16777216 + c / 65536 mod 256 * 65536 + c / 256 mod 256 * 256 + c mod 256) with c by lia.
    unfold scalar. rewrite S. replace ((0 <=? c) && (c <=? 1114111) && negb false) with true by lia. reflexivity.
  - destruct (Z.eq_dec c 65534) as [->|N].
    { unfold teletex_char in H. now rewrite table_last_fffe in H. }
    destruct (in_dec Z.eq_dec c teletex_table) as [Hi|Hi].
    + destruct (teletex_char_spec c N Hi) as (x & E & Hx & Hn). rewrite E in H. injection H as <-.
      cbn [app teletex_dec]. rewrite Hn. destruct (Z.eqb_spec c 65534); [lia|reflexivity].
    + assert (K : encode_char Teletex c = Err UnicodeError) by (apply encode_char_ok; auto; intros [_ K]; auto).
      cbn [encode_char] in K. congruence.
Qed.

Lemma representable_dec e c : representable e c \/ ~ representable e c.
Proof.
  destruct e; cbn [representable]; try lia.
  destruct (Z.eq_dec c 65534); [right; intros [? _]; auto|].
  destruct (in_dec Z.eq_dec c teletex_table); [left; auto|right; intros [_ ?]; auto].
Qed.

Lemma decode_nil e : decode e [] = Ok [].
Proof. destruct e; reflexivity. Qed.

Lemma codec_roundtrip e s : text_ok s ->
  (Forall (representable e) s -> exists b, encode e s = Ok b /\ bytes_ok b /\ decode e b = Ok s) /\
  (~ Forall (representable e) s -> encode e s = Err UnicodeError).
Proof.
  intros H. induction H as [|c s Hc H IH]; cbn [encode].
  - split; [|intros N; exfalso; apply N; constructor].
    intros _. exists []. rewrite decode_nil. repeat split; auto; constructor.
  - destruct IH as [IH1 IH2]. destruct (encode_char_ok e c Hc) as [C1 C2]. split.
    + intros F. inversion F; subst. destruct (C1 H2) as (b & Eb & Hb). destruct (IH1 H3) as (bs & Ebs & Hbs & Dbs).
      rewrite Eb, Ebs. cbn [bind]. exists (b ++ bs). repeat split; auto.
      * now apply bytes_ok_app.
      * rewrite (decode_char e c b bs) by auto. rewrite Dbs. reflexivity.
    + intros N. destruct (representable_dec e c) as [Rc|Rc].
      * destruct (C1 Rc) as (b & -> & _). cbn [bind]. rewrite IH2; auto.
      * rewrite (C2 Rc). reflexivity.
Qed.

(* ---- decoding is canonical: what decodes re-encodes to the same bytes ---- *)
Lemma teletex_ok : forallb (fun b => let c := nth b teletex_table 65534 in
  (c =? 65534) || ((0 <=? c) && (c <=? 1114111) &&
     match teletex_char c with Ok [x] => x =? Z.of_nat b | _ => false end)) (seq 0 256) = true.
Proof. vm_compute. reflexivity. Qed.

Lemma decode_step e l : bytes_ok l -> l <> [] ->
  decode e l = Err UnicodeError \/
  exists c b r, l = b ++ r /\ b <> [] /\ 0 <= c <= 1114111 /\ encode_char e c = Ok b /\ decode e l = consr c (decode e r).
Proof.
  intros Hl Hn. destruct l as [|b0 r0]; [easy|]. clear Hn.
  pose proof (Forall_inv Hl) as H0. apply Forall_inv_tail in Hl as Hl0. unfold byte_ok in H0.
  destruct e; cbn [decode encode_char].
  - right. exists b0, [b0], r0. unfold latin1_char. destruct (Z.ltb_spec b0 256); [|lia].
    repeat split; auto; try lia. discriminate.
  - cbn [ascii_dec]. destruct (Z.ltb_spec b0 128); auto.
    right. exists b0, [b0], r0. unfold ascii_char. destruct (Z.ltb_spec b0 128); [|lia].
    repeat split; auto; try lia. discriminate.
  - cbn [utf8_dec]. destruct (Z.ltb_spec b0 128).
    { right. exists b0, [b0], r0. unfold utf8_char. destruct (Z.ltb_spec b0 128); [|lia].
      repeat split; auto; try lia. discriminate. }
    destruct r0 as [|b1 r1]; auto.
    destruct ((194 <=? b0) && (b0 <=? 223)) eqn:G2.
    { destruct (cont b1) eqn:C1; auto. right. unfold cont in C1.
      exists ((b0 - 192) * 64 + (b1 - 128)), [b0; b1], r1. unfold utf8_char.
      set (c := (b0 - 192) * 64 + (b1 - 128)).
      destruct (Z.ltb_spec c 128); [lia|]. destruct (Z.ltb_spec c 2048); [|lia].
      repeat split; auto; try lia; try discriminate.
      replace (c / 64) with (b0 - 192) by lia. replace (c mod 64) with (b1 - 128) by lia.
      repeat f_equal; lia. }
    destruct r1 as [|b2 r2]; auto.
    destruct ((224 <=? b0) && (b0 <=? 239)) eqn:G3.
    { match goal with |- (if ?g then _ else _) = _ \/ _ => destruct g eqn:C1; auto end. right. unfold cont in C1.
      exists ((b0 - 224) * 4096 + (b1 - 128) * 64 + (b2 - 128)), [b0; b1; b2], r2. unfold utf8_char, surrogate.
      set (c := (b0 - 224) * 4096 + (b1 - 128) * 64 + (b2 - 128)).
      destruct (Z.ltb_spec c 128); [lia|]. destruct (Z.ltb_spec c 2048); [lia|].
      replace ((55296 <=? c) && (c <=? 57343)) with false by lia.
      destruct (Z.ltb_spec c 65536); [|lia].
      repeat split; auto; try lia; try discriminate.
      replace (c / 4096) with (b0 - 224) by lia. replace (c / 64 mod 64) with (b1 - 128) by lia.
      replace (c mod 64) with (b2 - 128) by lia.
      repeat f_equal; lia. }
    destruct r2 as [|b3 r3]; auto.
    { match goal with |- (if ?g then _ else _) = _ \/ _ => destruct g eqn:C1; auto end. right. unfold cont in C1.
      exists ((b0 - 240) * 262144 + (b1 - 128) * 4096 + (b2 - 128) * 64 + (b3 - 128)), [b0; b1; b2; b3], r3.
      unfold utf8_char, surrogate.
      set (c := (b0 - 240) * 262144 + (b1 - 128) * 4096 + (b2 - 128) * 64 + (b3 - 128)).
      destruct (Z.ltb_spec c 128); [lia|]. destruct (Z.ltb_spec c 2048); [lia|].
      replace ((55296 <=? c) && (c <=? 57343)) with false by lia.
      destruct (Z.ltb_spec c 65536); [lia|].
      repeat split; auto; try lia; try discriminate.
      replace (c / 262144) with (b0 - 240) by lia. replace (c / 4096 mod 64) with (b1 - 128) by lia.
      replace (c / 64 mod 64) with (b2 - 128) by lia. replace (c mod 64) with (b3 - 128) by lia.
      repeat f_equal; lia. }
  - destruct r0 as [|b1 r1]; [cbn; auto|]. cbn [utf16_dec].
    pose proof (Forall_inv Hl0) as H1. apply Forall_inv_tail in Hl0. unfold byte_ok in H1.
    destruct (surrogate (b0 * 256 + b1)) eqn:S.
    + destruct r1 as [|b2 [|b3 r3]]; auto.
      pose proof (Forall_inv Hl0) as H2. apply Forall_inv_tail in Hl0. unfold byte_ok in H2.
      pose proof (Forall_inv Hl0) as H3. apply Forall_inv_tail in Hl0. unfold byte_ok in H3.
      match goal with |- (if ?g then _ else _) = _ \/ _ => destruct g eqn:C1; auto end. right.
      unfold surrogate in S.
      set (u := b0 * 256 + b1) in *. set (v := b2 * 256 + b3) in *.
      exists (65536 + (u - 55296) * 1024 + (v - 56320)), [b0; b1; b2; b3], r3.
      unfold utf16_char, surrogate. set (c := 65536 + (u - 55296) * 1024 + (v - 56320)).
      replace ((55296 <=? c) && (c <=? 57343)) with false by lia.
      destruct (Z.ltb_spec c 65536); [lia|]. cbn zeta.
      replace (55296 + (c - 65536) / 1024) with u by lia.
      replace (56320 + (c - 65536) mod 1024) with v by lia.
      repeat split; auto; try lia; try discriminate.
      replace (u / 256) with b0 by lia. replace (u mod 256) with b1 by lia.
      replace (v / 256) with b2 by lia. replace (v mod 256) with b3 by lia. reflexivity.
    + right. exists (b0 * 256 + b1), [b0; b1], r1. unfold utf16_char. rewrite S.
      destruct (Z.ltb_spec (b0 * 256 + b1) 65536); [|lia].
      repeat split; auto; try lia; try discriminate.
      replace ((b0 * 256 + b1) / 256) with b0 by lia. replace ((b0 * 256 + b1) mod 256) with b1 by lia. reflexivity.
  - destruct r0 as [|b1 [|b2 [|b3 r3]]]; cbn; auto.
    pose proof (Forall_inv Hl0) as H1. apply Forall_inv_tail in Hl0. unfold byte_ok in H1.
    pose proof (Forall_inv Hl0) as H2. apply Forall_inv_tail in Hl0. unfold byte_ok in H2.
    pose proof (Forall_inv Hl0) as H3. apply Forall_inv_tail in Hl0. unfold byte_ok in H3.
    set (u := b0 * 16777216 + b1 * 65536 + b2 * 256 + b3) in *.
    destruct (scalar u) eqn:S; auto. right. exists u, [b0; b1; b2; b3], r3.
    unfold scalar in S. unfold utf32_char. destruct (surrogate u); [lia|].
    repeat split; auto; try lia; try discriminate.
    replace (u / 16777216) with b0 by lia. replace (u / 65536 mod 256) with b1 by lia.
    replace (u / 256 mod 256) with b2 by lia. replace (u mod 256) with b3 by lia. reflexivity.
  - cbn [teletex_dec]. pose proof teletex_ok as T. rewrite forallb_forall in T.
    specialize (T (Z.to_nat b0)). rewrite in_seq in T. specialize (T ltac:(lia)). cbn zeta in T.
    set (c := nth (Z.to_nat b0) teletex_table 65534) in *.
    destruct (c =? 65534) eqn:E; auto. right. cbn [orb] in T.
    destruct (teletex_char c) as [[|x [|]]|] eqn:F; try (rewrite andb_false_r in T; discriminate).
    exists c, [b0], r0. repeat split; auto; try lia; try discriminate. rewrite F. repeat f_equal. lia.
Qed.

Lemma codec_decode_canonical e l : bytes_ok l ->
  decode e l = Err UnicodeError \/ exists s, decode e l = Ok s /\ text_ok s /\ encode e s = Ok l.
Proof.
  remember (length l) as n eqn:En. revert l En.
  induction n as [n IH] using lt_wf_ind. intros l -> Hl.
  destruct l as [|x l']. { right. exists []. rewrite decode_nil. repeat split; constructor. }
  destruct (decode_step e (x :: l') Hl ltac:(discriminate)) as [H|(c & b & r & E & Hb & Hc & Ec & D)]; auto.
  rewrite E in *. rewrite D. apply Forall_app in Hl as [_ Hr].
  destruct (IH (length r)) with (l := r) as [K|(s & K & Hs & Es)]; auto.
  - rewrite app_length. destruct b; [easy|cbn; lia].
  - left. now rewrite K.
  - right. exists (c :: s). rewrite K. cbn [consr bind]. split; [reflexivity|]. split; [now constructor|].
    cbn [encode]. rewrite Ec, Es. reflexivity.
Qed.

Lemma encode_inj e s t b : text_ok s -> text_ok t -> encode e s = Ok b -> encode e t = Ok b -> s = t.
Proof.
  assert (A : forall s, text_ok s -> encode e s = Ok b -> decode e b = Ok s).
  { clear. intros s. revert b. induction s as [|c s IH]; cbn [encode]; intros b H E.
    - injection E as <-. apply decode_nil.
    - apply bind_ok in E as (x & E1 & E). apply bind_ok in E as (y & E2 & E). injection E as <-.
      apply Forall_inv_tail in H as Hs. apply Forall_inv in H.
      rewrite (decode_char e c x y) by auto. now rewrite (IH y). }
  intros Hs Ht Es Et. apply A in Es, Et; auto. congruence.
Qed.
