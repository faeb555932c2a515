(* Proofs about names and addresses. *)
Require Import Verif.Base Verif.BaseFacts Verif.Text Verif.DomainModel Verif.AddrModel Verif.AddrSpec.

Lemma eqb_text_iff (a b : text) : eqb_text a b = true <-> a = b.
Proof. apply eqb_bytes_spec. Qed.
Lemma is_ascii_iff s : is_ascii s = true <-> ascii_text s.
Proof. unfold is_ascii, ascii_text. rewrite forallb_forall, Forall_forall. split; intros H x I; specialize (H x I); lia. Qed.
Lemma starts_iff w : forall s, starts w s = true <-> exists b, s = w ++ b.
Proof.
  induction w as [|a w IH]; intro s; cbn; [split; eauto|]. destruct s as [|x s]; [split; [discriminate|intros [b H]; discriminate]|].
  rewrite andb_true_iff, IH. split.
  - intros [E (b & ->)]. exists b. f_equal. lia.
  - intros [b H]. injection H as -> ->. split; [lia|eauto].
Qed.
Lemma infix_iff w s : infix w s = true <-> exists a b, s = a ++ w ++ b.
Proof.
  induction s as [|x s IH]; cbn [infix]; rewrite orb_true_iff, starts_iff.
  - split; [intros [[b H]|H]; [exists [], b; exact H|discriminate]|]. intros (a & b & H). destruct a; [left; eauto|discriminate].
  - rewrite IH. split.
    + intros [[b H]|(a & b & ->)]; [exists [], b; exact H|exists (x :: a), b; reflexivity].
    + intros (a & b & H). destruct a as [|y a]; [left; eauto|]. injection H as -> ->. right. eauto.
Qed.
Lemma no_ace_iff s : infix ace s = false <-> no_ace s.
Proof.
  split; intro H.
  - intros a b E. assert (infix ace s = true) by (apply infix_iff; eauto). congruence.
  - destruct (infix ace s) eqn:Q; [|reflexivity]. apply infix_iff in Q. destruct Q as (a & b & Q). elim (H a b Q).
Qed.

Lemma rsplit_some c s : forall m h, rsplit c s = Some (m, h) <-> s = m ++ c :: h /\ ~ In c h.
Proof.
  assert (N : forall s, rsplit c s = None <-> ~ In c s).
  { clear s. induction s as [|x s IH]; cbn; [tauto|]. destruct (rsplit c s) as [[m h]|] eqn:R.
    - split; [discriminate|]. intro H. exfalso. destruct IH as [_ IH]. assert (~ In c s) by tauto. apply IH in H0. discriminate.
    - destruct IH as [IH _]. specialize (IH eq_refl). destruct (Z.eqb_spec x c); split; try discriminate; try tauto; intro H; exfalso; apply H; auto. }
  induction s as [|x s IH]; cbn; intros m h; [split; [discriminate|intros [H _]; destruct m; discriminate]|].
  destruct (rsplit c s) as [[m' h']|] eqn:R.
  - destruct (IH m' h') as [IH' _]. destruct (IH' eq_refl) as [-> NH]. split.
    + intro H. injection H as <- <-. auto.
    + intros [H NI]. destruct m as [|y m].
      * injection H as -> H. subst h. elim NI. apply in_or_app. right. now left.
      * injection H as -> H. destruct (IH m h) as [_ B].
        assert (Q : Some (m', h') = Some (m, h)) by (apply B; auto). injection Q as -> ->. reflexivity.
  - apply N in R. destruct (Z.eqb_spec x c) as [->|D].
    + split.
      * intro H. injection H as <- <-. auto.
      * intros [H NI]. destruct m as [|y m]; [injection H as ->; reflexivity|]. injection H as -> H. subst s. elim R. apply in_or_app. right. now left.
    + split; [discriminate|]. intros [H NI]. destruct m as [|y m]; [cbn in H; congruence|]. injection H as -> H. subst s. elim R. apply in_or_app. right. now left.
Qed.
Lemma rsplit_none c s : rsplit c s = None <-> ~ In c s.
Proof.
  induction s as [|x s IH]; cbn; [tauto|]. destruct (rsplit c s) as [[m h]|] eqn:R.
  - split; [discriminate|]. intro H. exfalso. destruct IH as [_ IH]. assert (Q : ~ In c s) by tauto. apply IH in Q. discriminate.
  - destruct IH as [IH _]. specialize (IH eq_refl). destruct (Z.eqb_spec x c); split; try discriminate; try tauto; intro H; exfalso; apply H; auto.
Qed.

(* ---- labels ---- *)
Lemma split_word w r : ~ In 46 w -> split_on 46 (w ++ 46 :: r) = w :: split_on 46 r.
Proof.
  induction w as [|c w IH]; cbn; intro N; [rewrite Z.eqb_refl; reflexivity|].
  destruct (Z.eqb_spec c 46) as [->|D]; [elim N; now left|]. rewrite IH by tauto. reflexivity.
Qed.
Lemma split_last w : ~ In 46 w -> split_on 46 w = [w].
Proof.
  induction w as [|c w IH]; cbn; intro N; [reflexivity|].
  destruct (Z.eqb_spec c 46) as [->|D]; [elim N; now left|]. rewrite IH by tauto. reflexivity.
Qed.
Lemma first_dot (s : text) : ~ In 46 s \/ exists w r, s = w ++ 46 :: r /\ ~ In 46 w.
Proof.
  induction s as [|c s IH]; [left; tauto|]. destruct (Z.eq_dec c 46) as [->|D]; [right; exists [], s; auto|].
  destruct IH as [N|(w & r & -> & N)]; [left; cbn; intuition|right]. exists (c :: w), r. cbn. split; [reflexivity|intuition].
Qed.
Lemma split_not_nil s : split_on 46 s <> [].
Proof. destruct s as [|c s]; cbn; [discriminate|]. destruct (c =? 46); [discriminate|]. destruct (split_on 46 s); discriminate. Qed.
Lemma labels_iff : forall n s, (length s < n)%nat -> idna_labels (split_on 46 s) = true <-> host s.
Proof.
  induction n as [|n IH]; intros s L; [lia|]. destruct (first_dot s) as [N|(w & r & -> & N)].
  - rewrite (split_last s N). cbn. split; [intro; apply host_last; [lia|exact N]|].
    inversion 1; subst; [lia|]. elim N. apply in_or_app. right. now left.
  - rewrite (split_word w r N). cbn [idna_labels]. destruct (split_on 46 r) as [|y l] eqn:E; [elim (split_not_nil r E)|]. rewrite <- E.
    rewrite !andb_true_iff, IH by (rewrite app_length in L; cbn in L; lia). split.
    + intros [[A B] H]. apply host_more; [split; [lia|exact N]|exact H].
    + inversion 1 as [? A B|w' r' LW H' E']; subst; [elim B; apply in_or_app; right; now left|].
      destruct LW as [LW NW]. assert (W : w' = w /\ r' = r).
      { assert (Q := f_equal (split_on 46) E'). rewrite (split_word w' r' NW), (split_word w r N) in Q. injection Q as -> Q.
        apply app_inv_head in E'. now injection E'. }
      destruct W as [-> ->]. split; [lia|exact H'].
Qed.
Lemma host_iff s : idna_labels (split_on 46 s) = true <-> host s.
Proof. apply (labels_iff (S (length s))). lia. Qed.

(* ---- letters ---- *)
Lemma letter_iff c d : lower_char c = lower_char d <-> same_letter c d.
Proof.
  unfold lower_char. destruct ((65 <=? c) && (c <=? 90)) eqn:P, ((65 <=? d) && (d <=? 90)) eqn:Q; split; intro H;
    try (inversion H; lia).
  - replace d with c by lia. constructor.
  - subst d. apply same_upper. lia.
  - subst c. apply same_lower. lia.
  - subst. constructor.
Qed.
Lemma name_iff a : forall b, lower_ascii a = lower_ascii b <-> same_name a b.
Proof.
  induction a as [|c a IH]; intros [|d b]; cbn; split; intro H; try discriminate; try inversion H; subst; try constructor; auto.
  - now apply letter_iff.
  - now apply IH.
  - f_equal; [now apply letter_iff|now apply IH].
Qed.

Lemma cp1252_ascii s : ascii_text s -> cp1252 s = Ok s.
Proof.
  induction 1 as [|c s H F IH]; [reflexivity|]. cbn. unfold cp1252_char. replace (c <? 128) with true by lia. cbn [orb bind].
  now rewrite IH.
Qed.
Lemma windows_char b c : byte_ok b -> (cp1252_char b = Ok c <-> windows b c).
Proof.
  intros [B1 B2]. unfold cp1252_char. destruct ((b <? 128) || (160 <=? b)) eqn:C.
  - split; [intros [= <-]; constructor; lia|]. intro W. inversion W as [b' H|b' c' H]; subst; [reflexivity|].
    cbn in H. repeat (destruct H as [[= <- <-]|H]; [discriminate|]). contradiction.
  - split.
    + assert (K : exists n, (n < 32)%nat /\ b = 128 + Z.of_nat n) by (exists (Z.to_nat (b - 128)); lia). destruct K as (n & L & ->).
      replace (Z.to_nat (128 + Z.of_nat n - 128)) with n by lia.
      do 32 (destruct n as [|n]; [cbn; (discriminate || (intros [= <-]; apply windows_listed; cbn; tauto))|]). lia.
    + intro W. inversion W as [b' H|b' c' H]; subst; [lia|].
      cbn in H. repeat (destruct H as [[= <- <-]|H]; [reflexivity|]). contradiction.
Qed.
Lemma windows_text m : bytes_ok m -> forall t, cp1252 m = Ok t <-> Forall2 windows m t.
Proof.
  induction 1 as [|b m B F IH]; intro t; cbn [cp1252].
  - split; [intros [= <-]; constructor|]. intro W. inversion W. reflexivity.
  - split.
    + destruct (cp1252_char b) as [c|] eqn:C; [|discriminate]. cbn [bind]. destruct (cp1252 m) as [u|]; [|discriminate]. intros [= <-].
      constructor; [now apply windows_char|]. now apply IH.
    + intro W. inversion W as [|? c ? u H K]; subst. apply windows_char in H; [|exact B]. apply IH in K. rewrite H. cbn [bind]. now rewrite K.
Qed.
Lemma mail_same s t : octets_eq s t = true <-> same_mailbox s t.
Proof.
  unfold octets_eq, same_mailbox. destruct (rsplit 64 s) as [[m h]|] eqn:R.
  - apply rsplit_some in R. destruct R as [-> N]. destruct (rsplit 64 t) as [[m' h']|] eqn:R'.
    + apply rsplit_some in R'. destruct R' as [-> N']. rewrite andb_true_iff, !eqb_bytes_spec, name_iff. split.
      * intros [-> S]. left. exists m', h, h'. auto.
      * intros [(n & g & g' & E & E' & M & M' & S)|[I _]]; [|elim I; apply in_or_app; right; now left].
        assert (Q := proj2 (rsplit_some 64 _ _ _) (conj E M)). rewrite (proj2 (rsplit_some 64 _ m h) (conj eq_refl N)) in Q.
        assert (Q' := proj2 (rsplit_some 64 _ _ _) (conj E' M')). rewrite (proj2 (rsplit_some 64 _ m' h') (conj eq_refl N')) in Q'.
        injection Q as -> ->. injection Q' as -> ->. auto.
    + apply rsplit_none in R'. rewrite eqb_bytes_spec. split.
      * intros <-. elim R'. apply in_or_app. right. now left.
      * intros [(n & g & g' & E & -> & _)|[I _]]; [elim R'|elim I]; apply in_or_app; right; now left.
  - apply rsplit_none in R. rewrite eqb_bytes_spec. split; [intros <-; right; auto|].
    intros [(n & g & g' & -> & _)|[_ E]]; [elim R; apply in_or_app; right; now left|exact E].
Qed.

Section Facts.
  Variable idna_to : text -> res bytes.
  Variable idna_from : bytes -> res text.
  Notation decode := (idna_decode idna_from).
  Notation encode := (idna_encode idna_to).
  Notation eeq := (email_eq idna_to idna_from).
  Notation edec := (email_decode idna_from).
  Notation eenc := (email_encode idna_to).

  Lemma decode_plain s : plain_name s -> decode s = Ok s.
  Proof. intros [A N]. unfold idna_decode. apply is_ascii_iff in A. apply no_ace_iff in N. now rewrite A, N. Qed.
  Lemma encode_ascii s : ascii_text s -> encode s = if idna_labels (split_on 46 s) then Ok s else Err UnicodeError.
  Proof. intro A. unfold idna_encode, idna_ascii. apply is_ascii_iff in A. now rewrite A. Qed.
  Lemma encode_host s : ascii_text s -> host s -> encode s = Ok s.
  Proof. intros A H. rewrite encode_ascii by exact A. apply host_iff in H. now rewrite H. Qed.
  Lemma ascii_app a b : ascii_text (a ++ b) <-> ascii_text a /\ ascii_text b.
  Proof. apply Forall_app. Qed.

  Lemma encode_dot_ascii s : ascii_text s -> dns_encode idna_to s =
    if idna_labels (split_on 46 (match s with 46 :: r => r | _ => s end)) then Ok s else Err UnicodeError.
  Proof.
    intro A. unfold dns_encode.
    assert (G : match s with 46 :: r => do b <- encode r; Ok (46 :: b) | _ => encode s end =
                if idna_labels (split_on 46 match s with 46 :: r => r | _ => s end) then Ok s else Err UnicodeError).
    2: exact G.
    destruct s as [|c s]; [reflexivity|]. destruct (Z.eq_dec c 46) as [->|D].
    - inversion A; subst. rewrite encode_ascii by assumption. destruct (idna_labels (split_on 46 s)); reflexivity.
    - assert (M : forall X (f : text -> X) (g : X), match c :: s with 46 :: r => f r | _ => g end = g).
      { intros X f g. destruct c as [|p|p]; try reflexivity. do 6 (destruct p; try reflexivity). congruence. }
      rewrite (M _ (fun r => do b <- encode r; Ok (46 :: b))), (M _ (fun r => r)). now apply encode_ascii.
  Qed.

  (* ---- EmailAddress ---- *)
  Lemma mail_decode s : plain_mail s -> edec s = Ok s.
  Proof.
    intros [A P]. unfold email_decode. destruct (rsplit 64 s) as [[m h]|] eqn:R.
    - apply rsplit_some in R. destruct R as [-> N]. destruct (P m h eq_refl N) as [Q _].
      apply ascii_app in A. destruct A as [A _]. rewrite cp1252_ascii by exact A. cbn [bind]. now rewrite decode_plain.
    - now apply cp1252_ascii.
  Qed.
  Lemma mail_encode s : plain_mail s -> eenc s = Ok s.
  Proof.
    intros [A P]. unfold email_encode, to_ascii. destruct (rsplit 64 s) as [[m h]|] eqn:R.
    - apply rsplit_some in R. destruct R as [-> N]. destruct (P m h eq_refl N) as [[Q _] H].
      apply ascii_app in A. destruct A as [A _]. apply is_ascii_iff in A. rewrite A. cbn [bind]. now rewrite encode_host.
    - apply is_ascii_iff in A. now rewrite A.
  Qed.
  Definition mail_is (s : text) (o : aobj) : Prop := a_contents o = Some s /\ (a_text o = None \/ a_text o = Some s).
  Lemma mail_read s o : plain_mail s -> mail_is s o ->
    mail_is s (fst (email_text idna_from o)) /\ snd (email_text idna_from o) = Ok s /\
    a_kept (fst (email_text idna_from o)) = a_kept o.
  Proof.
    intros P [C T]. unfold email_text, text_of. rewrite C. destruct T as [T|T]; rewrite T.
    - rewrite (mail_decode s P). split; [split; [first [exact C|reflexivity]|now right]|split; reflexivity].
    - split; [split; [first [exact C|reflexivity]|now right]|split; reflexivity].
  Qed.
  Lemma mail_normal s o : plain_mail s -> mail_is s o ->
    normalize idna_to idna_from o = (Addr (Some s) None (Some s), Ok s).
  Proof.
    intros P [C T]. unfold normalize, native, text_of. rewrite C. destruct T as [T|T]; rewrite T; [rewrite (mail_decode s P)|]; cbn [bind];
      now rewrite (mail_encode s P).
  Qed.
  Lemma mail_used s o u : plain_mail s -> mail_is s o -> mail_is s (email_use idna_to idna_from o u).
  Proof.
    intros P D. destruct (mail_read s o P D) as [D' [R _]]. assert (N := mail_normal s o P D).
    assert (M : mail_is s (Addr (Some s) None (Some s))) by (split; [reflexivity|now right]).
    destruct u as [|x|x]; cbn [email_use].
    - exact D'.
    - unfold email_eq. rewrite N. destruct (normalize idna_to idna_from x) as [x' [t|e]]; exact M.
    - unfold email_eq. destruct (normalize idna_to idna_from x) as [x' [t|e]]; [|exact D]. rewrite N. exact M.
  Qed.
  Lemma mail_uses s l : forall o, plain_mail s -> mail_is s o -> mail_is s (fold_left (email_use idna_to idna_from) l o).
  Proof. induction l as [|u l IH]; intros o P D; [exact D|]. cbn. apply IH; [exact P|]. now apply mail_used. Qed.
  Lemma mail_equal s t a b : plain_mail s -> plain_mail t -> mail_is s a -> mail_is t b ->
    exists r, snd (eeq a b) = Ok r /\ (r = true <-> same_mailbox s t).
  Proof.
    intros P Q A B. unfold email_eq. rewrite (mail_normal s a P A), (mail_normal t b Q B). cbn.
    eexists. split; [reflexivity|apply mail_same].
  Qed.

  Definition mail_key (o : aobj) : option bytes := match snd (normalize idna_to idna_from o) with Ok s => Some s | Err _ => None end.
  Lemma mail_eq_key a b r : snd (eeq a b) = Ok r <-> exists s t, mail_key a = Some s /\ mail_key b = Some t /\ r = octets_eq s t.
  Proof.
    unfold email_eq, mail_key. destruct (normalize idna_to idna_from a) as [a' [s|e]]; cbn [snd].
    2: { split; [discriminate|]. intros (s & t & H & _). discriminate. }
    destruct (normalize idna_to idna_from b) as [b' [t|e]]; cbn [snd].
    2: { split; [discriminate|]. intros (s' & t & _ & H & _). discriminate. }
    split.
    - intro H. injection H as <-. eauto.
    - intros (s' & t' & E & F & ->). injection E as <-. injection F as <-. reflexivity.
  Qed.
End Facts.

Section Dns.
  Variable idna_from : bytes -> res text.
  Variable lower_to : text -> text.
  Notation decode := (idna_decode idna_from).
  Notation deq := (dns_eq idna_from lower_to).

  (* ---- DNSName ---- *)
  Definition dns_is (s : text) (o : aobj) : Prop := a_contents o = Some s /\ (a_text o = None \/ a_text o = Some s).
  Lemma dns_read s o : plain_name s -> dns_is s o -> dns_is s (fst (dns_text idna_from o)) /\ snd (dns_text idna_from o) = Ok s.
  Proof.
    intros P [C T]. unfold dns_text, text_of. rewrite C. destruct T as [T|T]; rewrite T.
    - rewrite (decode_plain idna_from s P). split; [split; [first [exact C|reflexivity]|now right]|reflexivity].
    - split; [split; [first [exact C|reflexivity]|now right]|reflexivity].
  Qed.
  Lemma dns_read_error o : a_contents (fst (dns_text idna_from o)) = a_contents o.
  Proof.
    unfold dns_text, text_of. destruct (a_contents o) as [c|] eqn:C; [|exact C]. destruct (a_text o); [exact C|].
    destruct (decode c); [reflexivity|exact C].
  Qed.
  Lemma dns_used s o u : plain_name s -> dns_is s o -> dns_is s (dns_use idna_from lower_to o u).
  Proof.
    intros P D. destruct (dns_read s o P D) as [D' R]. destruct u as [|x|x]; cbn [dns_use].
    - exact D'.
    - unfold dns_eq. destruct (dns_text idna_from o) as [o' r]. cbn in D', R. subst r.
      destruct (dns_text idna_from x) as [x' [t|e]]; exact D'.
    - unfold dns_eq. destruct (dns_text idna_from x) as [x' [t|e]]; [|exact D].
      destruct (dns_text idna_from o) as [o' r]. cbn in D', R. subst r. exact D'.
  Qed.
  Lemma dns_uses s l : forall o, plain_name s -> dns_is s o -> dns_is s (fold_left (dns_use idna_from lower_to) l o).
  Proof. induction l as [|u l IH]; intros o P D; [exact D|]. cbn. apply IH; [exact P|]. now apply dns_used. Qed.
  Lemma dns_equal s t a b : plain_name s -> plain_name t -> dns_is s a -> dns_is t b ->
    exists r, snd (deq a b) = Ok r /\ (r = true <-> same_name s t).
  Proof.
    intros P Q A B. unfold dns_eq. destruct (dns_read s a P A) as [_ R], (dns_read t b Q B) as [_ R'].
    destruct (dns_text idna_from a) as [a' r]. destruct (dns_text idna_from b) as [b' r']. cbn in R, R'. subst. cbn.
    eexists. split; [reflexivity|]. rewrite eqb_text_iff. unfold lower.
    destruct P as [P _], Q as [Q _]. apply is_ascii_iff in P, Q. rewrite P, Q. apply name_iff.
  Qed.

  (* in general: the lowered texts are compared *)
  Definition dns_key (o : aobj) : option text :=
    match snd (dns_text idna_from o) with Ok s => Some (lower lower_to s) | Err _ => None end.
  Lemma dns_eq_key a b r : snd (deq a b) = Ok r <-> exists s t, dns_key a = Some s /\ dns_key b = Some t /\ r = eqb_text s t.
  Proof.
    unfold dns_eq, dns_key. destruct (dns_text idna_from a) as [a' [s|e]]; cbn [snd].
    2: { split; [discriminate|]. intros (s & t & H & _). discriminate. }
    destruct (dns_text idna_from b) as [b' [t|e]]; cbn [snd].
    2: { split; [discriminate|]. intros (s' & t & _ & H & _). discriminate. }
    split.
    - intro H. injection H as <-. eauto.
    - intros (s' & t' & E & F & ->). injection E as <-. injection F as <-. reflexivity.
  Qed.

End Dns.

Lemma same_name_equiv : (forall s, same_name s s) /\ (forall s t, same_name s t -> same_name t s) /\
  (forall s t u, same_name s t -> same_name t u -> same_name s u).
Proof.
  split; [|split]; intros *; rewrite <- ?name_iff; congruence.
Qed.
Lemma octets_eq_refl s : octets_eq s s = true.
Proof. unfold octets_eq. destruct (rsplit 64 s) as [[m h]|]; rewrite ?andb_true_iff, ?eqb_bytes_spec; auto. Qed.
Lemma octets_eq_sym s t : octets_eq s t = octets_eq t s.
Proof.
  unfold octets_eq. apply eq_true_iff_eq. destruct (rsplit 64 s) as [[m h]|], (rsplit 64 t) as [[m' h']|];
    rewrite ?andb_true_iff, ?eqb_bytes_spec; intuition congruence.
Qed.
Lemma octets_eq_trans s t u : octets_eq s t = true -> octets_eq t u = true -> octets_eq s u = true.
Proof.
  unfold octets_eq. destruct (rsplit 64 s) as [[m h]|] eqn:A, (rsplit 64 t) as [[m' h']|] eqn:B, (rsplit 64 u) as [[n g]|] eqn:C;
    rewrite ?andb_true_iff, ?eqb_bytes_spec; try (intuition congruence); intros; subst; congruence.
Qed.
