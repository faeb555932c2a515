(* A platform whose inet_pton also reads addresses that start or end in :: - the functions of
   _inet.py with the missing case added.  It shows that the assumption made about platforms
   can be met. *)
Require Import Verif.Base Verif.BaseFacts Verif.Text Verif.IntModel Verif.IntSpec Verif.IntProofs Verif.InetModel Verif.InetSpec Verif.InetProofs Verif.InetAddr.

Definition pad_left (s : text) : text := match s with 58 :: 58 :: _ => 48 :: s | _ => s end.
Definition pad_right (s : text) : text := match rev s with 58 :: 58 :: _ => s ++ [48] | _ => s end.
Definition full_pton6 (s : text) : res bytes := pton6 (pad_right (pad_left s)).
Definition full_pton (v6 : bool) : text -> res bytes := if v6 then full_pton6 else pton4.

Lemma colons_zero : colons [48] [0].
Proof. exists [[48]]. split; [|reflexivity]. apply (zeros_words 1). Qed.
Lemma colons_ends a g : colons a g -> (hd 0 a <> 58 /\ last a 0 <> 58).
Proof.
  intros (w & W & ->). apply hex_words in W. destruct w as [|x w]; [cbn; lia|]. split.
  - destruct (join_head (x :: w) W) as (u & t & -> & U); [easy|]. destruct (word_head u U) as (c & r & -> & N). exact N.
  - assert (x :: w <> []) as N by easy. revert W N. generalize (x :: w) as v. clear. induction v as [|x w IH]; [easy|]. intros W _.
    inversion W as [|? ? [X1 X2] W']; subst. destruct w as [|y w].
    + cbn [join_with]. destruct (exists_last X1) as (x' & l & ->). rewrite last_last. apply Forall_app in X2 as [_ X2].
      inversion X2; subst. now apply hexc_char.
    + rewrite join_cons by easy. replace (x ++ 58 :: join_with 58 (y :: w)) with ((x ++ [58]) ++ join_with 58 (y :: w)) by now rewrite <- app_assoc.
      rewrite last_app_r; [apply IH; [exact W'|easy]|].
      destruct (join_head (y :: w) W') as (u & t & -> & [U _]); [easy|]. destruct u; easy.
Qed.
Lemma pad_left_other s : hd 0 s <> 58 \/ hd 0 (tl s) <> 58 -> pad_left s = s.
Proof.
  intros H. destruct s as [|a [|b s]]; [reflexivity| |]; unfold pad_left.
  - destruct a as [|p|p]; try reflexivity. repeat (destruct p as [p|p|]; try reflexivity).
  - cbn [hd tl] in H. destruct a as [|p|p]; try reflexivity. repeat (destruct p as [p|p|]; try reflexivity).
    destruct b as [|p|p]; try reflexivity. repeat (destruct p as [p|p|]; try reflexivity). exfalso. lia.
Qed.
Lemma pad_right_other s : hd 0 (rev s) <> 58 \/ hd 0 (tl (rev s)) <> 58 -> pad_right s = s.
Proof.
  intros H. unfold pad_right. destruct (rev s) as [|a [|b r]]; [reflexivity| |].
  - destruct a as [|p|p]; try reflexivity. repeat (destruct p as [p|p|]; try reflexivity).
  - cbn [hd tl] in H. destruct a as [|p|p]; try reflexivity. repeat (destruct p as [p|p|]; try reflexivity).
    destruct b as [|p|p]; try reflexivity. repeat (destruct p as [p|p|]; try reflexivity). exfalso. lia.
Qed.
Lemma hd_rev_last s : hd 0 (rev s) = last s 0.
Proof.
  destruct (Z.eq_dec (len s) 0) as [E|E]; [now apply len_zero_nil in E; subst|].
  destruct (@exists_last _ s) as (x & l & ->); [intros ->; now apply E|]. now rewrite rev_app_distr, last_last.
Qed.
Lemma colons_pair s g : colons s g -> (hd 0 s <> 58) /\ last s 0 <> 58.
Proof. apply colons_ends. Qed.
(* the padded text denotes the same address *)
Lemma pad_text s g : ipv6_canonical s g -> ipv6_text (pad_right (pad_left s)) g /\ inner_double (pad_right (pad_left s)).
Proof.
  intros [L [[_ C]|(z & n & a & b & N & [Zl Ze] & _ & CA & CB & ->)]].
  - destruct (colons_ends s g C) as [H1 H2]. rewrite pad_left_other by (left; exact H1).
    rewrite pad_right_other by (left; rewrite hd_rev_last; exact H2). split; [split; [exact L|now left]|]. split.
    + intros E. destruct s as [|x s]; [discriminate|]. cbn [firstn hd] in *. inversion E. congruence.
    + intros t ->. replace (t ++ [58; 58]) with ((t ++ [58]) ++ [58]) in H2 by now rewrite <- app_assoc. rewrite last_last in H2. now apply H2.
  - (* first the left part, then the right part, possibly replaced by one zero *)
    assert (exists z1 n1 a1, (z1 + n1 = z + n)%nat /\ (1 <= n1)%nat /\ zeros_at g z1 n1 /\ colons a1 (firstn z1 g) /\ a1 <> [] /\
              pad_left (a ++ [58; 58] ++ b) = a1 ++ [58; 58] ++ b /\ (z = 0%nat /\ n1 = (n - 1)%nat \/ n1 = n)) as (z1 & n1 & a1 & E1 & N1 & Z1 & C1 & NE1 & P1 & K1).
    { destruct (colons_nonempty _ _ CA) as [Q1 Q2]. destruct a as [|x a].
      - specialize (Q1 eq_refl). assert (z = 0%nat) as -> by (apply (f_equal (@length Z)) in Q1; rewrite firstn_length in Q1; cbn [length] in Q1; lia).
        exists 1%nat, (n - 1)%nat, [48]. split; [lia|]. split; [lia|].
        assert (firstn 1 g = [0] /\ zeros_at g 1 (n - 1)) as [F1 F2].
        { cbn [skipn] in Ze. destruct n as [|n]; [lia|]. destruct g as [|g0 g]; [discriminate|]. cbn [firstn repeat] in Ze.
          injection Ze as G0 G1. subst g0. split; [reflexivity|]. replace (S n - 1)%nat with n by lia. split; [cbn [length] in *; lia|exact G1]. }
        split; [exact F2|]. split; [rewrite F1; apply colons_zero|]. split; [easy|]. split; [reflexivity|]. left. split; reflexivity.
      - exists z, n, (x :: a). split; [reflexivity|]. split; [lia|]. split; [split; assumption|]. split; [exact CA|]. split; [easy|]. split.
        + apply pad_left_other. left. now destruct (colons_ends _ _ CA).
        + now right. }
    rewrite P1. destruct (colons_nonempty _ _ CB) as [Q1 Q2].
    assert (exists n2 b2, (1 <= n2)%nat /\ zeros_at g z1 n2 /\ colons b2 (skipn (z1 + n2) g) /\ b2 <> [] /\
              pad_right (a1 ++ [58; 58] ++ b) = a1 ++ [58; 58] ++ b2) as (n2 & b2 & N2 & Z2 & C2 & NE2 & P2).
    { destruct b as [|y b].
      - specialize (Q1 eq_refl).
        assert (z + n = 8)%nat as ZN by (apply (f_equal (@length Z)) in Q1; rewrite skipn_length in Q1; cbn [length] in Q1; lia).
        destruct (Nat.eq_dec n1 1) as [D|D].
        + (* a run of two at the left end cannot reach the right end *) exfalso. destruct K1 as [[-> K]|K]; lia.
        + exists (n1 - 1)%nat, [48]. split; [lia|].
          assert (zeros_at g z1 (n1 - 1) /\ skipn (z1 + (n1 - 1)) g = [0]) as [F1 F2].
          { destruct Z1 as [Z1l Z1e]. assert (length g = (z1 + n1)%nat) as LG by lia.
            rewrite firstn_all2 in Z1e by (rewrite skipn_length; lia). split.
            - split; [lia|]. rewrite Z1e. destruct n1 as [|k]; [lia|]. replace (S k - 1)%nat with k by lia.
              cbn [repeat]. rewrite repeat_cons. rewrite firstn_app, repeat_length, Nat.sub_diag. cbn [firstn]. rewrite app_nil_r. rewrite firstn_all2; [reflexivity|]. rewrite repeat_length. lia.
            - rewrite Nat.add_comm, <- skipn_skipn_add, Z1e. destruct n1 as [|k]; [lia|]. replace (S k - 1)%nat with k by lia.
              cbn [repeat]. rewrite repeat_cons, skipn_app, repeat_length, Nat.sub_diag. cbn [skipn]. rewrite skipn_all2 by (rewrite repeat_length; lia). reflexivity. }
          split; [exact F1|]. split; [rewrite F2; apply colons_zero|]. split; [easy|].
          unfold pad_right. rewrite app_nil_r, rev_app_distr. cbn [rev app]. now rewrite <- app_assoc.
      - exists n1, (y :: b). split; [exact N1|]. split; [exact Z1|]. split; [rewrite E1; exact CB|]. split; [easy|].
        apply pad_right_other. left. rewrite hd_rev_last. replace (a1 ++ [58; 58] ++ y :: b) with ((a1 ++ [58; 58]) ++ y :: b) by now rewrite <- app_assoc.
        rewrite last_app_r by easy. now destruct (colons_ends _ _ CB). }
    rewrite P2. split.
    + split; [exact L|]. right. exists z1, n2, a1, b2. repeat (split; auto).
    + destruct (colons_ends _ _ C1) as [H1 _]. destruct (colons_ends _ _ C2) as [_ H2]. split.
      * intros E. destruct a1 as [|x a1]; [easy|]. cbn [app firstn hd] in *. inversion E. congruence.
      * intros t E. apply (f_equal (fun s => last s 0)) in E. replace (a1 ++ [58; 58] ++ b2) with ((a1 ++ [58; 58]) ++ b2) in E by now rewrite <- app_assoc.
        rewrite last_app_r in E by exact NE2. replace (t ++ [58; 58]) with ((t ++ [58]) ++ [58]) in E by now rewrite <- app_assoc.
        rewrite last_last in E. now apply H2.
Qed.
Lemma colons_chars s g : colons s g -> Forall (fun c => hexc c \/ c = 58) s.
Proof.
  intros (w & W & ->). apply hex_words in W. induction W as [|x w [_ X] W IH]; [constructor|].
  assert (Forall (fun c => hexc c \/ c = 58) x) as X' by (eapply Forall_impl; [|exact X]; tauto).
  destruct w; [exact X'|]. rewrite join_cons by easy. apply Forall_app. split; [exact X'|]. constructor; [now right|exact IH].
Qed.
Lemma text_chars s g : ipv6_text s g -> ~ In 47 s /\ In 58 s.
Proof.
  intros [L [C|(z & n & a & b & _ & _ & CA & CB & ->)]].
  - split.
    + intros I. pose proof (colons_chars s g C) as F. rewrite Forall_forall in F. specialize (F 47 I). unfold hexc in F. lia.
    + destruct C as (w & W & ->). destruct W as [|x g0 w g' X W]; [discriminate|]. destruct W as [|y g1 w g' Y W]; [discriminate|].
      rewrite join_cons by easy. apply in_or_app. right. now left.
  - apply colons_chars in CA. apply colons_chars in CB. rewrite Forall_forall in *. split.
    + intros I. rewrite !in_app_iff in I. destruct I as [I|[I|I]].
      * specialize (CA 47 I). unfold hexc in CA. lia.
      * cbn in I. lia.
      * specialize (CB 47 I). unfold hexc in CB. lia.
    + rewrite !in_app_iff. right. left. now left.
Qed.
Lemma dotted_chars p : bytes_ok p -> Forall (fun c => 48 <= c <= 57 \/ c = 46) (join_with 46 (map dec p)).
Proof.
  intros B. induction p as [|a p IH]; [constructor|]. apply bytes_ok_cons in B as [A B]. unfold byte_ok in A.
  assert (Forall (fun c => 48 <= c <= 57 \/ c = 46) (dec a)) as D.
  { apply Forall_forall. intros c C. destruct (Z_le_dec 48 c) as [H|H]; [destruct (Z_le_dec c 57) as [H'|H']; [left; lia|]|];
    exfalso; apply (dec_not_in a c); auto; lia. }
  cbn [map]. destruct p as [|b p]; [exact D|]. rewrite join_cons by easy. apply Forall_app. split; [exact D|].
  constructor; [now right|]. now apply IH.
Qed.
Lemma full_platform : platform full_pton shim_ntop.
Proof.
  intros v6 p B L. destruct v6; cbn [size_of] in L; unfold shim_ntop, full_pton.
  - destruct (ntop6_canonical p B L) as (s & E & C). exists s. split; [exact E|].
    destruct (groups_ok p B L) as (G & _ & R & U). split.
    + destruct (pad_text s _ C) as [T D]. unfold full_pton6. rewrite <- G in T. rewrite (pton6_text _ _ T R D). now rewrite U.
    + apply canonical_text, text_chars in C as [C1 C2]. split; [exact C1|]. tauto.
  - destruct (ntop4_ok p L) as [E T]. exists (join_with 46 (map dec p)). split; [exact E|]. split; [now apply pton4_text|].
    pose proof (dotted_chars p B) as F. rewrite Forall_forall in F. split.
    + intros I. specialize (F 47 I). lia.
    + split; [|discriminate]. intros I. specialize (F 58 I). lia.
Qed.

(* ---- statements used in PropertiesInet.v ---- *)
Lemma ntop4_round_trip p : bytes_ok p -> len p = 4 -> exists s, ntop4 p = Ok s /\ ipv4_text s p /\ pton4 s = Ok p.
Proof. intros B L. destruct (ntop4_ok p L) as [E T]. eexists. split; [exact E|]. split; [exact T|]. now apply pton4_text. Qed.
Lemma shim_ntop_inj v6 p q : bytes_ok p -> bytes_ok q -> len p = size_of v6 -> len q = size_of v6 -> shim_ntop v6 p = shim_ntop v6 q -> p = q.
Proof.
  intros Bp Bq Lp Lq E. destruct v6; [now apply ntop6_inj|]. cbn [shim_ntop size_of] in *.
  destruct (ntop4_round_trip p Bp Lp) as (s & E1 & _ & R1). destruct (ntop4_round_trip q Bq Lq) as (t & E2 & _ & R2). congruence.
Qed.
Lemma inner_double_dec s : inner_double s \/ (firstn 2 s = [58; 58] \/ exists t, s = t ++ [58; 58]).
Proof.
  destruct (list_eq_dec Z.eq_dec (firstn 2 s) [58; 58]) as [E|E]; [right; now left|].
  destruct (list_eq_dec Z.eq_dec (firstn 2 (rev s)) [58; 58]) as [F|F].
  - right. right. exists (rev (skipn 2 (rev s))). rewrite <- (rev_involutive s) at 1.
    rewrite <- (firstn_skipn 2 (rev s)) at 1. rewrite F, rev_app_distr. reflexivity.
  - left. split; [exact E|]. intros t ->. apply F. rewrite rev_app_distr. reflexivity.
Qed.
Lemma ntop6_round_trip p : bytes_ok p -> len p = 16 ->
  exists s, ntop6 p = Ok s /\ ipv6_canonical s (groups_of p)
    /\ (inner_double s -> pton6 s = Ok p) /\ (~ inner_double s -> pton6 s = Err ValueError).
Proof.
  intros B L. destruct (ntop6_canonical p B L) as (s & E & C). destruct (groups_ok p B L) as (G & _ & R & U).
  exists s. split; [exact E|]. split; [exact C|]. apply canonical_text in C. rewrite <- G in C. split.
  - intros D. rewrite (pton6_text s _ C R D). now rewrite U.
  - intros D. destruct (inner_double_dec s) as [D'|D']; [now exfalso|]. now apply (pton6_edge s _ C R).
Qed.
Lemma shim_pton_range v6 s p : shim_pton v6 s = Ok p -> bytes_ok p /\ len p = size_of v6.
Proof. destruct v6; [apply pton6_range|apply pton4_range]. Qed.
Lemma ip_native_odd (ntop : bool -> bytes -> res text) v6 a m s o k : len a = size_of v6 -> len m = size_of v6 -> ntop v6 a = Ok s ->
  0 <= o -> 0 <= k -> be_value m = (2 * o + 1) * 2 ^ k ->
  ip_native ntop (a ++ m) = Ok (Some (s ++ 47 :: dec (Z.log2 (2 * o + 1) + 1))).
Proof. intros. rewrite (ip_native_mask ntop v6 a m s) by assumption. now rewrite H4, span_odd. Qed.
Lemma shim_set_errors value e : ip_set shim_pton value = Err e -> e = ValueError \/ e = StructError.
Proof.
  intros H. destruct (ip_set_errors shim_pton value e H) as [K|(v6 & addr & K & _)]; [now left|]. destruct v6; [now apply pton6_errors in K|].
  left. now apply pton4_errors in K.
Qed.
