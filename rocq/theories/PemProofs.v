Require Import Verif.Base Verif.BaseFacts Verif.Text Verif.PemModel Verif.PemSpec.

(* ---- base64 ---- *)
Lemma b64_value_char n : 0 <= n < 64 -> b64_value (b64_char n) = Some n /\ b64_char n <> 61.
Proof.
  intros H. unfold b64_value, b64_char.
  destruct (n <? 26) eqn:A; [|destruct (n <? 52) eqn:B; [|destruct (n <? 62) eqn:C; [|destruct (n =? 62) eqn:D]]];
  repeat match goal with |- context [if ?b then _ else _] => destruct b eqn:? end; split; try (f_equal; lia); try lia.
Qed.

Lemma b64_step0 n p s : 0 <= n < 64 -> b64decode_loop 0 0 p (b64_char n :: s) = b64decode_loop 1 n 0 s.
Proof.
  intros H. destruct (b64_value_char n H) as [E N]. cbn [b64decode_loop].
  destruct (b64_char n =? 61) eqn:X; [lia|]. rewrite E. reflexivity.
Qed.
Lemma b64_step1 n l p s : 0 <= n < 64 ->
  b64decode_loop 1 l p (b64_char n :: s) = do x <- b64decode_loop 2 (n mod 16) 0 s; Ok (l * 4 + n / 16 :: x).
Proof.
  intros H. destruct (b64_value_char n H) as [E N]. cbn [b64decode_loop].
  destruct (b64_char n =? 61) eqn:X; [lia|]. rewrite E. reflexivity.
Qed.
Lemma b64_step2 n l p s : 0 <= n < 64 ->
  b64decode_loop 2 l p (b64_char n :: s) = do x <- b64decode_loop 3 (n mod 4) 0 s; Ok (l * 16 + n / 4 :: x).
Proof.
  intros H. destruct (b64_value_char n H) as [E N]. cbn [b64decode_loop].
  destruct (b64_char n =? 61) eqn:X; [lia|]. rewrite E. reflexivity.
Qed.
Lemma b64_step3 n l p s : 0 <= n < 64 ->
  b64decode_loop 3 l p (b64_char n :: s) = do x <- b64decode_loop 0 0 0 s; Ok (l * 64 + n :: x).
Proof.
  intros H. destruct (b64_value_char n H) as [E N]. cbn [b64decode_loop].
  destruct (b64_char n =? 61) eqn:X; [lia|]. rewrite E. reflexivity.
Qed.

Lemma b64_pad2 l : b64decode_loop 2 l 0 [61; 61] = Ok []. Proof. reflexivity. Qed.
Lemma b64_pad1 l : b64decode_loop 3 l 0 [61] = Ok []. Proof. reflexivity. Qed.
Lemma b64_roundtrip l : bytes_ok l -> b64decode (b64encode l) = Ok l.
Proof.
  unfold b64decode. remember (length l) as n eqn:E. assert (length l <= n)%nat as L by lia. clear E. revert l L.
  induction n as [|n IH]; intros l L H.
  { destruct l; [reflexivity|cbn in L; lia]. }
  destruct l as [|a [|b [|c r]]].
  - reflexivity.
  - apply bytes_ok_cons in H as [A _]. unfold byte_ok in A. cbn [b64encode].
    rewrite b64_step0, b64_step1, b64_pad2 by lia. cbn [bind]. do 2 f_equal. lia.
  - apply bytes_ok_cons in H as [A H]. apply bytes_ok_cons in H as [B _]. unfold byte_ok in A, B. cbn [b64encode].
    rewrite b64_step0, b64_step1, b64_step2, b64_pad1 by lia. cbn [bind]. do 2 f_equal; [lia|]. f_equal. lia.
  - apply bytes_ok_cons in H as [A H]. apply bytes_ok_cons in H as [B H]. apply bytes_ok_cons in H as [C H].
    unfold byte_ok in A, B, C. cbn [b64encode].
    rewrite b64_step0 by lia. rewrite b64_step1 by lia. rewrite b64_step2 by lia. rewrite b64_step3 by lia.
    rewrite IH by (auto; cbn in L; lia). cbn [bind]. do 2 f_equal; [lia|]. f_equal; [lia|]. f_equal. lia.
Qed.

(* characters of base64 text *)
Definition b64c (c : Z) : Prop := 65 <= c <= 90 \/ 97 <= c <= 122 \/ 47 <= c <= 57 \/ c = 43 \/ c = 61.
Lemma b64_char_ok n : 0 <= n < 64 -> b64c (b64_char n).
Proof.
  intros H. unfold b64_char, b64c.
  repeat match goal with |- context [if ?b then _ else _] => destruct b eqn:? end; lia.
Qed.
Lemma b64encode_chars l : bytes_ok l -> Forall b64c (b64encode l).
Proof.
  remember (length l) as n eqn:E. assert (length l <= n)%nat as L by lia. clear E. revert l L.
  assert (b64c 61) as P by (unfold b64c; lia).
  induction n as [|n IH]; intros l L H.
  { destruct l; [constructor|cbn in L; lia]. }
  destruct l as [|a [|b [|c r]]]; cbn [b64encode]; repeat (rewrite bytes_ok_cons in H); unfold byte_ok in H.
  - constructor.
  - repeat (apply Forall_cons; [first [exact P | apply b64_char_ok; lia]|]). constructor.
  - repeat (apply Forall_cons; [first [exact P | apply b64_char_ok; lia]|]). constructor.
  - destruct H as (A & B & C & H).
    repeat (apply Forall_cons; [apply b64_char_ok; lia|]). apply IH; [cbn in L; lia|exact H].
Qed.

(* ---- the wrapped body ---- *)
Fixpoint chunks64 (fuel : nat) (s : bytes) : list bytes :=
  match fuel with
  | O => []
  | S n => match s with [] => [] | _ => firstn 64 s :: chunks64 n (skipn 64 s) end
  end.
Definition unlines (ls : list bytes) : bytes := concat (map (fun l => l ++ [10]) ls).

Lemma wrap_chunks fuel s i : 0 <= i -> wrap_loop fuel s i = unlines (chunks64 fuel (skipn (Z.to_nat i) s)).
Proof.
  revert i. induction fuel as [|n IH]; intros i I; [reflexivity|]. cbn [wrap_loop chunks64].
  destruct (skipn (Z.to_nat i) s) as [|x r] eqn:E.
  - assert (len s <= i). { assert (length (skipn (Z.to_nat i) s) = 0%nat) as X by now rewrite E.
      rewrite skipn_length in X. unfold len. lia. }
    destruct (i <? len s) eqn:Y; [lia|reflexivity].
  - assert (i < len s). { assert (length (skipn (Z.to_nat i) s) = S (length r)) as X by now rewrite E.
      rewrite skipn_length in X. unfold len. lia. }
    destruct (i <? len s) eqn:Y; [|lia]. rewrite IH by lia. unfold slice, unlines.
    replace (Z.to_nat (i + 64 - i)) with 64%nat by lia. rewrite E.
    replace (Z.to_nat (i + 64)) with (64 + Z.to_nat i)%nat by lia.
    rewrite <- skipn_skipn_add, E. cbn [map concat]. now rewrite <- app_assoc.
Qed.
Lemma chunks_concat fuel s : (length s <= fuel)%nat -> concat (chunks64 fuel s) = s.
Proof.
  revert s. induction fuel as [|n IH]; intros s H.
  { destruct s; [reflexivity|cbn in H; lia]. }
  destruct s as [|x r]; [reflexivity|]. cbn [chunks64 concat].
  rewrite IH by (rewrite skipn_length; cbn [length] in *; lia). apply firstn_skipn.
Qed.
Lemma chunks_in fuel s w : In w (chunks64 fuel s) -> w <> [] /\ (length w <= 64)%nat /\ incl w s.
Proof.
  revert s. induction fuel as [|n IH]; intros s H; [destruct H|].
  destruct s as [|x r]; [destruct H|]. cbn [chunks64] in H. destruct H as [<-|H].
  - split; [discriminate|]. split.
    + rewrite firstn_length. lia.
    + intros y Y. rewrite <- (firstn_skipn 64 (x :: r)). apply in_or_app. now left.
  - apply IH in H as (A & B & C). split; [exact A|]. split; [exact B|].
    intros y Y. apply C in Y. rewrite <- (firstn_skipn 64 (x :: r)). apply in_or_app. now right.
Qed.
Lemma unlines_app a b : unlines (a ++ b) = unlines a ++ unlines b.
Proof. unfold unlines. now rewrite map_app, concat_app. Qed.
Lemma unlines_cons w l : unlines (w :: l) = w ++ 10 :: unlines l.
Proof. unfold unlines. cbn. now rewrite <- app_assoc. Qed.

(* ---- splitlines, and the lines that are not empty ---- *)
Definition fullp (l : bytes) : bool := match l with [] => false | _ => true end.
Definition flines (s : bytes) : list bytes := filter fullp (splitlines s).

Lemma splitlines_ne c s : splitlines (c :: s) <> [].
Proof. cbn. destruct (c =? 10); [discriminate|]. destruct (c =? 13); [destruct s as [|d r]; [discriminate|destruct (d =? 10); discriminate]|].
  destruct (splitlines s); discriminate. Qed.

Lemma eol_dec c : {eol c} + {~ eol c}.
Proof. unfold eol. destruct (Z.eq_dec c 10), (Z.eq_dec c 13); [left|left|left|right]; tauto. Qed.

(* splitlines with CRLF taken as one end or as two gives the same full lines *)
Fixpoint slines (s : bytes) : list bytes :=
  match s with
  | [] => [[]]
  | c :: r => if eol_dec c then [] :: slines r
              else match slines r with [] => [[c]] | w :: ws => (c :: w) :: ws end
  end.
Lemma slines_ne s : slines s <> [].
Proof. destruct s as [|c s]; [discriminate|]. cbn. destruct (eol_dec c); [discriminate|]. destruct (slines s); discriminate. Qed.
Lemma splitlines_slines s :
  filter fullp (splitlines s) = filter fullp (slines s)
  /\ (s <> [] -> hd [] (splitlines s) = hd [] (slines s)).
Proof.
  remember (length s) as n eqn:E. assert (length s <= n)%nat as L by lia. clear E. revert s L.
  induction n as [|n IH]; intros s L.
  { destruct s; [split; [reflexivity|congruence]|cbn in L; lia]. }
  destruct s as [|c s]; [split; [reflexivity|congruence]|]. cbn [length] in L. cbn [splitlines slines].
  destruct (c =? 10) eqn:A.
  { destruct (eol_dec c) as [_|N]; [|unfold eol in N; lia]. cbn. split; [|reflexivity]. apply IH. lia. }
  destruct (c =? 13) eqn:B.
  { destruct (eol_dec c) as [_|N]; [|unfold eol in N; lia]. destruct s as [|d r].
    - split; reflexivity.
    - destruct (d =? 10) eqn:D; cbn [filter fullp hd]; (split; [|reflexivity]).
      + cbn [slines]. destruct (eol_dec d) as [_|N]; [|unfold eol in N; lia]. cbn [filter fullp]. apply IH. cbn in L; lia.
      + apply IH. lia. }
  destruct (eol_dec c) as [N|_]; [unfold eol in N; lia|].
  destruct s as [|d r]; [split; reflexivity|].
  destruct (IH (d :: r)) as [F H]; [cbn in *; lia|]. specialize (H ltac:(discriminate)).
  destruct (splitlines (d :: r)) as [|w ws] eqn:X; [now apply splitlines_ne in X|].
  destruct (slines (d :: r)) as [|w' ws'] eqn:Y; [now apply slines_ne in Y|].
  cbn [hd] in H. subst w'. cbn [filter fullp hd] in *. split; [|reflexivity]. f_equal.
  destruct w; cbn [fullp] in F; [exact F|now inversion F].
Qed.
Lemma flines_slines s : flines s = filter fullp (slines s).
Proof. apply splitlines_slines. Qed.

Definition no_eol (w : bytes) : Prop := Forall (fun c => ~ eol c) w.
Lemma slines_app w s : no_eol w -> slines (w ++ s) = match slines s with [] => [w] | x :: xs => (w ++ x) :: xs end.
Proof.
  intros H. induction H as [|c w N H IH]; cbn [app slines].
  - destruct (slines s) eqn:E; [now apply slines_ne in E|reflexivity].
  - destruct (eol_dec c); [tauto|]. rewrite IH. destruct (slines s) eqn:E; [now apply slines_ne in E|reflexivity].
Qed.
Lemma flines_line w c s : no_eol w -> w <> [] -> eol c -> flines (w ++ c :: s) = w :: flines s.
Proof.
  intros H N E. rewrite !flines_slines, slines_app by exact H. cbn [slines].
  destruct (eol_dec c) as [_|X]; [|tauto]. rewrite app_nil_r. destruct w; [congruence|reflexivity].
Qed.
Lemma flines_eol c s : eol c -> flines (c :: s) = flines s.
Proof. intros E. rewrite !flines_slines. cbn [slines]. destruct (eol_dec c); [reflexivity|tauto]. Qed.
Lemma flines_last w : no_eol w -> w <> [] -> flines w = [w].
Proof.
  intros H N. rewrite flines_slines. rewrite <- (app_nil_r w) at 1. rewrite slines_app by exact H. cbn.
  rewrite app_nil_r. destruct w; [congruence|reflexivity].
Qed.
Lemma flines_of s : lines_of s (flines s).
Proof.
  rewrite flines_slines.
  assert (forall s, match slines s with
                    | [] => True
                    | w :: ws => exists r, s = w ++ r /\ no_eol w /\ lines_of r (filter fullp ws)
                                 /\ (r = [] \/ exists c q, r = c :: q /\ eol c)
                    end) as G.
  { intros t. induction t as [|c t IH]; cbn [slines].
    - exists []. repeat split; [constructor|constructor|now left].
    - destruct (eol_dec c) as [E|E].
      + exists (c :: t). repeat split; [constructor| |right; eauto]. apply lo_eol; [exact E|].
        destruct (slines t) as [|w ws] eqn:X; [now apply slines_ne in X|].
        destruct IH as (r & -> & N & L & B). cbn [filter]. destruct w as [|x w]; cbn [fullp]; [exact L|].
        destruct B as [->|(c' & q & -> & E')].
        * assert (filter fullp ws = []) as ->.
          { inversion L; [reflexivity| |]; subst; try congruence. exfalso. match goal with H : _ ++ _ :: _ = [] |- _ => now apply app_eq_nil in H end. }
          rewrite app_nil_r. apply lo_last; [discriminate|exact N].
        * inversion L; subst.
          -- apply lo_line; [discriminate|exact N|exact E'|assumption].
          -- exfalso. match goal with H : Forall _ (c' :: q) |- _ => inversion H; tauto end.
          -- exfalso. match goal with H : ?w ++ _ = c' :: q, K : ?w <> [], M : Forall _ ?w |- _ =>
               destruct w; [congruence|inversion H; subst; inversion M; tauto] end.
      + destruct (slines t) as [|w ws] eqn:X; [now apply slines_ne in X|].
        destruct IH as (r & -> & N & L & B). exists r. repeat split; [constructor; assumption|exact L|exact B]. }
  specialize (G s). destruct (slines s) as [|w ws] eqn:X; [now apply slines_ne in X|].
  destruct G as (r & -> & N & L & B). cbn [filter]. destruct w as [|x w]; cbn [fullp]; [exact L|].
  destruct B as [->|(c' & q & -> & E')].
  - assert (filter fullp ws = []) as ->.
    { inversion L; [reflexivity| |]; subst; try congruence. exfalso. match goal with H : _ ++ _ :: _ = [] |- _ => now apply app_eq_nil in H end. }
    rewrite app_nil_r. apply lo_last; [discriminate|exact N].
  - inversion L; subst.
    + apply lo_line; [discriminate|exact N|exact E'|assumption].
    + exfalso. match goal with H : Forall _ (c' :: q) |- _ => inversion H; tauto end.
    + exfalso. match goal with H : ?w ++ _ = c' :: q, K : ?w <> [], M : Forall _ ?w |- _ =>
        destruct w; [congruence|inversion H; subst; inversion M; tauto] end.
Qed.
Lemma lines_unique s ls : lines_of s ls -> ls = flines s.
Proof.
  intros H. induction H as [|c r ls E H IH|w N H|w c r ls N H E L IH].
  - reflexivity.
  - now rewrite flines_eol.
  - now rewrite flines_last.
  - rewrite flines_line by assumption. now f_equal.
Qed.
Lemma flines_end a b : line_end a -> flines (a ++ b) = flines a ++ flines b.
Proof.
  intros [->|(r & c & -> & E)]; [reflexivity|]. rewrite <- app_assoc. cbn [app]. rewrite !flines_slines.
  induction r as [|d r IH]; cbn [app slines].
  - destruct (eol_dec c); [reflexivity|tauto].
  - destruct (eol_dec d); [exact IH|].
    destruct (slines (r ++ c :: b)) as [|w ws] eqn:X; [now apply slines_ne in X|].
    destruct (slines (r ++ [c])) as [|w' ws'] eqn:Y; [now apply slines_ne in Y|].
    assert (w = w' /\ filter fullp ws = filter fullp ws' ++ filter fullp (slines b)) as [-> Q].
    { clear IH. revert w ws w' ws' X Y. induction r as [|x r IH]; cbn [app slines]; intros w ws w' ws' X Y.
      - destruct (eol_dec c); [|tauto]. inversion X; inversion Y; subst. split; reflexivity.
      - destruct (eol_dec x).
        + inversion X; inversion Y; subst. split; [reflexivity|].
          destruct (slines (r ++ c :: b)) as [|u us] eqn:U; [now apply slines_ne in U|].
          destruct (slines (r ++ [c])) as [|u' us'] eqn:U'; [now apply slines_ne in U'|].
          destruct (IH _ _ _ _ eq_refl eq_refl) as [-> Q]. cbn [filter]. destruct (fullp u'); [cbn; now f_equal|exact Q].
        + destruct (slines (r ++ c :: b)) as [|u us] eqn:U; [now apply slines_ne in U|].
          destruct (slines (r ++ [c])) as [|u' us'] eqn:U'; [now apply slines_ne in U'|].
          destruct (IH _ _ _ _ eq_refl eq_refl) as [-> Q]. inversion X; inversion Y; subst. split; [reflexivity|exact Q]. }
    cbn [filter fullp app]. now rewrite Q.
Qed.
Lemma loop_full st a b ls : unarmor_loop st a b (filter fullp ls) = unarmor_loop st a b ls.
Proof.
  revert st a b. induction ls as [|l ls IH]; intros st a b; [reflexivity|].
  destruct l as [|x l]; [exact (IH st a b)|]. cbn [filter fullp].
  cbn [unarmor_loop].
  assert (forall ty hs b64,
    (if starts_with (tx "-----") (x :: l) || starts_with (tx "---- ") (x :: l) then
       match b64decode b64 with
       | Ok der => let '(bs, e) := unarmor_loop Trash a true (filter fullp ls) in (Block ty hs der :: bs, e)
       | Err e => ([], Some e) end
     else unarmor_loop (Body ty hs (b64 ++ x :: l)) a b (filter fullp ls)) =
    (if starts_with (tx "-----") (x :: l) || starts_with (tx "---- ") (x :: l) then
       match b64decode b64 with
       | Ok der => let '(bs, e) := unarmor_loop Trash a true ls in (Block ty hs der :: bs, e)
       | Err e => ([], Some e) end
     else unarmor_loop (Body ty hs (b64 ++ x :: l)) a b ls)) as B.
  { intros ty hs b64. now rewrite !IH. }
  destruct st; rewrite ?B, ?IH; [destruct (match_begin (x :: l)); now rewrite ?IH| |reflexivity].
  destruct (contains [58] (x :: l)); [|reflexivity]. destruct (ascii_codec (x :: l)); [|reflexivity].
  destruct (split_colon a0). apply IH.
Qed.

(* ---- the lines of an armored block ---- *)
Lemma flines_unlines ls s : Forall (fun w => no_eol w /\ w <> []) ls -> flines (unlines ls ++ s) = ls ++ flines s.
Proof.
  intros H. induction H as [|w ls [N E] H IH]; [reflexivity|].
  rewrite unlines_cons, <- app_assoc. cbn [app]. rewrite flines_line by (try assumption; now left). now rewrite IH.
Qed.
Definition begin_line (l : text) : bytes := tx "-----BEGIN " ++ l ++ tx "-----".
Definition end_line (l : text) : bytes := tx "-----END " ++ l ++ tx "-----".
Definition header_line (h : text * text) : bytes := fst h ++ tx ": " ++ snd h.
Definition body_lines (der : bytes) : list bytes := chunks64 (S (length (b64encode der))) (b64encode der).
Definition block_lines (l : text) (hs : list (text * text)) (der : bytes) : list bytes :=
  [begin_line l] ++ map header_line hs ++ body_lines der ++ [end_line l].

Lemma upper_label l : Forall (fun c => 65 <= c <= 90 \/ 48 <= c <= 57 \/ c = 32) l -> upper l = l.
Proof.
  intros H. unfold upper. induction H as [|c l C H IH]; [reflexivity|]. cbn [map concat]. rewrite IH. unfold upper1.
  repeat match goal with |- context [if ?b then _ else _] => destruct b eqn:? end; try lia. reflexivity.
Qed.
Lemma ascii_ok s : Forall (fun c => 0 <= c < 128) s -> ascii_codec s = Ok s.
Proof.
  intros H. unfold ascii_codec.
  assert (forallb (fun c => (0 <=? c) && (c <? 128)) s = true) as ->; [|reflexivity].
  apply forallb_forall. intros x X. rewrite Forall_forall in H. specialize (H x X). lia.
Qed.
Lemma header_ascii h : header_ok h -> Forall (fun c => 0 <= c < 128) (fst h) /\ Forall (fun c => 0 <= c < 128) (snd h).
Proof. intros (A & B & _). split; eapply Forall_impl; eauto; cbn; tauto. Qed.
Lemma armor_headers_ok hs : Forall header_ok hs -> armor_headers hs = Ok (unlines (map header_line hs)).
Proof.
  intros H. induction H as [|[k v] hs K H IH]; [reflexivity|]. cbn [armor_headers map]. destruct (header_ascii _ K) as [A B].
  rewrite (ascii_ok k A). cbn [bind]. rewrite (ascii_ok v B). cbn [bind]. rewrite IH. cbn [bind]. f_equal.
  rewrite unlines_cons. unfold header_line. cbn [fst snd]. now rewrite <- !app_assoc.
Qed.

Definition armored (l : text) (hs : list (text * text)) (der : bytes) : bytes :=
  unlines [begin_line l] ++ unlines (map header_line hs) ++ (match hs with [] => [] | _ => [10] end)
  ++ unlines (body_lines der) ++ unlines [end_line l].

Lemma armor_ok l hs der : label_ok l -> headers_ok hs -> armor l der hs = Ok (armored l hs der).
Proof.
  intros [L1 L2] [H _]. unfold armor. rewrite upper_label by exact L2.
  rewrite ascii_ok by (eapply Forall_impl; [|exact L2]; cbn; lia). cbn [bind]. rewrite armor_headers_ok by exact H. cbn [bind]. f_equal.
  rewrite wrap_chunks by lia. change (skipn (Z.to_nat 0) (b64encode der)) with (b64encode der). fold (body_lines der).
  unfold armored. rewrite !unlines_cons. unfold begin_line, end_line. change (unlines []) with (@nil Z).
  destruct hs as [|h hs]; [cbn [map]; change (unlines []) with (@nil Z)|]; rewrite <- !app_assoc; cbn [app]; reflexivity.
Qed.
Lemma line_end_armored l hs der : line_end (armored l hs der).
Proof.
  right. exists (unlines [begin_line l] ++ unlines (map header_line hs) ++ (match hs with [] => [] | _ => [10] end)
   ++ unlines (body_lines der) ++ end_line l), 10. split; [|now left]. unfold armored. rewrite <- !app_assoc. do 4 f_equal.
  rewrite unlines_cons. reflexivity.
Qed.

Lemma body_line_in der w : bytes_ok der -> In w (body_lines der) -> w <> [] /\ Forall b64c w.
Proof.
  intros B H. apply chunks_in in H as (N & _ & I). split; [exact N|]. apply Forall_forall. intros c C. apply I in C.
  pose proof (b64encode_chars der B) as G. rewrite Forall_forall in G. auto.
Qed.
Lemma label_no_eol l : label_ok l -> no_eol l.
Proof. intros [_ H]. eapply Forall_impl; [|exact H]. cbn. unfold eol. lia. Qed.
Lemma no_eol_app a b : no_eol a -> no_eol b -> no_eol (a ++ b).
Proof. intros. apply Forall_app. now split. Qed.
Lemma no_eol_lit a : forallb (fun c => negb ((c =? 10) || (c =? 13))) a = true -> no_eol a.
Proof. intros H. apply Forall_forall. intros c C. rewrite forallb_forall in H. specialize (H c C). unfold eol. lia. Qed.

Lemma block_lines_full l hs der : label_ok l -> headers_ok hs -> bytes_ok der ->
  Forall (fun w => no_eol w /\ w <> []) [begin_line l]
  /\ Forall (fun w => no_eol w /\ w <> []) (map header_line hs)
  /\ Forall (fun w => no_eol w /\ w <> []) (body_lines der)
  /\ Forall (fun w => no_eol w /\ w <> []) [end_line l].
Proof.
  intros L [H _] B. pose proof (label_no_eol l L) as N. repeat split.
  - constructor; [|constructor]. split; [|discriminate]. apply no_eol_app; [now apply no_eol_lit|]. apply no_eol_app; [exact N|]. now apply no_eol_lit.
  - apply Forall_forall. intros w W. apply in_map_iff in W as ([k v] & <- & W). rewrite Forall_forall in H.
    specialize (H _ W) as (A & C & _). unfold header_line. cbn [fst snd] in *. split.
    + apply no_eol_app; [eapply Forall_impl; [|exact A]; cbn; tauto|]. apply no_eol_app; [now apply no_eol_lit|].
      eapply Forall_impl; [|exact C]. cbn. tauto.
    + destruct k; discriminate.
  - apply Forall_forall. intros w W. apply body_line_in in W as [W1 W2]; [|exact B]. split; [|exact W1].
    eapply Forall_impl; [|exact W2]. cbn. unfold b64c, eol. lia.
  - constructor; [|constructor]. split; [|discriminate]. apply no_eol_app; [now apply no_eol_lit|]. apply no_eol_app; [exact N|]. now apply no_eol_lit.
Qed.
Lemma flines_armored l hs der s : label_ok l -> headers_ok hs -> bytes_ok der ->
  flines (armored l hs der ++ s) = block_lines l hs der ++ flines s.
Proof.
  intros L H B. destruct (block_lines_full l hs der L H B) as (F1 & F2 & F3 & F4).
  unfold armored, block_lines. rewrite <- !app_assoc. rewrite flines_unlines by exact F1. f_equal.
  rewrite flines_unlines by exact F2. f_equal.
  assert (forall t, flines ((match hs with [] => [] | _ => [10] end) ++ t) = flines t) as ->.
  { intros t. destruct hs; [reflexivity|]. cbn [app]. apply flines_eol. now left. }
  rewrite flines_unlines by exact F3. f_equal. apply flines_unlines. exact F4.
Qed.

(* ---- the loop over such lines ---- *)
Lemma starts_app p s : starts_with p (p ++ s) = true.
Proof. induction p as [|x p IH]; [reflexivity|]. cbn. rewrite IH. lia. Qed.
Lemma starts_spec p s : starts_with p s = true <-> exists r, s = p ++ r.
Proof.
  split.
  - revert s. induction p as [|x p IH]; intros s H; [now exists s|]. destruct s as [|y s]; [discriminate|]. cbn in H.
    apply andb_prop in H as [E H]. apply IH in H as [r ->]. exists r. cbn. f_equal. lia.
  - intros [r ->]. apply starts_app.
Qed.
Lemma span_label_run l s : Forall (fun c => 65 <= c <= 90 \/ 48 <= c <= 57 \/ c = 32) l ->
  match s with [] => True | c :: _ => label_char c = false end -> span_label (l ++ s) = (l, s).
Proof.
  intros H S. induction H as [|c l C H IH]; cbn [app].
  - destruct s; [reflexivity|]. cbn. now rewrite S.
  - cbn [span_label]. rewrite IH. unfold label_char.
    destruct (((65 <=? c) && (c <=? 90)) || ((48 <=? c) && (c <=? 57)) || (c =? 32)) eqn:E; [reflexivity|lia].
Qed.
Lemma match_begin_line l : label_ok l -> match_begin (begin_line l) = Some l.
Proof.
  intros [N L]. unfold match_begin, begin_line. rewrite starts_app.
  change (skipn 11 (tx "-----BEGIN " ++ l ++ tx "-----")) with (l ++ tx "-----").
  rewrite span_label_run by (try exact L; reflexivity). destruct l; [congruence|reflexivity].
Qed.
Lemma contains_colon w : contains [58] w = true <-> In 58 w.
Proof.
  induction w as [|c w IH]; cbn [contains starts_with In]; [split; [discriminate|tauto]|].
  rewrite andb_true_r. split.
  - intros H. apply orb_prop in H as [H|H]; [left; lia|right; now apply IH].
  - intros [->|H]; [reflexivity|]. rewrite (proj2 IH H). apply orb_true_r.
Qed.
Lemma no_colon w : ~ In 58 w -> contains [58] w = false.
Proof. intros H. destruct (contains [58] w) eqn:E; [|reflexivity]. now apply contains_colon in E. Qed.
Lemma split_header k v : ~ In 58 k -> split_colon (k ++ 58 :: v) = (k, v).
Proof.
  induction k as [|c k IH]; intros H; [reflexivity|]. cbn [app split_colon].
  destruct (c =? 58) eqn:E; [exfalso; apply H; left; lia|]. rewrite IH; [reflexivity|]. intros X. apply H. now right.
Qed.
Lemma lstrip_stop p v : (forall c r, v = c :: r -> p c = false) -> lstrip_by p v = v.
Proof. intros H. destruct v as [|c r]; [reflexivity|]. cbn. now rewrite (H c r eq_refl). Qed.
Lemma strip_clean v : ends_clean v -> strip (32 :: v) = v.
Proof.
  intros H. unfold strip. cbn [lstrip_by]. change (is_space 32) with true. cbn match.
  rewrite lstrip_stop by (intros c r E; apply (H c r); now left). unfold rstrip_by.
  rewrite lstrip_stop; [apply rev_involutive|]. intros c r E. apply (H c (rev r)). right.
  rewrite <- (rev_involutive v), E. reflexivity.
Qed.
Lemma header_set_new hs k v : ~ In k (map fst hs) -> header_set hs k v = hs ++ [(k, v)].
Proof.
  induction hs as [|[k' w] hs IH]; intros H; [reflexivity|]. cbn [header_set app].
  destruct (eqb_text k' k) eqn:E.
  - apply eqb_bytes_spec in E. exfalso. apply H. left. exact E.
  - rewrite IH; [reflexivity|]. intros X. apply H. now right.
Qed.
Lemma loop_headers l hs0 hs a b r : Forall header_ok hs -> NoDup (map fst (hs0 ++ hs)) ->
  unarmor_loop (Headers l hs0) a b (map header_line hs ++ r) = unarmor_loop (Headers l (hs0 ++ hs)) a b r.
Proof.
  intros H. revert hs0. induction H as [|[k v] hs K H IH]; intros hs0 N; [now rewrite app_nil_r|].
  cbn [map app]. destruct K as (K1 & K2 & K3). cbn [fst snd] in K1, K2, K3.
  assert (~ In 58 k) as NC. { intros X. rewrite Forall_forall in K1. now destruct (K1 _ X) as (_ & _ & ?). }
  assert (header_line (k, v) = k ++ 58 :: 32 :: v) as E by reflexivity.
  assert (exists x w, k ++ 58 :: 32 :: v = x :: w) as (x & w & XW) by (destruct k; cbn; eauto).
  rewrite E, XW. cbn [unarmor_loop]. rewrite <- XW.
  assert (contains [58] (k ++ 58 :: 32 :: v) = true) as ->. { apply contains_colon. apply in_or_app. right. now left. }
  rewrite ascii_ok.
  2: { apply Forall_app. split; [eapply Forall_impl; [|exact K1]; cbn; tauto|]. do 2 (constructor; [lia|]).
       eapply Forall_impl; [|exact K2]; cbn; tauto. }
  rewrite split_header by exact NC. rewrite strip_clean by exact K3.
  rewrite header_set_new.
  - rewrite IH.
    + now rewrite <- app_assoc.
    + rewrite <- app_assoc. exact N.
  - rewrite map_app in N. cbn [map fst] in N. apply NoDup_remove_2 in N. intros X. apply N. apply in_or_app. now left.
Qed.
Definition dashes (w : bytes) : bool := starts_with (tx "-----") w || starts_with (tx "---- ") w.
Lemma b64_line w : w <> [] -> Forall b64c w -> dashes w = false /\ contains [58] w = false.
Proof.
  intros N H. split.
  - destruct w as [|c w]; [congruence|]. inversion H; subst. unfold dashes.
    change (starts_with (tx "-----") (c :: w)) with ((45 =? c) && starts_with (tx "----") w).
    change (starts_with (tx "---- ") (c :: w)) with ((45 =? c) && starts_with (tx "--- ") w).
    destruct (45 =? c) eqn:E; [unfold b64c in *; lia|reflexivity].
  - apply no_colon. intros X. rewrite Forall_forall in H. specialize (H _ X). unfold b64c in H. lia.
Qed.
Lemma loop_body_line l hs b64 w a b r : w <> [] -> dashes w = false ->
  unarmor_loop (Body l hs b64) a b (w :: r) = unarmor_loop (Body l hs (b64 ++ w)) a b r.
Proof. intros N D. destruct w as [|c w]; [congruence|]. cbn [unarmor_loop]. unfold dashes in D. now rewrite D. Qed.
Lemma loop_body l hs b64 ws a b r : Forall (fun w => w <> [] /\ Forall b64c w) ws ->
  unarmor_loop (Body l hs b64) a b (ws ++ r) = unarmor_loop (Body l hs (b64 ++ concat ws)) a b r.
Proof.
  intros H. revert b64. induction H as [|w ws [N C] H IH]; intros b64; cbn [concat app]; [now rewrite app_nil_r|].
  destruct (b64_line w N C) as [D _]. rewrite loop_body_line by assumption. rewrite IH. now rewrite app_assoc.
Qed.
(* the first line that is no header starts the body *)
Lemma loop_enter l hs w a b r : w <> [] -> contains [58] w = false ->
  unarmor_loop (Headers l hs) a b (w :: r) = unarmor_loop (Body l hs []) a b (w :: r).
Proof. intros N C. destruct w as [|c w]; [congruence|]. cbn [unarmor_loop]. now rewrite C. Qed.
Lemma loop_end l hs b64 w der a b r : dashes w = true -> b64decode b64 = Ok der ->
  unarmor_loop (Body l hs b64) a b (w :: r) =
  (let '(bs, e) := unarmor_loop Trash a true r in (Block l hs der :: bs, e)).
Proof.
  intros D E. destruct w as [|c w]; [discriminate|]. cbn [unarmor_loop]. unfold dashes in D. rewrite D, E. reflexivity.
Qed.
Lemma loop_block l hs der a b r : label_ok l -> headers_ok hs -> bytes_ok der ->
  unarmor_loop Trash a b (block_lines l hs der ++ r) =
  (let '(bs, e) := unarmor_loop Trash true true r in (Block l hs der :: bs, e)).
Proof.
  intros L [H N] B. unfold block_lines. rewrite <- !app_assoc. cbn [app].
  change (unarmor_loop Trash a b (begin_line l :: ?x)) with
    (match match_begin (begin_line l) with
     | None => unarmor_loop Trash a b x
     | Some ty => unarmor_loop (Headers ty []) true b x end).
  rewrite match_begin_line by exact L. rewrite loop_headers by assumption. cbn [app].
  assert (unarmor_loop (Headers l hs) true b (body_lines der ++ end_line l :: r)
          = unarmor_loop (Body l hs []) true b (body_lines der ++ end_line l :: r)) as ->.
  { destruct (body_lines der) as [|w ws] eqn:E; cbn [app].
    - apply loop_enter; [discriminate|]. apply no_colon. unfold end_line. intros X.
      apply in_app_or in X as [X|X]; [cbn in X; lia|]. apply in_app_or in X as [X|X]; [|cbn in X; lia].
      destruct L as [_ L]. rewrite Forall_forall in L. specialize (L _ X). lia.
    - destruct (body_line_in der w B) as [W1 W2]; [rewrite E; now left|].
      apply loop_enter; [exact W1|]. now apply b64_line. }
  rewrite loop_body. 2: { apply Forall_forall. intros w W. now apply (body_line_in der). }
  cbn [app]. apply loop_end; [reflexivity|].
  unfold body_lines. rewrite chunks_concat by lia. now apply b64_roundtrip.
Qed.
Lemma loop_silent s a b r : Forall (fun l => ~ begin_like l) s ->
  unarmor_loop Trash a b (s ++ r) = unarmor_loop Trash a b r.
Proof.
  intros H. induction H as [|w s N H IH]; [reflexivity|]. cbn [app]. destruct w as [|c w]; [exact IH|].
  cbn [unarmor_loop]. unfold match_begin.
  destruct (starts_with (tx "-----BEGIN ") (c :: w)) eqn:A.
  { apply starts_spec in A as [q A]. exfalso. apply N. exists q. now left. }
  destruct (starts_with (tx "---- BEGIN ") (c :: w)) eqn:B.
  { apply starts_spec in B as [q B]. exfalso. apply N. exists q. now right. }
  exact IH.
Qed.
Lemma unarmor_flines st s : unarmor_loop st false false (splitlines s) = unarmor_loop st false false (flines s).
Proof. symmetry. apply loop_full. Qed.

(* ---- the round trips ---- *)
Lemma detect_armored l hs der : detect (armored l hs der) = true.
Proof. unfold detect, armored. rewrite unlines_cons. unfold begin_line. rewrite <- !app_assoc. reflexivity. Qed.

Lemma loop_bundle bs s : bundle bs s -> forall b,
  unarmor_loop Trash (match bs with [] => b | _ => b end) b (flines s) =
  (bs, match bs with [] => if b then None else Some ValueError | _ => None end).
Proof.
  intros H. induction H as [s Q|j [l hs der] p s bs Q E O A H IH]; intros b.
  - specialize (Q _ (flines_of s)). rewrite <- (app_nil_r (flines s)), loop_silent by exact Q. cbn. now destruct b.
  - destruct O as (O1 & O2 & O3). cbn in O1, O2, O3. unfold armor_block in A. cbn in A. rewrite armor_ok in A by assumption. inversion A; subst p.
    rewrite flines_end by exact E. rewrite loop_silent by (exact (Q _ (flines_of j))).
    rewrite flines_armored by assumption. rewrite loop_block by assumption.
    specialize (IH true). assert (match bs with [] => true | _ :: _ => true end = true) as X by now destruct bs. rewrite X in IH. rewrite IH. destruct bs; reflexivity.
Qed.
Lemma bundle_roundtrip bs s : bs <> [] -> bundle bs s -> unarmor_all s = Ok bs.
Proof.
  intros N H. unfold unarmor_all. rewrite unarmor_flines. pose proof (loop_bundle bs s H false) as L.
  destruct bs; [congruence|]. now rewrite L.
Qed.
Lemma bundle_first b bs s : bundle (b :: bs) s -> unarmor s = Ok b.
Proof.
  intros H. unfold unarmor. rewrite unarmor_flines. pose proof (loop_bundle _ s H false) as L. cbn match in L. now rewrite L.
Qed.
Lemma bundle_none s : silent_text s -> unarmor_all s = Err ValueError /\ unarmor s = Err ValueError.
Proof.
  intros H. unfold unarmor_all, unarmor. rewrite unarmor_flines. pose proof (loop_bundle [] s (bu_end s H) false) as L. cbn in L. now rewrite L.
Qed.
Lemma armor_total l hs der : label_ok l -> headers_ok hs -> exists p, armor l der hs = Ok p.
Proof. intros. eexists. now apply armor_ok. Qed.
Lemma one_block l hs der p : label_ok l -> headers_ok hs -> bytes_ok der -> armor l der hs = Ok p ->
  unarmor p = Ok (Block l hs der) /\ detect p = true.
Proof.
  intros L H B A. split.
  - apply (bundle_first _ []). rewrite <- (app_nil_r p). change (p ++ []) with ([] ++ p ++ []).
    assert (silent_text []) as S. { intros ls X. apply lines_unique in X. subst. constructor. }
    apply bu_block; [exact S|now left|split; [exact L|split; [exact H|exact B]]|exact A|now apply bu_end].
  - rewrite armor_ok in A by assumption. inversion A. apply detect_armored.
Qed.
