Require Import Verif.Base Verif.BaseFacts Verif.Text Verif.IntModel Verif.IntSpec Verif.IntProofs Verif.InetModel Verif.InetSpec.

(* ---- hexadecimal numbers ---- *)
Lemma hex_value_snoc s c : hex_value (s ++ [c]) = hex_value s * 16 + hexv c.
Proof. unfold hex_value. rewrite fold_left_app. reflexivity. Qed.
Lemma hexv_digit d : 0 <= d < 16 -> hexc (hex_digit d) /\ hexv (hex_digit d) = d.
Proof. intros H. unfold hexc, hexv, hex_digit. destruct (d <? 10) eqn:E; split; try lia; destruct (_ <? 58) eqn:F; lia. Qed.
Lemma hex_loop_spec fuel : forall n acc, 0 <= n < 2 ^ Z.of_nat fuel -> (0 < fuel)%nat ->
  exists ds, hex_loop fuel n acc = ds ++ acc /\ Forall hexc ds /\ ds <> [] /\ hex_value ds = n /\
             (n = 0 -> ds = [48]) /\ (0 < n -> hd 0 ds <> 48).
Proof.
  induction fuel as [|f IH]; intros n acc Hn Hf; [lia|]. cbn [hex_loop].
  rewrite Nat2Z.inj_succ, Z.pow_succ_r in Hn by lia.
  destruct (hexv_digit (n mod 16)) as [D1 D2]; [lia|].
  destruct (Z.eqb_spec (n / 16) 0) as [E|E].
  - exists [hex_digit (n mod 16)]. repeat split.
    + constructor; [exact D1|constructor].
    + discriminate.
    + unfold hex_value; cbn [fold_left]. lia.
    + intros ->; reflexivity.
    + cbn [hd]. intros P Q. rewrite Q in D2. change (hexv 48) with 0 in D2. lia.
  - destruct f as [|f'].
    { change (2 ^ Z.of_nat 0) with 1 in Hn. exfalso. lia. }
    destruct (IH (n / 16) (hex_digit (n mod 16) :: acc)) as (ds & E1 & E2 & E3 & E4 & E5 & E6); [lia|lia|].
    rewrite E1. exists (ds ++ [hex_digit (n mod 16)]). repeat split.
    + now rewrite <- app_assoc.
    + apply Forall_app; split; auto.
    + destruct ds; easy.
    + rewrite hex_value_snoc. lia.
    + intros ->. cbn in E. lia.
    + intros. destruct ds; [easy|]. cbn [app hd] in *. apply E6. lia.
Qed.
Lemma hex_ok n : 0 <= n -> hex_of (hex n) n.
Proof.
  intros Hn. unfold hex.
  destruct (hex_loop_spec (S (Z.to_nat (Z.log2 n))) n []) as (ds & E1 & E2 & E3 & E4 & E5 & E6); [|lia|].
  - rewrite Nat2Z.inj_succ, Z2Nat.id by apply Z.log2_nonneg.
    destruct (Z.eq_dec n 0) as [->|]; [cbn; lia|]. pose proof (Z.log2_spec n). lia.
  - rewrite E1, app_nil_r. split; [exact E2|]. split; [exact E3|]. split; [exact E4|].
    intros H. destruct (Z.eq_dec n 0) as [->|]; [auto|]. exfalso. apply E6; [lia|exact H].
Qed.
Lemma hexc_char c : hexc c -> hex_val c = Some (hexv c) /\ is_space c = false /\ c <> 58 /\ c <> 47 /\ c <> 45 /\ c <> 43 /\ c <> 120 /\ c <> 88 /\ c <> 46.
Proof.
  unfold hexc, hex_val, hexv, is_space. intros H. repeat split; try lia.
  destruct ((48 <=? c) && (c <=? 57)) eqn:A; [destruct (c <? 58) eqn:B; [reflexivity|lia]|].
  destruct ((97 <=? c) && (c <=? 102)) eqn:B; [|lia]. destruct (c <? 58) eqn:C; [lia|reflexivity].
Qed.
Lemma hex_body_ok s : forall a b, Forall hexc s -> (s <> [] \/ b = true) ->
  hex_body s a b = Some (fold_left (fun a c => a * 16 + hexv c) s a).
Proof.
  induction s as [|c s IH]; intros a b H N; cbn [hex_body fold_left].
  - destruct N as [N| ->]; [easy|reflexivity].
  - inversion H; subst. destruct (hexc_char c) as (-> & _); [assumption|]. apply IH; auto.
Qed.
Lemma hex_prefixed_plain s : Forall hexc s -> s <> [] -> hex_prefixed s = Some (hex_value s).
Proof.
  intros H N. assert (hex_prefixed s = hex_body s 0 false) as ->.
  { unfold hex_prefixed. destruct s as [|c [|x r]]; [easy|destruct c as [|p|p]; auto; repeat (destruct p as [p|p|]; auto)|].
    inversion H as [|? ? _ H1]; subst. inversion H1 as [|? ? X _]; subst. apply hexc_char in X.
    assert ((x =? 120) || (x =? 88) = false) as E by lia.
    destruct c as [|p|p]; auto; repeat (destruct p as [p|p|]; auto). now rewrite E. }
  rewrite hex_body_ok; auto.
Qed.
Lemma py_int16_hex s n : hex_of s n -> py_int16 s = Ok n.
Proof.
  intros (H & N & V & _). unfold py_int16.
  assert (strip s = s) as ->.
  { assert (Forall (fun c => is_space c = false) s) as S. { eapply Forall_impl; [|exact H]. intros c C. now apply hexc_char. }
    unfold strip. rewrite lstrip_digits by exact S. now apply rstrip_none. }
  assert ((match s with
         | 45 :: r => option_map Z.opp (hex_prefixed r)
         | 43 :: r => hex_prefixed r
         | _ => hex_prefixed s
         end) = hex_prefixed s) as ->.
  { destruct s as [|c r]; [easy|]. inversion H as [|? ? X _]; subst. apply hexc_char in X.
    destruct c as [|p|p]; auto; repeat (destruct p as [p|p|]; auto); exfalso; lia. }
  rewrite hex_prefixed_plain by assumption. now rewrite V.
Qed.
(* digit strings of equal value: equal *)
Lemma hexv_bound c : hexc c -> 0 <= hexv c < 16.
Proof. unfold hexc, hexv. intros. destruct (c <? 58) eqn:E; lia. Qed.
Lemma hex_value_cons c s : hex_value (c :: s) = hexv c * 16 ^ len s + hex_value s.
Proof.
  unfold hex_value. cbn [fold_left]. replace (0 * 16 + hexv c) with (hexv c) by lia. generalize (hexv c) as a.
  induction s as [|d s IH]; intros a; cbn [fold_left].
  - unfold len; cbn. lia.
  - rewrite (IH (a * 16 + hexv d)), (IH (0 * 16 + hexv d)), len_cons, Z.pow_add_r by (pose proof (len_nonneg s); lia). lia.
Qed.
Lemma hex_value_bound s : Forall hexc s -> 0 <= hex_value s < 16 ^ len s.
Proof.
  induction s as [|c s IH]; intros H; [unfold hex_value, len; cbn; lia|].
  inversion H; subst. rewrite hex_value_cons, len_cons, Z.pow_add_r by (pose proof (len_nonneg s); lia).
  specialize (IH H3). pose proof (hexv_bound c H2). nia.
Qed.
Lemma hexv_inj c d : hexc c -> hexc d -> hexv c = hexv d -> c = d.
Proof. unfold hexc, hexv. destruct (c <? 58) eqn:E, (d <? 58) eqn:F; lia. Qed.
Lemma hex_value_inj a : forall b, length a = length b -> Forall hexc a -> Forall hexc b -> hex_value a = hex_value b -> a = b.
Proof.
  induction a as [|c a IH]; intros [|d b] L A B V; try discriminate; [reflexivity|].
  inversion A; inversion B; subst. rewrite !hex_value_cons in V. assert (len a = len b) as LE by (unfold len; cbn in L; lia).
  rewrite LE in V. pose proof (hex_value_bound a H2). pose proof (hex_value_bound b H6). rewrite LE in H.
  pose proof (hexv_bound c H1). pose proof (hexv_bound d H5).
  assert (hexv c = hexv d) by nia. f_equal; [now apply hexv_inj|]. apply IH; auto; nia.
Qed.
Lemma hex_value_low s : Forall hexc s -> s <> [] -> hd 0 s <> 48 -> 16 ^ (len s - 1) <= hex_value s.
Proof.
  destruct s as [|c s]; [easy|]. intros H _ N. cbn [hd] in N. inversion H; subst. rewrite hex_value_cons, len_cons.
  replace (1 + len s - 1) with (len s) by lia. pose proof (hex_value_bound s H3). pose proof (len_nonneg s).
  assert (1 <= hexv c). { unfold hexv. unfold hexc in *. destruct (c <? 58) eqn:E; lia. }
  assert (0 < 16 ^ len s) by (apply Z.pow_pos_nonneg; lia). nia.
Qed.
Lemma hex_unique a b n : hex_of a n -> hex_of b n -> a = b.
Proof.
  assert (forall a b, hex_of a n -> hex_of b n -> len a <= len b) as K.
  { intros x y (X1 & X2 & X3 & X4) (Y1 & Y2 & Y3 & Y4).
    assert (1 <= len y) by (destruct y; [easy|]; rewrite len_cons; pose proof (len_nonneg y); lia).
    destruct (Z.eq_dec (hd 0 x) 48) as [E|E].
    - rewrite (X4 E). change (len [48]) with 1. exact H.
    - pose proof (hex_value_low x X1 X2 E). pose proof (hex_value_bound y Y1).
      assert (len x - 1 < len y); [|lia]. apply (Z.pow_lt_mono_r_iff 16); lia. }
  intros A B. pose proof (K a b A B). pose proof (K b a B A). destruct A as (A1 & _ & A3 & _), B as (B1 & _ & B3 & _).
  apply hex_value_inj; auto; [unfold len in *; lia|congruence].
Qed.

(* ---- words joined by colons ---- *)
Definition word (w : text) : Prop := w <> [] /\ Forall hexc w.
Lemma hex_word w n : hex_of w n -> word w. Proof. intros (A & B & _). now split. Qed.
Lemma hex_words w g : Forall2 hex_of w g -> Forall word w.
Proof. intros H. induction H; constructor; eauto using hex_word. Qed.
Lemma count2_skip c t : c <> 58 -> count2 (c :: t) = count2 t.
Proof.
  intros N. cbn [count2]. destruct t as [|d t]; [reflexivity|]. destruct (c =? 58) eqn:E; [lia|]. reflexivity.
Qed.
Lemma split2_skip c t : c <> 58 -> split2 (c :: t) = (let '(x, y) := split2 t in (c :: x, y)).
Proof.
  intros N. cbn [split2]. destruct t as [|d t]; [reflexivity|]. destruct (c =? 58) eqn:E; [lia|]. reflexivity.
Qed.
Lemma count2_word w t : word w -> count2 (w ++ t) = count2 t.
Proof. intros [_ H]. induction H as [|c w C H IH]; [reflexivity|]. cbn [app]. rewrite count2_skip; [exact IH|now apply hexc_char]. Qed.
Lemma split2_word w t : word w -> split2 (w ++ t) = (let '(x, y) := split2 t in (w ++ x, y)).
Proof.
  intros [_ H]. induction H as [|c w C H IH]; cbn [app]; [now destruct (split2 t)|].
  rewrite split2_skip by now apply hexc_char. rewrite IH. now destruct (split2 t).
Qed.
Lemma word_head w : word w -> exists c r, w = c :: r /\ c <> 58.
Proof. intros [N H]. destruct w as [|c r]; [easy|]. inversion H; subst. exists c, r. split; [reflexivity|now apply hexc_char]. Qed.
Lemma colon_word w t : word w -> count2 (58 :: w ++ t) = count2 (w ++ t) /\ split2 (58 :: w ++ t) = (let '(x, y) := split2 (w ++ t) in (58 :: x, y)).
Proof.
  intros W. destruct (word_head w W) as (c & r & -> & N). cbn [app].
  change (count2 (58 :: c :: r ++ t)) with (if (58 =? 58) && (c =? 58) then 1 + count2 (r ++ t) else count2 (c :: r ++ t)).
  change (split2 (58 :: c :: r ++ t)) with (if (58 =? 58) && (c =? 58) then ([], r ++ t) else let '(x, y) := split2 (c :: r ++ t) in (58 :: x, y)).
  destruct (c =? 58) eqn:E; [lia|]. split; reflexivity.
Qed.
Lemma join_cons sep w ws : ws <> [] -> join_with sep (w :: ws) = w ++ sep :: join_with sep ws.
Proof. destruct ws; [easy|reflexivity]. Qed.
Lemma join_head ws : Forall word ws -> ws <> [] -> exists w t, join_with 58 ws = w ++ t /\ word w.
Proof.
  intros H N. destruct ws as [|w ws]; [easy|]. inversion H; subst. destruct ws as [|v ws].
  - exists w, []. split; [now rewrite app_nil_r|assumption].
  - exists w, (58 :: join_with 58 (v :: ws)). split; [reflexivity|assumption].
Qed.
Lemma count2_join ws : Forall word ws -> count2 (join_with 58 ws) = 0.
Proof.
  intros H. induction H as [|w ws W H IH]; [reflexivity|]. destruct ws as [|v ws].
  - cbn [join_with]. rewrite <- (app_nil_r w), count2_word by exact W. reflexivity.
  - rewrite join_cons by easy. rewrite count2_word by exact W.
    destruct (join_head (v :: ws) H) as (u & t & E & U); [easy|]. rewrite E in *. destruct (colon_word u t U) as [-> _]. exact IH.
Qed.
Lemma double_join ws s : Forall word ws ->
  count2 (join_with 58 ws ++ [58; 58] ++ s) = 1 + count2 s /\ split2 (join_with 58 ws ++ [58; 58] ++ s) = (join_with 58 ws, s).
Proof.
  intros H. induction H as [|w ws W H [IH1 IH2]]; [split; reflexivity|]. destruct ws as [|v ws].
  - cbn [join_with]. rewrite count2_word, split2_word by exact W. cbn [join_with app] in *.
    rewrite IH1, IH2. split; [reflexivity|]. now rewrite app_nil_r.
  - rewrite join_cons by easy. rewrite <- app_assoc. rewrite count2_word, split2_word by exact W.
    destruct (join_head (v :: ws) H) as (u & t & E & U); [easy|]. cbn [app] in *. rewrite E in *. rewrite <- app_assoc in *.
    destruct (colon_word u (t ++ 58 :: 58 :: s) U) as [-> ->]. rewrite IH1, IH2. split; reflexivity.
Qed.
Lemma split_words ws : Forall word ws -> ws <> [] -> split_on 58 (join_with 58 ws) = ws.
Proof.
  intros H N. apply split_join; [exact N|]. eapply Forall_impl; [|exact H]. intros w [_ W] X.
  rewrite Forall_forall in W. specialize (W _ X). apply hexc_char in W. tauto.
Qed.
Lemma join_inj a b : Forall word a -> Forall word b -> join_with 58 a = join_with 58 b -> a = b.
Proof.
  intros A B E. destruct a as [|x a], b as [|y b]; [reflexivity| | |].
  - exfalso. destruct (join_head (y :: b) B) as (w & t & F & W); [easy|]. rewrite F in E. destruct W as [W _]. destruct w; [easy|discriminate].
  - exfalso. destruct (join_head (x :: a) A) as (w & t & F & W); [easy|]. rewrite F in E. destruct W as [W _]. destruct w; [easy|discriminate].
  - rewrite <- (split_words (x :: a)), <- (split_words (y :: b)) by (auto; easy). now rewrite E.
Qed.
Lemma hex_of_fun w : forall g g', Forall2 hex_of w g -> Forall2 hex_of w g' -> g = g'.
Proof.
  induction w as [|x w IH]; intros g g' A B; inversion A; inversion B; subst; [reflexivity|]. f_equal; [|auto].
  destruct H1 as (_ & _ & V & _), H6 as (_ & _ & V' & _). congruence.
Qed.
Lemma colons_fun s g g' : colons s g -> colons s g' -> g = g'.
Proof.
  intros (w & W & E) (w' & W' & E'). assert (w = w') as -> by (apply join_inj; eauto using hex_words; congruence).
  now apply (hex_of_fun w').
Qed.
Lemma colons_hex g : Forall (fun n => 0 <= n) g -> colons (join_with 58 (map hex g)) g.
Proof.
  intros H. exists (map hex g). split; [|reflexivity]. induction H; cbn [map]; constructor; auto using hex_ok.
Qed.
Lemma colons_count s g : colons s g -> count2 s = 0.
Proof. intros (w & W & ->). apply count2_join. now apply hex_words in W. Qed.
Lemma colons_double a g b : colons a g -> count2 (a ++ [58; 58] ++ b) = 1 + count2 b /\ split2 (a ++ [58; 58] ++ b) = (a, b).
Proof. intros (w & W & ->). apply double_join. now apply hex_words in W. Qed.
Lemma zeros_split g z n : zeros_at g z n -> g = firstn z g ++ repeat 0 n ++ skipn (z + n) g.
Proof.
  intros [L Z]. rewrite <- Z. rewrite Nat.add_comm, <- skipn_skipn_add. now rewrite !firstn_skipn.
Qed.
(* a text denotes one address *)
Lemma ipv6_text_fun s g g' : ipv6_text s g -> ipv6_text s g' -> g = g'.
Proof.
  intros [L T] [L' T'].
  destruct T as [C|(z & n & a & b & N & Z & CA & CB & ->)], T' as [C'|(z' & n' & a' & b' & N' & Z' & CA' & CB' & E')].
  - now apply (colons_fun s).
  - exfalso. subst s. apply colons_count in C. destruct (colons_double _ _ b' CA') as [K _]. rewrite K in C.
    rewrite (colons_count _ _ CB') in C. lia.
  - exfalso. apply colons_count in C'. destruct (colons_double _ _ b CA) as [K _]. rewrite K in C'.
    rewrite (colons_count _ _ CB) in C'. lia.
  - destruct (colons_double _ _ b CA) as [_ S]. destruct (colons_double _ _ b' CA') as [_ S']. rewrite <- E' in S'.
    assert (a = a' /\ b = b') as [<- <-] by (rewrite S in S'; inversion S'; auto).
    pose proof (colons_fun _ _ _ CA CA') as FA. pose proof (colons_fun _ _ _ CB CB') as FB.
    rewrite (zeros_split g z n Z), (zeros_split g' z' n' Z'). rewrite FA, FB. do 2 f_equal.
    destruct Z as [Z _], Z' as [Z' _].
    assert (z = z') by (apply (f_equal (@length BinNums.Z)) in FA; rewrite !firstn_length in FA; lia).
    apply (f_equal (@length BinNums.Z)) in FB. rewrite !skipn_length in FB. f_equal. lia.
Qed.

(* ---- the runs of zero groups ---- *)
Fixpoint runsb (l : list bool) (i : Z) (runs : list (Z * Z)) (longest : Z) (zero : option Z) : list (Z * Z) * Z :=
  match l with
  | [] => (runs, longest)
  | g :: r =>
      if negb g then
        match zero with
        | Some z =>
            let n := i - z in
            let runs := if existsb (fun kv => fst kv =? n) runs then runs else runs ++ [(n, z)] in
            runsb r (i + 1) runs (Z.max longest n) None
        | None => runsb r (i + 1) runs longest None
        end
      else runsb r (i + 1) runs longest (match zero with None => Some i | _ => zero end)
  end.
Lemma runs_loop_b l : forall i r n z, runs_loop l i r n z = runsb (map (fun g => g =? 0) l) i r n z.
Proof.
  induction l as [|g l IH]; intros i r n z; [reflexivity|]. cbn [runs_loop runsb map].
  destruct (g =? 0); cbn [negb]; [apply IH|]. destruct z; apply IH.
Qed.
Definition zerosb (b : list bool) (z n : nat) : bool :=
  ((z + n <=? length b)%nat && forallb (fun x => x) (firstn n (skipn z b)))%bool.
Definition runs_good (b : list bool) : bool :=
  let '(runs, longest) := runsb (b ++ [false]) 0 [] 0 None in
  if longest <? 2 then forallb (fun z => negb (zerosb b z 2)) (seq 0 9)
  else match run_get runs longest with
       | None => false
       | Some z =>
           let z' := Z.to_nat z in let n' := Z.to_nat longest in
           ((0 <=? z) && zerosb b z' n'
            && forallb (fun j => forallb (fun m => implb (zerosb b j m) ((m <? n')%nat || (m =? n')%nat && (z' <=? j)%nat)) (seq 0 9)) (seq 0 9))%bool
       end.
Fixpoint patterns (n : nat) : list (list bool) :=
  match n with O => [[]] | S m => map (cons true) (patterns m) ++ map (cons false) (patterns m) end.
Lemma patterns_all b : In b (patterns (length b)).
Proof.
  induction b as [|x b IH]; [now left|]. cbn [length patterns]. apply in_or_app.
  destruct x; [left|right]; now apply in_map.
Qed.
Lemma runs_good_8 : forallb runs_good (patterns 8) = true.
Proof. vm_compute. reflexivity. Qed.
Lemma zerosb_spec g z n : zerosb (map (fun x => x =? 0) g) z n = true <-> zeros_at g z n.
Proof.
  unfold zerosb, zeros_at. rewrite Bool.andb_true_iff, Nat.leb_le, map_length, skipn_map, firstn_map.
  assert (forall l : list Z, forallb (fun x => x) (map (fun x => x =? 0) l) = true <-> l = repeat 0 (length l)) as K.
  { induction l as [|x l IH]; cbn [map forallb length repeat]; [tauto|]. rewrite Bool.andb_true_iff, IH. split.
    - intros [A B]. f_equal; [lia|exact B].
    - intros A. split; [injection A as A _; lia|]. now injection A. }
  rewrite K. split; intros [A B]; split; auto.
  - rewrite B at 1. f_equal. rewrite firstn_length, skipn_length. lia.
  - rewrite B at 1. f_equal. rewrite firstn_length, skipn_length. lia.
Qed.
Lemma runs_spec g : length g = 8%nat -> Forall (fun n => 0 <= n) g ->
  let '(runs, longest) := runs_loop (g ++ [-1]) 0 [] 0 None in
  (longest < 2 /\ forall z, ~ zeros_at g z 2)
  \/ exists z n, run_get runs longest = Some (Z.of_nat z) /\ longest = Z.of_nat n /\ (2 <= n)%nat /\ zeros_at g z n
       /\ forall z' n', zeros_at g z' n' -> (n' < n)%nat \/ n' = n /\ (z <= z')%nat.
Proof.
  intros L P. rewrite runs_loop_b, map_app. change (map (fun g => g =? 0) [-1]) with [false].
  set (b := map (fun g => g =? 0) g).
  assert (runs_good b = true) as G.
  { pose proof runs_good_8 as F. rewrite forallb_forall in F. apply F.
    assert (length b = 8%nat) as LB by (unfold b; now rewrite map_length). rewrite <- LB. apply patterns_all. }
  unfold runs_good in G. destruct (runsb (b ++ [false]) 0 [] 0 None) as [runs longest].
  destruct (longest <? 2) eqn:E.
  - left. split; [lia|]. intros z Z. rewrite forallb_forall in G.
    assert (z < 9)%nat as Zb by (destruct Z as [Z _]; lia).
    specialize (G z). rewrite in_seq in G. specialize (G ltac:(lia)). apply zerosb_spec in Z. fold b in Z. now rewrite Z in G.
  - right. destruct (run_get runs longest) as [z|]; [|discriminate].
    rewrite !Bool.andb_true_iff in G. destruct G as [[G1 G2] G3]. exists (Z.to_nat z), (Z.to_nat longest).
    split; [f_equal; lia|]. split; [lia|]. split; [lia|]. split; [now apply zerosb_spec|].
    intros z' n' Z. rewrite forallb_forall in G3.
    assert (z' < 9)%nat as Zb by (destruct Z as [Z _]; lia). assert (n' < 9)%nat as Nb by (destruct Z as [Z _]; lia).
    specialize (G3 z'). rewrite in_seq in G3. specialize (G3 ltac:(lia)). rewrite forallb_forall in G3.
    specialize (G3 n'). rewrite in_seq in G3. specialize (G3 ltac:(lia)).
    apply zerosb_spec in Z. fold b in Z. rewrite Z in G3. cbn [implb] in G3.
    rewrite Bool.orb_true_iff, Bool.andb_true_iff, Nat.ltb_lt, Nat.eqb_eq, Nat.leb_le in G3. exact G3.
Qed.

(* ---- the groups ---- *)
Lemma slice_In {A} (l : list A) a b x : In x (slice l a b) -> In x l.
Proof.
  unfold slice. intros H. rewrite <- (firstn_skipn (Z.to_nat a) l). apply in_or_app. right.
  rewrite <- (firstn_skipn (Z.to_nat (b - a)) (skipn (Z.to_nat a) l)). apply in_or_app. now left.
Qed.
Lemma groups_ok p : bytes_ok p -> len p = 16 ->
  groups p = groups_of p /\ length (groups p) = 8%nat /\ Forall (fun n => 0 <= n < 65536) (groups p) /\ ungroups (groups p) = p.
Proof.
  intros B L. unfold len in L.
  do 16 (destruct p as [|? p]; [cbn in L; lia|]). destruct p; [|cbn [length] in L; lia].
  assert (forall a b, 0 <= a < 256 -> 0 <= b < 256 -> [(a * 256 + b) / 256; (a * 256 + b) mod 256] = [a; b]) as K.
  { intros a b A C. f_equal; [lia|f_equal; lia]. }
  unfold bytes_ok in B. rewrite !Forall_cons_iff in B. unfold byte_ok in B.
  split; [|split; [reflexivity|split]].
  - cbn [groups]. unfold groups_of, group_of. cbn [seq map Nat.mul Nat.add skipn firstn].
    assert (forall a b, be_value [a; b] = a * 256 + b) as V.
    { intros a b. cbn [be_value]. change (len [b]) with 1. change (len (@nil Z)) with 0. lia. }
    now rewrite !V.
  - cbn [groups]. repeat (constructor; [lia|]). constructor.
  - cbn [groups]. unfold ungroups. cbn [map concat app].
    repeat (f_equal; [lia|]). f_equal; lia.
Qed.
Lemma colons_slice g a b : Forall (fun n => 0 <= n < 65536) g ->
  colons (join_with 58 (slice (map hex g) a b)) (slice g a b).
Proof.
  intros H. assert (slice (map hex g) a b = map hex (slice g a b)) as ->.
  { unfold slice. now rewrite skipn_map, firstn_map. }
  apply colons_hex. apply Forall_forall. intros x X. rewrite Forall_forall in H. apply slice_In in X. specialize (H x X). lia.
Qed.
(* inet_ntop gives the recommended text form *)
Lemma ntop6_canonical p : bytes_ok p -> len p = 16 -> exists s, ntop6 p = Ok s /\ ipv6_canonical s (groups_of p).
Proof.
  intros B L. destruct (groups_ok p B L) as (G & N & R & _). unfold ntop6. rewrite L. change (negb (16 =? 16)) with false. cbv iota.
  rewrite <- G. clear G. set (g := groups p) in *.
  assert (Forall (fun n => 0 <= n) g) as R' by (eapply Forall_impl; [|exact R]; cbv beta; lia).
  pose proof (runs_spec g N R') as S. destruct (runs_loop (g ++ [-1]) 0 [] 0 None) as [runs longest].
  destruct S as [[S1 S2]|(z & n & S1 & S2 & S3 & S4 & S5)].
  - replace (longest <? 2) with true by (symmetry; apply Z.ltb_lt; exact S1).
    exists (join_with 58 (map hex g)). split; [reflexivity|]. split; [exact N|]. left. split; [exact S2|]. now apply colons_hex.
  - replace (longest <? 2) with false by (symmetry; apply Z.ltb_ge; lia). rewrite S1. eexists. split; [reflexivity|].
    split; [exact N|]. right.
    exists z, n, (join_with 58 (slice (map hex g) 0 (Z.of_nat z))), (join_with 58 (slice (map hex g) (Z.of_nat z + longest) (len (map hex g)))).
    split; [exact S3|]. split; [exact S4|]. split; [exact S5|].
    pose proof (colons_slice g 0 (Z.of_nat z) R) as C1. pose proof (colons_slice g (Z.of_nat z + longest) (len (map hex g)) R) as C2.
    split; [|split; [|reflexivity]].
    + unfold slice in C1 at 2. cbn [Z.to_nat skipn] in C1. replace (Z.to_nat (Z.of_nat z - 0)) with z in C1 by lia. exact C1.
    + unfold slice in C2 at 2. replace (Z.to_nat (Z.of_nat z + longest)) with (z + n)%nat in C2 by lia.
      rewrite firstn_all2 in C2; [exact C2|]. rewrite skipn_length. unfold len. rewrite map_length. lia.
Qed.
Lemma canonical_text s g : ipv6_canonical s g -> ipv6_text s g.
Proof.
  intros [L [[_ H]|(z & n & a & b & H1 & H2 & _ & H3 & H4 & H5)]]; split; auto.
  right. exists z, n, a, b. repeat (split; auto). lia.
Qed.
Lemma ntop6_inj p q : bytes_ok p -> bytes_ok q -> len p = 16 -> len q = 16 -> ntop6 p = ntop6 q -> p = q.
Proof.
  intros Bp Bq Lp Lq E. destruct (ntop6_canonical p Bp Lp) as (s & Es & Cs). destruct (ntop6_canonical q Bq Lq) as (t & Et & Ct).
  assert (s = t) as <- by congruence.
  pose proof (ipv6_text_fun s _ _ (canonical_text _ _ Cs) (canonical_text _ _ Ct)) as F.
  destruct (groups_ok p Bp Lp) as (Gp & _ & _ & Up). destruct (groups_ok q Bq Lq) as (Gq & _ & _ & Uq). congruence.
Qed.

(* ---- inet_pton ---- *)
Lemma ints6_ok w g : Forall2 hex_of w g -> Forall (fun n => 0 <= n < 65536) g -> ints6 w = Ok g.
Proof.
  intros H. induction H as [|x n w g X H IH]; intros R; [reflexivity|]. inversion R; subst. cbn [ints6].
  rewrite (py_int16_hex x n X). cbn [bind]. replace ((65535 <? n) || (n <? 0))%bool with false by lia.
  rewrite IH by assumption. reflexivity.
Qed.
Lemma ints6_app a b g h : ints6 a = Ok g -> length g = length a -> ints6 b = Ok h -> ints6 (a ++ b) = Ok (g ++ h).
Proof.
  revert g. induction a as [|x a IH]; intros g A L B; cbn [ints6 app] in *.
  - inversion A; subst. exact B.
  - destruct (py_int16 x) as [n|]; [|discriminate]. cbn [bind] in *. destruct ((65535 <? n) || (n <? 0))%bool; [inversion A; subst; discriminate|].
    destruct (ints6 a) as [g'|]; [|discriminate]. cbn [bind] in *. inversion A; subst. rewrite (IH g'); auto.
Qed.
Lemma zeros_words n : Forall2 hex_of (repeat [48] n) (repeat 0 n).
Proof.
  induction n; cbn [repeat]; constructor; auto. unfold hex_of. split; [constructor; [unfold hexc; lia|constructor]|]. split; [discriminate|]. split; [reflexivity|intros _; reflexivity].
Qed.
Lemma last_app_r {A} (d : A) a b : b <> [] -> last (a ++ b) d = last b d.
Proof.
  intros N. induction a as [|x a IH]; [reflexivity|]. cbn [app]. rewrite <- IH. destruct (a ++ b) eqn:E; [|reflexivity].
  apply app_eq_nil in E. easy.
Qed.
(* a text form whose :: is neither at the start nor at the end is read back *)
Lemma colons_nonempty s g : colons s g -> (s = [] <-> g = []).
Proof.
  intros (w & W & ->). destruct W as [|x n w g X W]; [split; auto|]. split; [|easy]. intros E. exfalso.
  destruct (join_head (x :: w)) as (u & t & F & [U _]); [constructor; [now apply hex_word in X|now apply hex_words in W]|easy|].
  rewrite F in E. destruct u; easy.
Qed.
Lemma Forall2_len {A B} (R : A -> B -> Prop) a b : Forall2 R a b -> length a = length b.
Proof. intros H. induction H; cbn; congruence. Qed.
Lemma range_part g a b : Forall (fun n => 0 <= n < 65536) g -> Forall (fun n => 0 <= n < 65536) (firstn a g) /\ Forall (fun n => 0 <= n < 65536) (skipn b g).
Proof.
  intros H. split; apply Forall_forall; intros x X; rewrite Forall_forall in H; apply H.
  - rewrite <- (firstn_skipn a g). apply in_or_app; now left.
  - rewrite <- (firstn_skipn b g). apply in_or_app; now right.
Qed.
Lemma pton6_text s g : ipv6_text s g -> Forall (fun n => 0 <= n < 65536) g -> inner_double s -> pton6 s = Ok (ungroups g).
Proof.
  intros [L T] R [I1 I2]. unfold pton6. destruct T as [C|(z & n & a & b & N & Zs & CA & CB & ->)].
  - rewrite (colons_count _ _ C). change (1 <? 0) with false. change (0 =? 0) with true. cbv iota.
    destruct C as (w & W & ->). pose proof (Forall2_len _ _ _ W) as LW.
    rewrite split_words; [|now apply hex_words in W|intros ->; cbn in LW; lia].
    replace (len w =? 8) with true by (unfold len; lia). cbn [bind]. rewrite (ints6_ok w g W R). cbn [bind].
    replace (len g =? 8) with true by (unfold len; lia). reflexivity.
  - destruct (colons_double _ _ b CA) as [K1 K2]. rewrite (colons_count _ _ CB) in K1. rewrite K1, K2.
    change (1 <? 1 + 0) with false. change (1 + 0 =? 0) with false. cbv iota.
    assert (a <> []) as NA by (intros ->; now apply I1).
    assert (b <> []) as NB by (intros ->; now apply (I2 a)).
    destruct (range_part g z (z + n) R) as [RA RB]. destruct Zs as [Zl Ze].
    pose proof (conj Zl Ze) as Zs. fold (zeros_at g z n) in Zs.
    destruct CA as (wa & WA & ->), CB as (wb & WB & ->).
    rewrite (split_words wa), (split_words wb); [| | intros ->; now apply NB | | intros ->; now apply NA]; [|now apply hex_words in WB|now apply hex_words in WA].
    cbn [bind]. pose proof (Forall2_len _ _ _ WA) as LA. pose proof (Forall2_len _ _ _ WB) as LB.
    rewrite firstn_length in LA. rewrite skipn_length in LB.
    replace (Z.to_nat (8 - len wa - len wb)) with n by (unfold len; lia).
    rewrite (ints6_app wa (repeat [48] n ++ wb) (firstn z g) (repeat 0 n ++ skipn (z + n) g)); [|now apply ints6_ok| | ].
    + cbn [bind]. rewrite <- (zeros_split g z n Zs). replace (len g =? 8) with true by (unfold len; lia). reflexivity.
    + rewrite firstn_length. lia.
    + apply ints6_app; [| |now apply ints6_ok].
      * apply ints6_ok; [apply zeros_words|]. apply Forall_forall. intros x X. apply repeat_spec in X. lia.
      * now rewrite !repeat_length.
Qed.
(* and one with :: at an end is refused *)
Lemma ints6_empty a b : Forall (fun w => exists n, py_int16 w = Ok n /\ 0 <= n < 65536) a -> ints6 (a ++ [] :: b) = Err ValueError.
Proof.
  intros H. induction H as [|x a (n & E & R) H IH]; [reflexivity|]. cbn [ints6 app]. rewrite E. cbn [bind].
  replace ((65535 <? n) || (n <? 0))%bool with false by lia. rewrite IH. reflexivity.
Qed.
Lemma good_words w g : Forall2 hex_of w g -> Forall (fun n => 0 <= n < 65536) g -> Forall (fun w => exists n, py_int16 w = Ok n /\ 0 <= n < 65536) w.
Proof. intros H. induction H; intros R; constructor; inversion R; subst; auto. exists y. split; [now apply py_int16_hex|assumption]. Qed.
Lemma pton6_edge s g : ipv6_text s g -> Forall (fun n => 0 <= n < 65536) g ->
  (firstn 2 s = [58; 58] \/ exists t, s = t ++ [58; 58]) -> pton6 s = Err ValueError.
Proof.
  intros [L T] R E. unfold pton6. destruct T as [C|(z & n & a & b & N & Zs & CA & CB & ->)].
  - exfalso. assert (count2 s = 0) as K by now apply colons_count in C.
    assert (forall t u, count2 (t ++ 58 :: 58 :: u) <> 0) as Q.
    { assert (forall s, 0 <= count2 s) as P.
      { intros x. remember (length x) as k. assert (length x <= k)%nat as X by lia. clear Heqk. revert x X.
        induction k as [|k IH]; intros [|c [|d x]] X; cbn [length] in X; try (cbn [count2]; lia).
        change (count2 (c :: d :: x)) with (if (c =? 58) && (d =? 58) then 1 + count2 x else count2 (d :: x)).
        destruct ((c =? 58) && (d =? 58))%bool; [specialize (IH x); lia|apply IH; cbn [length]; lia]. }
      intros t u. remember (length t) as k. assert (length t <= k)%nat as X by lia. clear Heqk. revert t X.
      induction k as [|k IH]; intros [|c [|d t]] X; cbn [length] in X; try lia; cbn [app].
      - change (count2 (58 :: 58 :: u)) with (1 + count2 u). specialize (P u). lia.
      - change (count2 (58 :: 58 :: u)) with (1 + count2 u). specialize (P u). lia.
      - change (count2 (c :: 58 :: 58 :: u)) with (if (c =? 58) && true then 1 + count2 (58 :: u) else count2 (58 :: 58 :: u)).
        change (count2 (58 :: 58 :: u)) with (1 + count2 u). pose proof (P u). pose proof (P (58 :: u)). destruct ((c =? 58) && true)%bool; lia.
      - change (count2 (c :: d :: t ++ 58 :: 58 :: u)) with (if (c =? 58) && (d =? 58) then 1 + count2 (t ++ 58 :: 58 :: u) else count2 ((d :: t) ++ 58 :: 58 :: u)).
        destruct ((c =? 58) && (d =? 58))%bool; [pose proof (P (t ++ 58 :: 58 :: u)); lia|apply IH; cbn [length]; lia]. }
    destruct E as [E|[t ->]].
    + destruct s as [|x [|y s]]; cbn [firstn] in E; try discriminate. inversion E; subst. now apply (Q [] s).
    + now apply (Q t []).
  - destruct (colons_double _ _ b CA) as [K1 K2]. rewrite (colons_count _ _ CB) in K1. rewrite K1, K2.
    change (1 <? 1 + 0) with false. change (1 + 0 =? 0) with false. cbv iota. cbn [bind].
    destruct (range_part g z (z + n) R) as [RA RB].
    destruct (Z.eq_dec (len a) 0) as [La|La].
    + apply len_zero_nil in La. subst a. cbn [split_on]. reflexivity.
    + assert (a <> []) as NA by (intros ->; now apply La).
      assert (b = []) as ->.
      { destruct E as [E|[t E]].
        - exfalso. destruct CA as (w & W & ->). destruct w as [|x w]; [now apply NA|].
          destruct (join_head (x :: w)) as (u & v & F & U); [now apply hex_words in W|easy|]. rewrite F in E.
          destruct (word_head u U) as (c & r & -> & Nc). cbn [app firstn] in E. inversion E. congruence.
        - destruct b as [|c b]; [reflexivity|]. exfalso. destruct CB as (w & W & Ew). apply hex_words in W.
          assert (exists y, last (c :: b) 0 = y /\ hexc y) as (y & Y1 & Y2).
          { rewrite Ew. clear -W Ew. assert (w <> []) as Nw by (intros ->; discriminate). clear Ew.
            induction W as [|x w [X1 X2] W IH]; [easy|]. destruct w as [|v w].
            - cbn [join_with]. exists (last x 0). split; [reflexivity|]. rewrite Forall_forall in X2. apply X2.
              destruct (exists_last X1) as (x' & l & ->). rewrite last_last. apply in_or_app; right; now left.
            - rewrite join_cons by easy. destruct IH as (y & Y & H); [easy|]. exists y. split; [|exact H].
              destruct (join_head (v :: w) W) as (u & t & F & [U _]); [easy|]. rewrite F in *. destruct u as [|k u]; [easy|].
              rewrite app_comm_cons. replace (x ++ 58 :: (k :: u) ++ t) with ((x ++ [58]) ++ (k :: u) ++ t) by now rewrite <- app_assoc.
              rewrite last_app_r; [exact Y|easy]. }
          assert (last (a ++ [58; 58] ++ c :: b) 0 = last (c :: b) 0) as P.
          { replace (a ++ [58; 58] ++ c :: b) with ((a ++ [58; 58]) ++ c :: b) by now rewrite <- app_assoc. now rewrite last_app_r. }
          rewrite E in P. replace (t ++ [58; 58]) with ((t ++ [58]) ++ [58]) in P by now rewrite <- app_assoc.
          rewrite last_last, Y1 in P. subst y. unfold hexc in Y2. lia. }
      destruct CA as (w & W & ->). rewrite split_words; [|now apply hex_words in W|intros ->; now apply NA].
      change (split_on 58 []) with [@nil Z]. rewrite app_assoc. rewrite ints6_empty; [reflexivity|].
      apply Forall_app. split; [now apply (good_words w (firstn z g))|].
      apply Forall_forall. intros x X. apply repeat_spec in X. subst x. exists 0. split; [reflexivity|lia].
Qed.
