(* Python text (str) as a list of code points, and the few str/int built-ins the
   modelled code uses.  These model Python itself, not /repo. *)
Require Import Verif.Base Verif.BaseFacts.
From Coq Require String Ascii.
Export (notations) String.

(* keep arithmetic folded when simplifying *)
Global Arguments Z.add : simpl never.
Global Arguments Z.sub : simpl never.
Global Arguments Z.mul : simpl never.
Global Arguments Z.pow : simpl never.
Global Arguments Z.div : simpl never.
Global Arguments Z.modulo : simpl never.
Global Arguments Z.of_nat : simpl never.
Global Arguments Z.leb : simpl never.
Global Arguments Z.ltb : simpl never.
Global Arguments Z.eqb : simpl never.
Global Arguments Z.land : simpl never.
Global Arguments Z.lor : simpl never.
Global Arguments Z.shiftl : simpl never.
Global Arguments Z.shiftr : simpl never.

Definition text := list Z.

(* literals *)
Fixpoint tx (s : String.string) : text :=
  match s with
  | String.EmptyString => []
  | String.String a r => Z.of_nat (Ascii.nat_of_ascii a) :: tx r
  end.

Definition eqb_text : text -> text -> bool := eqb_bytes.

(* str.split(sep) for a one-character separator *)
Fixpoint split_on (sep : Z) (s : text) : list text :=
  match s with
  | [] => [[]]
  | c :: r =>
      if c =? sep then [] :: split_on sep r
      else match split_on sep r with
           | [] => [[c]]
           | w :: ws => (c :: w) :: ws
           end
  end.

(* sep.join(l) for a one-character separator *)
Fixpoint join_with (sep : Z) (l : list text) : text :=
  match l with
  | [] => []
  | [w] => w
  | w :: ws => w ++ sep :: join_with sep ws
  end.

Definition is_digit (c : Z) : bool := (48 <=? c) && (c <=? 57).

(* digits of n in base 10, most significant first; fuel bounds the digit count *)
Fixpoint dec_loop (fuel : nat) (n : Z) (acc : text) : text :=
  match fuel with
  | O => acc
  | S f =>
      let acc := (48 + n mod 10) :: acc in
      if n / 10 =? 0 then acc else dec_loop f (n / 10) acc
  end.

(* str(n) *)
Definition dec_nonneg (n : Z) : text := dec_loop (S (Z.to_nat (Z.log2 n))) n [].
Definition dec (n : Z) : text := if n <? 0 then 45 :: dec_nonneg (- n) else dec_nonneg n.

(* value of a digit string *)
Definition dec_value (s : text) : Z := fold_left (fun a c => a * 10 + (c - 48)) s 0.

(* characters str.strip()/int() treat as white space; ASCII part (the non-ASCII
   white space and digits that int() also accepts are left out) *)
Definition is_space (c : Z) : bool :=
  ((9 <=? c) && (c <=? 13)) || ((28 <=? c) && (c <=? 31)) || (c =? 32).

Fixpoint lstrip_by (p : Z -> bool) (s : text) : text :=
  match s with [] => [] | c :: r => if p c then lstrip_by p r else s end.
Definition rstrip_by (p : Z -> bool) (s : text) : text := rev (lstrip_by p (rev s)).
Definition strip (s : text) : text := rstrip_by is_space (lstrip_by is_space s).

(* digits with single underscores between them, as int() accepts (PEP 515);
   after: whether an underscore may come next *)
Fixpoint int_body (s : text) (acc : Z) (after : bool) : option Z :=
  match s with
  | [] => if after then Some acc else None
  | c :: r =>
      if is_digit c then int_body r (acc * 10 + (c - 48)) true
      else if (c =? 95) && after then int_body r acc false
      else None
  end.

(* int(s) *)
Definition py_int (s : text) : res Z :=
  let s := strip s in
  match (match s with
         | 45 :: r => option_map Z.opp (int_body r 0 false)
         | 43 :: r => int_body r 0 false
         | _ => int_body s 0 false
         end) with
  | Some n => Ok n
  | None => Err ValueError
  end.

(* ---- lemmas ---- *)
Lemma eqb_text_spec a b : eqb_text a b = true <-> a = b.
Proof. apply eqb_bytes_spec. Qed.

Lemma split_on_nonnil sep s : split_on sep s <> [].
Proof. destruct s; cbn; [easy|]. destruct (_ =? _); [easy|]. destruct (split_on sep s); easy. Qed.

Lemma split_on_nosep sep s : ~ In sep s -> split_on sep s = [s].
Proof.
  induction s as [|c s IH]; intros H; cbn; auto.
  destruct (Z.eqb_spec c sep); [subst; exfalso; apply H; now left|].
  rewrite IH; auto. intros ?; apply H; now right.
Qed.

Lemma split_on_app sep w s : ~ In sep w -> split_on sep (w ++ sep :: s) = w :: split_on sep s.
Proof.
  induction w as [|c w IH]; intros H; cbn.
  - now rewrite Z.eqb_refl.
  - destruct (Z.eqb_spec c sep); [subst; exfalso; apply H; now left|].
    rewrite IH; auto. intros ?; apply H; now right.
Qed.

Lemma split_join sep l : l <> [] -> Forall (fun w => ~ In sep w) l -> split_on sep (join_with sep l) = l.
Proof.
  intros Hn H. induction l as [|w l IH]; [easy|]. inversion H; subst.
  destruct l as [|w' l]; cbn [join_with].
  - now apply split_on_nosep.
  - rewrite split_on_app by auto. f_equal. apply IH; auto. easy.
Qed.

Lemma join_split sep s : join_with sep (split_on sep s) = s.
Proof.
  induction s as [|c s IH]; auto. cbn [split_on].
  destruct (Z.eqb_spec c sep).
  - subst. pose proof (split_on_nonnil sep s). destruct (split_on sep s) eqn:E; [easy|].
    cbn [join_with app]. cbn [join_with] in IH. now rewrite IH.
  - pose proof (split_on_nonnil sep s). destruct (split_on sep s) as [|w ws] eqn:E; [easy|].
    destruct ws; cbn [join_with app] in *; now rewrite IH.
Qed.

Lemma dec_value_snoc s c : dec_value (s ++ [c]) = dec_value s * 10 + (c - 48).
Proof. unfold dec_value. rewrite fold_left_app. reflexivity. Qed.

Lemma dec_value_cons_gen s : forall a, fold_left (fun a c => a * 10 + (c - 48)) s a = a * 10 ^ len s + dec_value s.
Proof.
  induction s as [|c s IH]; intros a.
  - unfold dec_value, len; cbn. lia.
  - unfold dec_value. cbn [fold_left]. rewrite (IH (a * 10 + (c - 48))), (IH (0 * 10 + (c - 48))).
    rewrite len_cons. rewrite Z.pow_add_r by (pose proof (len_nonneg s); lia). lia.
Qed.

Definition all_digits (s : text) : Prop := Forall (fun c => 48 <= c <= 57) s.

Lemma dec_value_bound s : all_digits s -> 0 <= dec_value s < 10 ^ len s.
Proof.
  induction s as [|c s IH] using rev_ind; intros H.
  - unfold dec_value, len; cbn. lia.
  - apply Forall_app in H as [H1 H2]. inversion H2; subst. rewrite dec_value_snoc, len_app.
    change (len [c]) with 1. rewrite Z.pow_add_r by (pose proof (len_nonneg s); lia).
    specialize (IH H1). nia.
Qed.

(* dec_loop computes ds ++ acc for the digit string ds of n *)
Lemma dec_loop_spec fuel : forall n acc, 0 <= n < 2 ^ Z.of_nat fuel -> (0 < fuel)%nat ->
  exists ds, dec_loop fuel n acc = ds ++ acc /\ all_digits ds /\ ds <> [] /\ dec_value ds = n /\
             (n = 0 -> ds = [48]) /\ (0 < n -> 49 <= hd 0 ds).
Proof.
  induction fuel as [|f IH]; intros n acc Hn Hf; [lia|]. cbn [dec_loop].
  rewrite Nat2Z.inj_succ, Z.pow_succ_r in Hn by lia.
  destruct (Z.eqb_spec (n / 10) 0) as [E|E].
  - exists [48 + n mod 10]. assert (n < 10) by lia. assert (n mod 10 = n) by (apply Z.mod_small; lia).
    repeat split; auto; try easy.
    + constructor; [lia|constructor].
    + unfold dec_value; cbn. lia.
    + intros ->; reflexivity.
    + cbn [hd]. lia.
  - destruct f as [|f'].
    { change (2 ^ Z.of_nat 0) with 1 in Hn. exfalso. lia. }
    destruct (IH (n / 10) ((48 + n mod 10) :: acc)) as (ds & E1 & E2 & E3 & E4 & E5 & E6); [lia|lia|].
    rewrite E1. exists (ds ++ [48 + n mod 10]). repeat split.
    + now rewrite <- app_assoc.
    + apply Forall_app; split; auto. constructor; [lia|constructor].
    + destruct ds; easy.
    + rewrite dec_value_snoc. lia.
    + intros ->. cbn in E. lia.
    + intros. destruct ds; [easy|]. cbn [app hd] in *. apply E6. lia.
Qed.

Lemma dec_nonneg_spec n : 0 <= n ->
  all_digits (dec_nonneg n) /\ dec_nonneg n <> [] /\ dec_value (dec_nonneg n) = n /\
  (n = 0 -> dec_nonneg n = [48]) /\ (0 < n -> 49 <= hd 0 (dec_nonneg n)).
Proof.
  intros Hn. unfold dec_nonneg.
  destruct (dec_loop_spec (S (Z.to_nat (Z.log2 n))) n []) as (ds & E1 & E2); [|lia|].
  - rewrite Nat2Z.inj_succ, Z2Nat.id by apply Z.log2_nonneg.
    destruct (Z.eq_dec n 0) as [->|]; [cbn; lia|]. pose proof (Z.log2_spec n). lia.
  - rewrite E1, app_nil_r. tauto.
Qed.

Lemma dec_eq n : 0 <= n -> dec n = dec_nonneg n.
Proof. intros. unfold dec. destruct (Z.ltb_spec n 0); [lia|reflexivity]. Qed.

Lemma dec_digits n : 0 <= n -> all_digits (dec n).
Proof. intros. rewrite dec_eq by auto. now apply dec_nonneg_spec. Qed.
Lemma dec_nonnil n : 0 <= n -> dec n <> [].
Proof. intros. rewrite dec_eq by auto. now apply dec_nonneg_spec. Qed.
Lemma dec_value_dec n : 0 <= n -> dec_value (dec n) = n.
Proof. intros. rewrite dec_eq by auto. now apply dec_nonneg_spec. Qed.
Lemma dec_inj a b : 0 <= a -> 0 <= b -> dec a = dec b -> a = b.
Proof. intros. rewrite <- (dec_value_dec a), <- (dec_value_dec b) by auto. congruence. Qed.

Lemma dec_not_in n c : 0 <= n -> ~ (48 <= c <= 57) -> ~ In c (dec n).
Proof.
  intros Hn Hc Hi. pose proof (dec_digits n Hn) as H. unfold all_digits in H.
  rewrite Forall_forall in H. apply Hc. auto.
Qed.

Lemma lstrip_digits p s : Forall (fun c => p c = false) s -> lstrip_by p s = s.
Proof. destruct s; auto. intros H; inversion H; subst. cbn. now rewrite H2. Qed.

Lemma rstrip_none p s : Forall (fun c => p c = false) s -> rstrip_by p s = s.
Proof.
  intros H. unfold rstrip_by. rewrite lstrip_digits; [apply rev_involutive|].
  rewrite Forall_forall in *. intros x Hx. apply H. now apply in_rev.
Qed.

Lemma strip_digits s : all_digits s -> strip s = s.
Proof.
  intros H. assert (H' : Forall (fun c => is_space c = false) s).
  { eapply Forall_impl; [|exact H]. cbv beta. intros c Hc. unfold is_space. lia. }
  unfold strip. rewrite lstrip_digits by auto. now apply rstrip_none.
Qed.

Lemma int_body_digits s : forall a b, all_digits s -> (s <> [] \/ b = true) ->
  int_body s a b = Some (fold_left (fun a c => a * 10 + (c - 48)) s a).
Proof.
  induction s as [|c s IH]; intros a b H Hn; cbn [int_body fold_left].
  - destruct Hn as [Hn | ->]; [easy|reflexivity].
  - inversion H; subst. unfold is_digit. replace ((48 <=? c) && (c <=? 57)) with true by lia.
    apply IH; auto.
Qed.

Lemma py_int_digits s : all_digits s -> s <> [] -> py_int s = Ok (dec_value s).
Proof.
  intros H N. unfold py_int. rewrite strip_digits by auto.
  destruct s as [|c s]; [easy|]. inversion H; subst.
  assert (Hc : match c with 45 => False | 43 => False | _ => True end).
  { destruct c as [|p|p]; auto. do 6 (destruct p as [p|p|]; auto); lia. }
  pose proof (int_body_digits (c :: s) 0 false H ltac:(auto)) as E.
  destruct c as [|p|p]; try lia.
  repeat (destruct p as [p|p|]; try (rewrite E; reflexivity); try easy).
Qed.

Lemma py_int_dec n : 0 <= n -> py_int (dec n) = Ok n.
Proof.
  intros. rewrite py_int_digits; auto using dec_digits, dec_nonnil. now rewrite dec_value_dec.
Qed.

(* a digit string without superfluous leading zero is the decimal of its value *)
Lemma dec_of_value_aux a : forall b, length a = length b -> all_digits a -> all_digits b ->
  dec_value a = dec_value b -> a = b.
Proof.
  induction a as [|c a IH] using rev_ind; intros b L Ha Hb E.
  - destruct b; [auto|cbn in L; lia].
  - destruct b as [|d b _] using rev_ind; [rewrite app_length in L; cbn in L; lia|].
    rewrite !app_length in L. cbn in L. apply Forall_app in Ha as [Ha1 Ha2], Hb as [Hb1 Hb2].
    inversion Ha2; inversion Hb2; subst. rewrite !dec_value_snoc in E.
    assert (c = d) by lia. subst. f_equal. apply IH; auto; lia.
Qed.

Lemma dec_of_value s : all_digits s -> s <> [] -> (s = [48] \/ hd 0 s <> 48) -> dec (dec_value s) = s.
Proof.
  intros H N Hz. destruct Hz as [->|Hz]; [reflexivity|].
  destruct s as [|c s]; [easy|]. cbn [hd] in Hz. inversion H; subst.
  pose proof (dec_value_bound _ H) as Hb.
  assert (Hpos : 10 ^ len s <= dec_value (c :: s)).
  { unfold dec_value. cbn [fold_left]. rewrite dec_value_cons_gen. pose proof (dec_value_bound s H3). nia. }
  assert (0 < dec_value (c :: s)).
  { pose proof (len_nonneg s). assert (0 < 10 ^ len s) by (apply Z.pow_pos_nonneg; lia). lia. }
  rewrite dec_eq by lia. destruct (dec_nonneg_spec (dec_value (c :: s))) as (D1 & D2 & D3 & _ & D5); [lia|].
  apply dec_of_value_aux; auto. specialize (D5 ltac:(lia)).
  set (d := dec_nonneg (dec_value (c :: s))) in *.
  destruct d as [|e d']; [easy|]. cbn [hd] in D5. pose proof (Forall_inv_tail D1) as D1t. pose proof (Forall_inv D1) as D1h. cbv beta in D1h.
  pose proof (dec_value_bound _ D1) as Db.
  assert (Dpos : 10 ^ len d' <= dec_value (e :: d')).
  { unfold dec_value at 1. cbn [fold_left]. rewrite dec_value_cons_gen. pose proof (dec_value_bound d' D1t). nia. }
  rewrite D3 in *. rewrite !len_cons in *.
  assert (len d' < 1 + len s) by (apply (Z.pow_lt_mono_r_iff 10); [lia|pose proof (len_nonneg s); lia|lia]).
  assert (len s < 1 + len d') by (apply (Z.pow_lt_mono_r_iff 10); [lia|pose proof (len_nonneg d'); lia|lia]).
  cbn [length]. unfold len in *. lia.
Qed.

Example tx_ex : tx "a.1"%string = [97; 46; 49].
Proof. reflexivity. Qed.
