(* More about _inet.py: letters of both cases, wrong sizes, empty objects. *)
Require Import Verif.Base Verif.BaseFacts Verif.Text Verif.InetModel Verif.InetSpec.

(* ASCII letters in lower case *)
Definition lower1 (c : Z) : Z := if (65 <=? c) && (c <=? 90) then c + 32 else c.
Definition lower_text (s : text) : text := map lower1 s.

Lemma lower_val c : hex_val (lower1 c) = hex_val c.
Proof.
  unfold hex_val, lower1. destruct ((65 <=? c) && (c <=? 90)) eqn:E; [|reflexivity].
  destruct ((48 <=? c) && (c <=? 57)) eqn:A; [lia|]. destruct ((97 <=? c) && (c <=? 102)) eqn:B; [lia|].
  destruct ((48 <=? c + 32) && (c + 32 <=? 57)) eqn:C; [lia|].
  destruct ((65 <=? c) && (c <=? 70)) eqn:D.
  - destruct ((97 <=? c + 32) && (c + 32 <=? 102)) eqn:F; [f_equal; lia|lia].
  - destruct ((97 <=? c + 32) && (c + 32 <=? 102)) eqn:F; [lia|]. destruct ((65 <=? c + 32) && (c + 32 <=? 70)) eqn:G; [lia|reflexivity].
Qed.
(* characters that are no letters are not touched *)
Lemma lower_eqb c k : ~ (65 <= k <= 90) -> ~ (97 <= k <= 122) -> (lower1 c =? k) = (c =? k).
Proof. intros A B. unfold lower1. destruct ((65 <=? c) && (c <=? 90)) eqn:E; [|reflexivity]. lia. Qed.
Lemma lower_space c : is_space (lower1 c) = is_space c.
Proof. unfold lower1. destruct ((65 <=? c) && (c <=? 90)) eqn:E; [|reflexivity]. unfold is_space. lia. Qed.
Lemma lower_lstrip s : lstrip_by is_space (lower_text s) = lower_text (lstrip_by is_space s).
Proof. induction s as [|c s IH]; [reflexivity|]. cbn [lower_text map lstrip_by]. rewrite lower_space. destruct (is_space c); [exact IH|reflexivity]. Qed.
Lemma lower_rev s : rev (lower_text s) = lower_text (rev s).
Proof. unfold lower_text. now rewrite map_rev. Qed.
Lemma lower_strip s : strip (lower_text s) = lower_text (strip s).
Proof. unfold strip, rstrip_by. now rewrite lower_lstrip, lower_rev, lower_lstrip, lower_rev. Qed.
Lemma lower_body s : forall a b, hex_body (lower_text s) a b = hex_body s a b.
Proof.
  induction s as [|c s IH]; intros a b; [reflexivity|]. cbn [lower_text map hex_body]. rewrite lower_val, lower_eqb by lia.
  destruct (hex_val c); [apply IH|]. destruct ((c =? 95) && b); [apply IH|reflexivity].
Qed.
Lemma lower_x c : (lower1 c =? 120) || (lower1 c =? 88) = (c =? 120) || (c =? 88).
Proof. unfold lower1. destruct ((65 <=? c) && (c <=? 90)) eqn:E; lia. Qed.
Lemma hex_prefixed_eq s : hex_prefixed s =
  match s with
  | z :: x :: r => if (z =? 48) && ((x =? 120) || (x =? 88)) then
                     match r with y :: r' => if y =? 95 then hex_body r' 0 false else hex_body r 0 false | [] => None end
                   else hex_body s 0 false
  | _ => hex_body s 0 false
  end.
Proof.
  destruct s as [|z [|x r]]; [reflexivity| |]; destruct (Z.eqb_spec z 48) as [->|N]; try reflexivity;
  (destruct z as [|p|p]; try reflexivity; repeat (destruct p; try reflexivity); easy).
Qed.
Lemma lower_prefixed s : hex_prefixed (lower_text s) = hex_prefixed s.
Proof.
  rewrite !hex_prefixed_eq. destruct s as [|z [|x r]]; [reflexivity|apply (lower_body [z])|]. cbn [lower_text map].
  rewrite lower_x, lower_eqb by lia. destruct ((z =? 48) && ((x =? 120) || (x =? 88))); [|apply (lower_body (z :: x :: r))].
  destruct r as [|y r]; [reflexivity|]. cbn [map]. rewrite lower_eqb by lia. destruct (y =? 95); [apply lower_body|apply (lower_body (y :: r))].
Qed.
Lemma py_int16_eq s : py_int16 s =
  match (match strip s with
         | c :: r => if c =? 45 then option_map Z.opp (hex_prefixed r) else if c =? 43 then hex_prefixed r else hex_prefixed (c :: r)
         | [] => None
         end) with Some n => Ok n | None => Err ValueError end.
Proof.
  unfold py_int16. destruct (strip s) as [|c r]; [reflexivity|].
  destruct (Z.eqb_spec c 45) as [->|N]; [reflexivity|]. destruct (Z.eqb_spec c 43) as [->|M]; [reflexivity|].
  destruct c as [|p|p]; try reflexivity; repeat (destruct p; try reflexivity); easy.
Qed.
Lemma lower_int16 s : py_int16 (lower_text s) = py_int16 s.
Proof.
  rewrite !py_int16_eq, lower_strip. destruct (strip s) as [|c r]; [reflexivity|]. cbn [lower_text map]. rewrite !lower_eqb by lia.
  change (lower1 c :: map lower1 r) with (lower_text (c :: r)). change (map lower1 r) with (lower_text r). now rewrite !lower_prefixed.
Qed.
Lemma lower_ints l : ints6 (map lower_text l) = ints6 l.
Proof. induction l as [|o l IH]; [reflexivity|]. cbn [map ints6]. rewrite lower_int16. destruct (py_int16 o); [|reflexivity]. cbn [bind]. now rewrite IH. Qed.
Lemma lower_split s : split_on 58 (lower_text s) = map lower_text (split_on 58 s).
Proof.
  induction s as [|c s IH]; [reflexivity|]. cbn [lower_text map split_on]. rewrite lower_eqb by lia. fold (lower_text s). rewrite IH.
  destruct (c =? 58); [reflexivity|]. destruct (split_on 58 s); reflexivity.
Qed.
Lemma pair_ind (P : text -> Prop) : P [] -> (forall a, P [a]) -> (forall a b r, P r -> P (b :: r) -> P (a :: b :: r)) -> forall s, P s.
Proof. intros H0 H1 H2 s. enough (P s /\ forall a, P (a :: s)) by tauto. induction s as [|b s [A B]]; [auto|]. split; auto. Qed.
Lemma lower_count s : count2 (lower_text s) = count2 s.
Proof.
  induction s as [|a|a b r IH1 IH2] using pair_ind; [reflexivity|reflexivity|].
  assert (forall x y z, count2 (x :: y :: z) = if (x =? 58) && (y =? 58) then 1 + count2 z else count2 (y :: z)) as E by reflexivity.
  change (lower_text (a :: b :: r)) with (lower1 a :: lower1 b :: lower_text r). rewrite (E a b r), E, !lower_eqb by lia.
  destruct ((a =? 58) && (b =? 58)); [f_equal; exact IH1|exact IH2].
Qed.
Lemma lower_split2 s : split2 (lower_text s) = (lower_text (fst (split2 s)), lower_text (snd (split2 s))).
Proof.
  induction s as [|a|a b r IH1 IH2] using pair_ind; [reflexivity|reflexivity|].
  change (lower_text (a :: b :: r)) with (lower1 a :: lower_text (b :: r)). change (lower_text (b :: r)) with (lower1 b :: lower_text r) at 1.
  assert (forall x y z, split2 (x :: y :: z) = if (x =? 58) && (y =? 58) then ([], z) else let '(u, v) := split2 (y :: z) in (x :: u, v)) as E by reflexivity.
  rewrite (E a b r), (E (lower1 a) (lower1 b) (lower_text r)). rewrite !lower_eqb by lia. destruct ((a =? 58) && (b =? 58)); [reflexivity|].
  change (lower1 b :: lower_text r) with (lower_text (b :: r)). rewrite IH2. destruct (split2 (b :: r)). reflexivity.
Qed.
Lemma len_map {A B} (f : A -> B) l : len (map f l) = len l.
Proof. unfold len. now rewrite map_length. Qed.
Lemma pton6_case s : pton6 (lower_text s) = pton6 s.
Proof.
  unfold pton6. rewrite lower_count, lower_split, lower_split2. destruct (1 <? count2 s); [reflexivity|].
  destruct (count2 s =? 0).
  - rewrite len_map. destruct (len (split_on 58 s) =? 8); [|reflexivity]. cbn [bind]. now rewrite lower_ints.
  - destruct (split2 s) as [b e]. cbn [fst snd bind]. rewrite !lower_split, !len_map.
    assert (forall n, repeat [48] n = map lower_text (repeat [48] n)) as R by (intros n; induction n as [|n IH]; [reflexivity|]; cbn [repeat map]; now rewrite <- IH).
    rewrite (R (Z.to_nat _)), <- !map_app, lower_ints, <- R. reflexivity.
Qed.
Lemma same_letters s t : lower_text s = lower_text t -> pton6 s = pton6 t.
Proof. intros E. now rewrite <- (pton6_case s), <- (pton6_case t), E. Qed.

Lemma ntop_sizes v6 p : len p <> size_of v6 -> shim_ntop v6 p = Err ValueError.
Proof.
  intros H. destruct v6; cbn [size_of shim_ntop] in *; unfold ntop6, ntop4.
  - destruct (Z.eqb_spec (len p) 16); [lia|reflexivity].
  - destruct (Z.eqb_spec (len p) 4); [lia|reflexivity].
Qed.
Lemma read_empty ntop t : ip_read ntop (mk_ip None t) = (mk_ip None t, Ok None).
Proof. reflexivity. Qed.
(* the first reading of loaded contents, and every one after it *)
Lemma read_loaded ntop c t : ip_native ntop c = Ok t ->
  exists o, ip_read ntop (mk_ip (Some c) None) = (o, Ok t) /\ ip_contents o = Some c /\ snd (ip_read ntop o) = Ok t.
Proof.
  intros H. unfold ip_read. cbn [ip_contents ip_text]. rewrite H. eexists. split; [reflexivity|]. split; [reflexivity|].
  cbn [ip_contents ip_text]. destruct t; [reflexivity|]. now rewrite H.
Qed.
