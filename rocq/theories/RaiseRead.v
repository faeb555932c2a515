(* The exceptions of reading a structure of the library. *)
Require Import Verif.Base Verif.BaseFacts Verif.IntModel Verif.ParserModel Verif.Text Verif.NameModel Verif.PrimModel Verif.PrimRead Verif.PrimSide Verif.ContModel Verif.ParsModel Verif.GenModel
  Verif.ReadModel Verif.ReadProofs Verif.LibModel Verif.LibRead Verif.LibReadProofs Verif.RaiseSpec Verif.RaiseProofs.
Require Coq.Strings.String.
Require Import Coq.Bool.Bool.
Import Coq.Strings.String.StringSyntax.

Section Env.
Variable env : ref -> option rclass.
Variable pad : bool.

(* ---- the elements of a sequence ---- *)
Definition opt_ok (x : option info) : Prop := match x with Some i => info_ok i | None => True end.
Lemma absent_all l : match absent l with Ok xs => xs = map (fun _ => None) l | Err e => e = ValueError end.
Proof.
  induction l as [|f l IH]; cbn [absent map]; [reflexivity|]. destruct (g_pres f); [reflexivity| |];
    (destruct (absent l); cbn [bind]; [now rewrite IH|exact IH]).
Qed.
Lemma assign_all : forall n c l parts p, bytes_ok c -> 0 <= p <= len c -> opt_ok parts ->
  match assign env n c l parts p with
  | Ok xs => (length l <= length xs)%nat /\ Forall opt_ok xs /\ Forall (fun x => x <> None) (skipn (length l) xs)
  | Err e => e = ValueError \/ e = OutOfFuel
  end.
Proof.
  induction n as [|n IH]; intros c l parts p B L K; cbn [assign]; [now right|]. destruct parts as [i|].
  - destruct l as [|f l].
    + specialize (IH c [] None p B L Logic.I). destruct (assign env n c [] None p) as [xs|]; cbn [bind]; [|exact IH].
      destruct IH as (_ & F & S). split; [cbn; lia|]. split; [now constructor|]. cbn [length skipn] in *. constructor; [discriminate|exact S].
    + destruct (takes env f i).
      * specialize (IH c l None p B L Logic.I). destruct (assign env n c l None p) as [xs|]; cbn [bind]; [|exact IH].
        destruct IH as (N & F & S). split; [cbn; lia|]. split; [now constructor|exact S].
      * specialize (IH c l (Some i) p B L K). destruct (assign env n c l (Some i) p) as [xs|]; cbn [bind]; [|exact IH].
        destruct IH as (N & F & S). split; [cbn; lia|]. split; [now constructor|exact S].
  - destruct (p <? len c).
    + destruct (parse_ c (len c) p) as [[i q]|y] eqn:E; cbn [bind].
      * apply parse_at in E as [Ii Q]; auto. exact (IH c l (Some i) q B Q Ii).
      * left. eapply ParserProofs.parse__err; eauto. lia.
    + pose proof (absent_all l) as A. destruct (absent l) as [xs|]; [|now left]. subst xs.
      split; [now rewrite map_length|]. split; [apply Forall_forall; intros x I; apply in_map_iff in I as (? & <- & _); exact Logic.I|].
      rewrite skipn_all2; [constructor|]. now rewrite map_length.
Qed.

Section One.
Variable rd : ref -> params -> option ref -> info -> res aval.
Variable P : exn -> Prop.
Hypothesis PV : P ValueError.
Hypothesis PF : P OutOfFuel.

Section Seq.
Hypothesis PU : forall e, calm e -> P e.
Variable fs : list rfield.
Variable sel : option selector.
Hypothesis Hf : forall f r p i e, In f fs -> g_class f = Some r -> info_ok i -> rd r p None i = Err e -> P e.
Hypothesis Hs : forall s pk r p i e, sel = Some s -> points_to pk r -> (s_else s = Some pk \/ exists t, In (t, pk) (s_table s)) -> info_ok i ->
  rd r p None i = Err e -> P e.
Hypothesis Hi : forall s pk r f k p i e, sel = Some s -> points_to pk r -> (s_else s = Some pk \/ exists t, In (t, pk) (s_table s)) -> In f fs -> g_class f = Some k ->
  info_ok i -> rd k p (Some r) i = Err e -> P e.
Hypothesis Hk : forall s, sel = Some s -> s_else s = None -> P KeyError.
Hypothesis Hw : forall s, sel = Some s -> s_else s <> None -> match s_key s with
  | [n] => match index_of (fun f => eqb_text (g_name f) n) fs 0 with Some k => (k < s_field s)%nat | None => False end
  | _ => False
  end.

Definition from_sel (pk : pick) : Prop := pk = Keep \/ exists s, sel = Some s /\ (s_else s = Some pk \/ exists t, In (t, pk) (s_table s)).
Lemma field_read_err f pk i e : In f fs -> from_sel pk -> info_ok i -> field_read pad rd f pk i = Err e -> P e.
Proof.
  intros If Fp Ii H. unfold field_read in H. destruct pk as [|r|r], (g_class f) as [k|] eqn:C;
    try (apply PU; eapply gen_err; eauto; fail).
  - eapply Hf; eauto.
  - destruct Fp as [D|(s & S & T)]; [discriminate|]. eapply Hs; eauto. now left.
  - destruct Fp as [D|(s & S & T)]; [discriminate|]. eapply Hs; eauto. now left.
  - destruct Fp as [D|(s & S & T)]; [discriminate|]. eapply Hi; eauto. now right.
Qed.
Lemma field_native_err f pk x e : In f fs -> from_sel pk -> opt_ok x -> field_native pad rd f pk x = Err e -> P e.
Proof.
  intros If Fp Ox H. destruct x as [i|]; cbn in H; [eapply field_read_err; eauto|]. destruct (g_pres f); [congruence|discriminate|discriminate].
Qed.
Lemma natives_err : forall l o pk pos xs e, (forall f, In f l -> In f fs) -> from_sel pk -> Forall opt_ok xs -> Forall (fun x => x <> None) (skipn (length l) xs) ->
  natives pad rd l o pk pos xs = Err e -> P e.
Proof.
  induction l as [|f l IH]; intros o pk pos xs e Hl Fp O S H.
  - cbn [length skipn] in S.
    assert (G : forall pos o e, natives pad rd [] o pk pos xs = Err e -> P e).
    { clear H. induction xs as [|x xs IHx]; intros pos' o' e' H; cbn [natives] in H; [discriminate|]. inversion O; inversion S; subst.
      destruct x as [i|]; [|congruence]. apply bind_err in H as [H|(a & _ & H)]; [apply PU; eapply gen_err; eauto|].
      apply bind_err in H as [H|(r & _ & H)]; [|discriminate]. eapply IHx; eauto. }
    eapply G; eauto.
  - destruct xs as [|x xs]; cbn [natives] in H; [discriminate|]. inversion O; subst. cbn [length skipn] in S.
    apply bind_err in H as [H|(a & _ & H)].
    + eapply field_native_err; [apply Hl; now left| |eassumption|exact H]. destruct o as [[|m]|]; [exact Fp|now left|now left].
    + apply bind_err in H as [H|(r & _ & H)]; [|discriminate]. eapply IH; [|exact Fp| |exact S|exact H]; [|assumption]. intros g G. apply Hl. now right.
Qed.
Lemma table_from l t x : table_get l t = Some x -> exists t', In (t', x) l.
Proof.
  induction l as [|[n y] l IH]; cbn [table_get]; [discriminate|]. destruct (eqb_text n t).
  - intros H. injection H as ->. exists n. now left.
  - intros H. destruct (IH H) as (t' & I). exists t'. now right.
Qed.
Lemma follow_err : forall path a e, follow a path = Err e -> e = KeyError \/ e = TypeError.
Proof.
  induction path as [|n r IH]; intros a e H; cbn [follow] in H; [discriminate|]. destruct a; try (right; congruence).
  destruct (dict_get _ _); [eauto|left; congruence].
Qed.
Lemma index_in (q : rfield -> bool) : forall l b k, index_of q l b = Some k -> (b <= k < b + length l)%nat.
Proof.
  induction l as [|f l IH]; intros b k H; cbn [index_of] in H; [discriminate|]. destruct (q f); [injection H as <-; cbn; lia|].
  apply IH in H. cbn. lia.
Qed.
Lemma chosen_all xs : Forall opt_ok xs -> (length fs <= length xs)%nat ->
  match chosen_pick pad rd fs sel xs with Ok pk => from_sel pk | Err e => P e end.
Proof.
  intros O L. unfold chosen_pick. assert (D : sel = None \/ exists s, sel = Some s) by (case sel; eauto).
  destruct D as [S|(s & S)]; rewrite S; [now left|]. destruct (nth_error xs (s_field s)) as [[i|]|]; [|now left|now left].
  assert (UT : forall e, untyped_error e -> P e) by (intros e U; apply PU; right; now left).
  destruct (key_native pad rd fs s xs) as [a|e] eqn:K; cbn [bind].
  - unfold picked. destruct (match a with APrim (NText t) => table_get (s_table s) t | _ => None end) as [x|] eqn:T.
    + right. exists s. split; [auto|]. right. destruct a as [|v| | | |]; try discriminate. destruct v as [| | |t| | | |]; try discriminate. eapply table_from; eauto.
    + destruct (s_else s) as [x|] eqn:E; [right; exists s; auto|eapply Hk; eauto].
  - assert (FN : forall k f x y, nth_error fs k = Some f -> nth_error xs k = Some x -> field_native pad rd f Keep x = Err y -> P y).
    { intros k f x y A B C. eapply field_native_err; [eapply nth_error_In; eauto|now left| |exact C]. rewrite Forall_forall in O. apply O. eapply nth_error_In; eauto. }
    unfold key_native in K. destruct (s_else s) as [x|] eqn:E.
    + pose proof (Hw s S ltac:(rewrite E; discriminate)) as W. destruct (s_key s) as [|n [|n' r]]; try contradiction.
      destruct (index_of _ fs 0) as [k|] eqn:Ix; [|contradiction]. apply index_in in Ix. apply Nat.ltb_lt in W. rewrite W in K.
      destruct (nth_error fs k) as [f|] eqn:Nf; [|apply nth_error_None in Nf; lia].
      destruct (nth_error xs k) as [x'|] eqn:Nx; [|apply nth_error_None in Nx; lia].
      apply bind_err in K as [K|(b & _ & K)]; [eauto|]. cbn in K. discriminate.
    + assert (PK : P KeyError) by (eapply Hk; eauto).
      assert (PI : P IndexError) by (apply UT; right; now left). assert (PT : P TypeError) by (apply UT; now left).
      destruct (s_key s) as [|n r]; [congruence|]. destruct (index_of _ fs 0) as [k|]; [|congruence]. destruct (Nat.ltb k (s_field s)); [|congruence].
      destruct (nth_error fs k) as [f|] eqn:Nf; [|congruence]. destruct (nth_error xs k) as [x'|] eqn:Nx; [|congruence].
      apply bind_err in K as [K|(b & _ & K)]; [eauto|]. apply follow_err in K as [->| ->]; auto.
Qed.
Lemma seq_err c e : bytes_ok c -> seq_native env pad rd fs sel c = Err e -> P e.
Proof.
  intros B H. unfold seq_native in H. pose proof (assign_all (S (2 * length c + length fs)) c fs None 0 B (zero_len c) Logic.I) as A.
  destruct (assign env _ c fs None 0) as [xs|y]; cbn [bind] in H; [|injection H as <-; destruct A as [->| ->]; auto].
  destruct A as (L & O & S). pose proof (chosen_all xs O L) as C. destruct (chosen_pick pad rd fs sel xs) as [pk|y]; cbn [bind] in H; [|injection H as <-; exact C].
  apply bind_err in H as [H|(l & _ & H)]; [|discriminate]. eapply natives_err; eauto.
Qed.
End Seq.

Lemma of_err item c e : (forall r i e, item = Some r -> info_ok i -> rd r no_params None i = Err e -> P e) ->
  (item = None -> forall e, calm e -> P e) -> bytes_ok c -> of_native pad rd item c = Err e -> P e.
Proof.
  intros Hr Hn B H. unfold of_native in H. apply bind_err in H as [H|(l & _ & H)]; [|discriminate].
  eapply (loop_err _ P); [exact PV|exact PF| |exact B|apply zero_len|exact H]. intros i y Ii K. destruct item as [r|]; [eauto|].
  apply Hn; auto. eapply gen_err; eauto.
Qed.
Lemma choice_err c alts p i e : (forall f r p i e, In f alts -> g_class f = Some r -> info_ok i -> rd r p None i = Err e -> P e) ->
  ((exists f, In f alts /\ g_class f = None) -> forall e, calm e -> P e) ->
  info_ok i -> choice_native env pad rd c alts None p i = Err e -> P e.
Proof.
  intros Ha Hn Ii H. unfold choice_native in H. apply bind_err in H as [H|(u & _ & H)]; [destruct (p_implicit p); congruence|].
  pose proof (stripped_all c p i Ii) as S. destruct (stripped c p i) as [[[[j t] h] tl]|y]; cbn [bind] in H; [|congruence]. destruct S as (Ij & _ & _).
  destruct (alt_at env alts 0 (i_class j) (i_tag j)) as [k|] eqn:A; [|congruence]. cbn [recheck bind] in H.
  assert (N : forall l b cl tg k, alt_at env l b cl tg = Some k -> (b <= k < b + length l)%nat).
  { induction l as [|f l IH]; intros b cl tg m M; cbn [alt_at] in M; [discriminate|]. destruct (alt_at env l (S b) cl tg) as [m'|] eqn:E.
    - injection M as ->. apply IH in E. cbn. lia.
    - destruct (same_id _ _ _); [injection M as <-; cbn; lia|discriminate]. }
  apply N in A. destruct (nth_error alts k) as [f|] eqn:F; [|apply nth_error_None in F; lia]. apply nth_error_In in F.
  assert (B : bytes_ok (i_header j ++ i_contents j)) by (apply bytes_ok_app; split; apply Ij).
  destruct (parse_ _ _ _) as [[j' q]|y] eqn:E; cbn [bind] in H; [|injection H as <-; apply parse_0_err in E; [subst y; exact PV|exact B]].
  apply parse_0 in E; [|exact B]. unfold field_read in H. destruct (g_class f) as [r|] eqn:G; [exact (Ha f r _ j' e F G E H)|]. apply Hn; [eauto|]. exact (gen_err pad j' e E H).
Qed.

(* ---- what a reading gives ---- *)
Lemma seq_gives f g l0 sel c a : option_map s_field sel <> Some 0%nat -> bytes_ok c -> seq_native env pad rd (f :: g :: l0) sel c = Ok a ->
  exists x y b d l, a = ADict ((g_name f, b) :: (g_name g, d) :: l) /\ opt_ok x /\ opt_ok y /\ field_native pad rd f Keep x = Ok b.
Proof.
  intros N B H. unfold seq_native in H.
  pose proof (assign_all (S (2 * length c + length (f :: g :: l0))) c (f :: g :: l0) None 0 B (zero_len c) Logic.I) as A.
  destruct (assign env _ c (f :: g :: l0) None 0) as [xs|]; cbn [bind] in H; [|discriminate]. destruct A as (L & O & _).
  destruct (chosen_pick _ _ _ _ _) as [pk|]; cbn [bind] in H; [|discriminate].
  destruct xs as [|x [|y xs]]; cbn [length] in L; try lia. inversion O as [|? ? Ox O']. inversion O' as [|? ? Oy _]. subst. cbn [natives] in H.
  assert (E : match option_map s_field sel with Some O => pk | _ => Keep end = Keep).
  { destruct (option_map s_field sel) as [[|m]|]; congruence. }
  rewrite E in H. destruct (field_native pad rd f Keep x) as [b|] eqn:F; cbn [bind] in H; [|discriminate].
  destruct (field_native pad rd g _ y) as [d|]; cbn [bind] in H; [|discriminate].
  destruct (natives _ _ _ _ _ _ _) as [l|]; cbn [bind] in H; [|discriminate]. injection H as <-. exists x, y, b, d, l. repeat split; auto.
Qed.
Lemma of_gives r c a : bytes_ok c -> of_native pad rd (Some r) c = Ok a ->
  exists l, a = AList l /\ Forall (fun x => exists i, info_ok i /\ rd r no_params None i = Ok x) l.
Proof.
  intros B H. unfold of_native in H. destruct (kids_loop _ _ _ _) as [l|] eqn:E; [|discriminate]. cbn [bind] in H. injection H as <-.
  exists l. split; [reflexivity|]. eapply (loop_all _ (fun x => exists i, info_ok i /\ rd r no_params None i = Ok x)); [|exact B|apply zero_len|exact E].
  intros i x Ii R. eauto.
Qed.
Lemma choice_gives c alts p i a : info_ok i -> choice_native env pad rd c alts None p i = Ok a ->
  exists f j, In f alts /\ info_ok j /\ field_read pad rd f Keep j = Ok a.
Proof.
  intros Ii H. unfold choice_native in H. destruct (p_implicit p); cbn [bind] in H; [discriminate|].
  pose proof (stripped_all c p i Ii) as S. destruct (stripped c p i) as [[[[j t] h] tl]|y]; cbn [bind] in H; [|discriminate]. destruct S as (Ij & _ & _).
  destruct (alt_at env alts 0 (i_class j) (i_tag j)) as [k|]; [|discriminate]. cbn [recheck bind] in H.
  destruct (nth_error alts k) as [f|] eqn:F; [|discriminate]. apply nth_error_In in F.
  assert (B : bytes_ok (i_header j ++ i_contents j)) by (apply bytes_ok_app; split; apply Ij).
  destruct (parse_ _ _ _) as [[j' q]|y] eqn:E; cbn [bind] in H; [|discriminate]. apply parse_0 in E; auto. eauto.
Qed.
End One.
Lemma oid_gives m c p i a : info_ok i -> prim_native (KOid m) c p i = Ok a -> exists t, a = APrim (NText t).
Proof.
  intros (_ & B & _) H. unfold prim_native in H. destruct (build _ _ _ _) as [o|] eqn:E; [|discriminate]. cbn [bind] in H.
  destruct (build_contents _ _ _ _ _ B E) as (b & C & _ & N & _). unfold get_native in H. rewrite C, N in H. cbn [c_native no_cache] in H.
  destruct (get_dotted o b) as [o' s]. destruct (tmap_get m s); cbn in H; injection H as <-; eauto.
Qed.
End Env.
