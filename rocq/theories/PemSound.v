Require Import Verif.Base Verif.BaseFacts Verif.Text Verif.PemModel Verif.PemSpec Verif.PemProofs.

Definition lchar (c : Z) : Prop := 65 <= c <= 90 \/ 48 <= c <= 57 \/ c = 32.
Lemma label_char_spec c : label_char c = true <-> lchar c.
Proof. unfold label_char, lchar. lia. Qed.
Lemma span_label_spec s : forall a b, span_label s = (a, b) ->
  s = a ++ b /\ Forall lchar a /\ match b with [] => True | c :: _ => label_char c = false end.
Proof.
  induction s as [|c s IH]; intros a b H; cbn in H.
  - inversion H; subst. repeat split; constructor.
  - destruct (label_char c) eqn:E.
    + destruct (span_label s) as [a' b'] eqn:F. inversion H; subst. destruct (IH _ _ eq_refl) as (-> & A & B).
      repeat split; [|exact B]. constructor; [now apply label_char_spec|exact A].
    + inversion H; subst. repeat split; [constructor|exact E].
Qed.
Lemma len_run (run : text) : run <> [] -> last run 0 = 32 -> run = removelast run ++ [32].
Proof. intros N E. rewrite <- E. now apply app_removelast_last. Qed.

Lemma match_begin_as l ty : match_begin l = Some ty -> begins_as l ty.
Proof.
  unfold match_begin. intros H.
  assert (exists d s, (d = tx "-----" \/ d = tx "---- ") /\ l = d ++ tx "BEGIN " ++ s /\
     (let '(run, after) := span_label s in
      if negb (match run with [] => true | _ => false end) && starts_with (tx "-----") after then Some run
      else if (2 <=? len run) && (last run 0 =? 32) && starts_with (tx "----") after then Some (removelast run)
      else None) = Some ty) as (d & s & D & -> & G).
  { destruct (starts_with (tx "-----BEGIN ") l) eqn:A.
    - apply starts_spec in A as [r ->]. exists (tx "-----"), r. split; [now left|]. split; [reflexivity|exact H].
    - destruct (starts_with (tx "---- BEGIN ") l) eqn:B; [|discriminate].
      apply starts_spec in B as [r ->]. exists (tx "---- "), r. split; [now right|]. split; [reflexivity|exact H]. }
  clear H. destruct (span_label s) as [run after] eqn:E. destruct (span_label_spec s _ _ E) as (-> & R & _).
  destruct (negb (match run with [] => true | _ => false end) && starts_with (tx "-----") after) eqn:A.
  - inversion G; subst run. apply andb_prop in A as [A1 A2]. apply starts_spec in A2 as [r ->].
    split; [split; [now destruct ty|exact R]|]. exists d, (tx "-----"), r. repeat split; auto.
  - destruct ((2 <=? len run) && (last run 0 =? 32) && starts_with (tx "----") after) eqn:B; [|discriminate].
    apply andb_prop in B as [B B3]. apply andb_prop in B as [B1 B2]. apply starts_spec in B3 as [r ->]. assert (removelast run = ty) as G1 by congruence. clear G.
    assert (run = ty ++ [32]) as ->. { rewrite <- G1. apply len_run; [|lia]. intros ->. cbn in B1. discriminate. }
    apply Forall_app in R as [R _].
    split; [split; [|exact R]|].
    + intros ->. cbn in B1. discriminate.
    + exists d, (tx " ----"), r. repeat split; auto. rewrite <- app_assoc. reflexivity.
Qed.
Lemma begins_as_match l ty : begins_as l ty -> exists ty', match_begin l = Some ty' /\ len ty <= len ty'.
Proof.
  intros [[N L] (d & e & r & D & E & ->)]. unfold match_begin.
  assert ((if starts_with (tx "-----BEGIN ") (d ++ tx "BEGIN " ++ ty ++ e ++ r) then Some (skipn 11 (d ++ tx "BEGIN " ++ ty ++ e ++ r))
           else if starts_with (tx "---- BEGIN ") (d ++ tx "BEGIN " ++ ty ++ e ++ r) then Some (skipn 11 (d ++ tx "BEGIN " ++ ty ++ e ++ r))
           else None) = Some (ty ++ e ++ r)) as ->.
  { destruct D as [->| ->]; reflexivity. }
  destruct E as [->| ->].
  - rewrite span_label_run by (try exact L; reflexivity). exists ty. split; [|lia]. destruct ty; [congruence|reflexivity].
  - change (ty ++ tx " ----" ++ r) with (ty ++ [32] ++ tx "----" ++ r). rewrite app_assoc.
    rewrite span_label_run; [|apply Forall_app; split; [exact L|constructor; [lia|constructor]]|reflexivity].
    destruct (negb (match ty ++ [32] with [] => true | _ => false end) && starts_with (tx "-----") (tx "----" ++ r)).
    + eexists. split; [reflexivity|]. rewrite len_app. change (len [32]) with 1. lia.
    + exists ty. split; [|lia]. rewrite last_last, starts_app.
      assert (2 <=? len (ty ++ [32]) = true) as ->. { rewrite len_app. destruct ty; [congruence|]. unfold len; cbn [length]. lia. }
      cbn. now rewrite removelast_last.
Qed.
Lemma match_begin_some l ty : match_begin l = Some ty -> begins l ty.
Proof.
  intros H. split; [now apply match_begin_as|]. intros t T. apply begins_as_match in T as (t' & E & L). rewrite H in E. now inversion E.
Qed.
Lemma match_begin_none l : match_begin l = None -> forall ty, ~ begins l ty.
Proof. intros H ty [B _]. apply begins_as_match in B as (t & E & _). congruence. Qed.
Lemma dashes_ends l : dashes l = true <-> ends l.
Proof.
  unfold dashes, ends. split.
  - intros H. apply orb_prop in H as [H|H]; apply starts_spec in H as [r ->]; exists r; tauto.
  - intros [r [->| ->]]; rewrite starts_app; [reflexivity|apply orb_true_r].
Qed.
Lemma split_colon_spec s : In 58 s -> forall a b, split_colon s = (a, b) -> s = a ++ 58 :: b /\ ~ In 58 a.
Proof.
  induction s as [|c s IH]; intros H a b E; [destruct H|]. cbn in E. destruct (c =? 58) eqn:C.
  - inversion E; subst. split; [cbn; f_equal; lia|intros []].
  - destruct (split_colon s) as [a' b'] eqn:F. inversion E; subst.
    destruct (IH ltac:(destruct H; [lia|assumption]) _ _ eq_refl) as [-> N]. split; [reflexivity|]. intros [X|X]; [lia|auto].
Qed.

(* ---- dictionaries ---- *)
Lemma header_set_keys l k v k' : In k' (map fst (header_set l k v)) <-> k' = k \/ In k' (map fst l).
Proof.
  induction l as [|[k0 w] l IH]; cbn [header_set map fst In]; [intuition congruence|].
  destruct (eqb_text k0 k) eqn:E; cbn [map fst In].
  - apply eqb_bytes_spec in E. subst. intuition congruence.
  - rewrite IH. tauto.
Qed.
Lemma header_set_nodup l k v : NoDup (map fst l) -> NoDup (map fst (header_set l k v)).
Proof.
  induction l as [|[k0 w] l IH]; cbn [header_set map fst]; intros H; [constructor; [intros []|constructor]|].
  inversion H; subst. destruct (eqb_text k0 k) eqn:E; cbn [map fst]; constructor; auto.
  rewrite header_set_keys. intros [->|X]; [|auto]. unfold eqb_text in E. rewrite eqb_bytes_refl in E. discriminate.
Qed.
Lemma header_set_in l k v k' v' : NoDup (map fst l) ->
  In (k', v') (header_set l k v) <-> (k' = k /\ v' = v) \/ (k' <> k /\ In (k', v') l).
Proof.
  induction l as [|[k0 w] l IH]; cbn [header_set map fst]; intros H.
  - cbn. intuition congruence.
  - inversion H; subst. destruct (eqb_text k0 k) eqn:E.
    + apply eqb_bytes_spec in E. subst k0. cbn [In]. split.
      * intros [X|X]; [inversion X; auto|]. right. split; [|now right]. intros ->. apply H2. now apply (in_map fst) in X.
      * intros [[-> ->]|[N [X|X]]]; [now left|inversion X; congruence|now right].
    + assert (k0 <> k). { intros ->. unfold eqb_text in E. rewrite eqb_bytes_refl in E. discriminate. }
      cbn [In]. rewrite IH by assumption. split.
      * intros [X|[X|[N X]]]; [inversion X; subst; right; auto|now left|auto].
      * intros [X|[N [X|X]]]; [auto|auto|auto].
Qed.
Lemma dict_of_nil : dict_of [] [].
Proof. split; [constructor|]. intros k v. split; [intros []|]. intros (a & b & E & _). destruct a; discriminate. Qed.
Lemma dict_of_snoc hs ps k v : dict_of hs ps -> dict_of (header_set hs k v) (ps ++ [(k, v)]).
Proof.
  intros [N D]. split; [now apply header_set_nodup|]. intros k' v'. rewrite header_set_in by exact N. split.
  - intros [[-> ->]|[X Y]]; [exists ps, []; split; [reflexivity|intros []]|].
    apply D in Y as (a & b & -> & B). exists a, (b ++ [(k, v)]). rewrite <- app_assoc. split; [reflexivity|].
    rewrite map_app. intros Z. apply in_app_or in Z as [Z|[Z|[]]]; [auto|]. cbn in Z. congruence.
  - intros (a & b & E & B). destruct b as [|x b] using rev_ind.
    + apply app_inj_tail in E as [_ E]. inversion E. auto.
    + clear IHb. rewrite app_comm_cons, app_assoc in E. apply app_inj_tail in E as [E <-]. rewrite map_app in B.
      right. split; [intros ->; apply B; apply in_or_app; right; now left|]. apply D. exists a, b. split; [exact E|].
      intros Z. apply B. apply in_or_app. now left.
Qed.

(* ---- the loop ---- *)
Definition in_body (b64 : bytes) (ty : text) (hs : list (text * text)) (ls : list bytes) (bs : list block) : Prop :=
  (Forall (fun l => ~ ends l) ls /\ bs = [])
  \/ exists bl last rest der bs', ls = bl ++ last :: rest /\ Forall (fun l => ~ ends l) bl /\ ends last
       /\ b64decode (b64 ++ concat bl) = Ok der /\ pem_lines rest bs' /\ bs = Block ty hs der :: bs'.
Definition in_headers (ty : text) (hs ps : list (text * text)) (ls : list bytes) (bs : list block) : Prop :=
  exists hl ps' hs' bl, ls = hl ++ bl /\ Forall2 header_of hl ps' /\ dict_of hs' (ps ++ ps') /\ in_body [] ty hs' bl bs.

Lemma body_step b64 ty hs l r bs : dashes l = false -> in_body (b64 ++ l) ty hs r bs -> in_body b64 ty hs (l :: r) bs.
Proof.
  intros D H. assert (~ ends l) as N by (rewrite <- dashes_ends; congruence). destruct H as [[F ->]|(bl & last & rest & der & bs' & -> & F & E & B & P & ->)].
  - left. split; [now constructor|reflexivity].
  - right. exists (l :: bl), last, rest, der, bs'. repeat split; auto. cbn [concat]. now rewrite app_assoc.
Qed.
Lemma body_end b64 ty hs l r der bs : dashes l = true -> b64decode b64 = Ok der -> pem_lines r bs ->
  in_body b64 ty hs (l :: r) (Block ty hs der :: bs).
Proof.
  intros D B P. right. exists [], l, r, der, bs. repeat split; auto; [now apply dashes_ends|]. cbn. now rewrite app_nil_r.
Qed.
Lemma no_begin_nil : no_begin []. Proof. intros l ty []. Qed.
Lemma trash_step l r bs : match_begin l = None -> pem_lines r bs -> pem_lines (l :: r) bs.
Proof.
  intros M H. pose proof (match_begin_none l M) as N.
  assert (forall ls, no_begin ls -> no_begin (l :: ls)) as C. { intros ls G x ty [<-|X]; [apply N|now apply G]. }
  destruct H as [ls G|junk l' ty hl ps bl G B F E|junk l' ls b rest bs G B F P].
  - apply pl_rest. auto.
  - apply (pl_open (l :: junk) l' ty hl ps bl); auto.
  - apply (pl_block (l :: junk) l' ls b rest bs); auto.
Qed.
Lemma sound_loop ls : Forall (fun l => l <> []) ls -> forall st a b bs,
  unarmor_loop st a b ls = (bs, None) ->
  match st with
  | Trash => pem_lines ls bs
  | Headers ty hs => forall ps, dict_of hs ps -> in_headers ty hs ps ls bs
  | Body ty hs b64 => in_body b64 ty hs ls bs
  end.
Proof.
  intros F. induction F as [|l ls N F IH]; intros st a b bs H.
  - cbn in H. inversion H; subst. destruct st.
    + apply pl_rest. exact no_begin_nil.
    + intros ps D. exists [], [], hs, []. split; [reflexivity|]. split; [constructor|]. split; [now rewrite app_nil_r|].
      left. split; [constructor|reflexivity].
    + left. split; [constructor|reflexivity].
  - destruct l as [|x w]; [congruence|]. set (l := x :: w) in *. cbn [unarmor_loop] in H. fold l in H.
    assert (forall ty hs b64 bs,
      (if starts_with (tx "-----") l || starts_with (tx "---- ") l then
         match b64decode b64 with
         | Ok der => let '(bs, e) := unarmor_loop Trash a true ls in (Block ty hs der :: bs, e)
         | Err e => ([], Some e) end
       else unarmor_loop (Body ty hs (b64 ++ l)) a b ls) = (bs, None) -> in_body b64 ty hs (l :: ls) bs) as BODY.
    { clear H bs. intros ty hs b64 bs H. fold (dashes l) in H. destruct (dashes l) eqn:D.
      - destruct (b64decode b64) as [der|e] eqn:B; [|discriminate].
        destruct (unarmor_loop Trash a true ls) as [bs' e] eqn:U. inversion H; subst. apply body_end; auto. exact (IH Trash _ _ _ U).
      - apply body_step; [exact D|]. exact (IH (Body ty hs (b64 ++ l)) _ _ _ H). }
    destruct st.
    + destruct (match_begin l) as [ty|] eqn:M.
      * pose proof (match_begin_some l ty M) as B. pose proof (IH (Headers ty []) _ _ _ H [] dict_of_nil) as (hl & ps & hs & bl & -> & G & D & I).
        cbn [app] in D. destruct I as [[X ->]|(bl' & last & rest & der & bs' & -> & X & E & Q & P & ->)].
        -- apply (pl_open [] l ty hl ps bl); auto. exact no_begin_nil.
        -- replace (l :: hl ++ bl' ++ last :: rest) with ([] ++ l :: (hl ++ bl' ++ [last]) ++ rest).
           2: { cbn [app]. rewrite <- !app_assoc. reflexivity. }
           apply pl_block; [exact no_begin_nil|exact B| |exact P]. exists hl, bl', last, ps. repeat split; auto; apply D.
      * apply trash_step; [exact M|]. exact (IH Trash _ _ _ H).
    + intros ps D. destruct (contains [58] l) eqn:C.
      * apply contains_colon in C. unfold ascii_codec in H. destruct (forallb _ l); [|discriminate].
        destruct (split_colon l) as [k v] eqn:S. destruct (split_colon_spec l C _ _ S) as [E NK].
        pose proof (IH (Headers ty (header_set hs k (strip v))) _ _ _ H _ (dict_of_snoc hs ps k (strip v) D)) as (hl & ps' & hs' & bl & -> & G & D' & I).
        exists (l :: hl), ((k, strip v) :: ps'), hs', bl. split; [reflexivity|]. split; [|split].
        -- constructor; [|exact G]. exists v. cbn. auto.
        -- rewrite <- app_assoc in D'. exact D'.
        -- exact I.
      * exists [], [], hs, (l :: ls). split; [reflexivity|]. split; [constructor|]. split; [now rewrite app_nil_r|].
        apply BODY. exact H.
    + apply BODY. exact H.
Qed.
Lemma loop_nonempty ls : forall st a, snd (unarmor_loop st a false ls) = None -> fst (unarmor_loop st a false ls) <> [].
Proof.
  induction ls as [|l ls IH]; intros st a; [cbn; rewrite orb_true_r; discriminate|].
  destruct l as [|x w]; [exact (IH st a)|]. set (l := x :: w). cbn [unarmor_loop]. fold l.
  assert (forall ty hs b64,
      snd (if starts_with (tx "-----") l || starts_with (tx "---- ") l then
         match b64decode b64 with
         | Ok der => let '(bs, e) := unarmor_loop Trash a true ls in (Block ty hs der :: bs, e)
         | Err e => ([], Some e) end
       else unarmor_loop (Body ty hs (b64 ++ l)) a false ls) = None ->
      fst (if starts_with (tx "-----") l || starts_with (tx "---- ") l then
         match b64decode b64 with
         | Ok der => let '(bs, e) := unarmor_loop Trash a true ls in (Block ty hs der :: bs, e)
         | Err e => ([], Some e) end
       else unarmor_loop (Body ty hs (b64 ++ l)) a false ls) <> []) as BODY.
  { intros ty hs b64. destruct (starts_with (tx "-----") l || starts_with (tx "---- ") l); [|apply IH].
    destruct (b64decode b64); [|discriminate]. destruct (unarmor_loop Trash a true ls). discriminate. }
  destruct st; [destruct (match_begin l); apply IH| |apply BODY].
  destruct (contains [58] l); [|apply BODY]. destruct (ascii_codec l); [|discriminate]. destruct (split_colon a0). apply IH.
Qed.

Lemma flines_full s : Forall (fun l => l <> []) (flines s).
Proof. unfold flines. apply Forall_forall. intros l L. apply filter_In in L as [_ L]. now destruct l. Qed.
Lemma unarmor_sound s bs : unarmor_all s = Ok bs -> bs <> [] /\ forall ls, lines_of s ls -> pem_lines ls bs.
Proof.
  unfold unarmor_all. rewrite unarmor_flines. intros H.
  pose proof (loop_nonempty (flines s) Trash false) as NE.
  destruct (unarmor_loop Trash false false (flines s)) as [bs' [x|]] eqn:U; inversion H; subst.
  split; [now apply NE|]. intros ls L. apply lines_unique in L. subst.
  exact (sound_loop _ (flines_full s) Trash _ _ _ U).
Qed.
(* only the lines matter *)
Lemma same_lines s t ls : lines_of s ls -> lines_of t ls -> unarmor_all s = unarmor_all t /\ unarmor s = unarmor t.
Proof.
  intros S T. apply lines_unique in S, T. unfold unarmor_all, unarmor. rewrite !unarmor_flines.
  rewrite <- S, T. split; reflexivity.
Qed.
(* LF written as CR LF *)
Definition crlf (s : bytes) : bytes := concat (map (fun c => if c =? 10 then [13; 10] else [c]) s).
Lemma crlf_lines s : flines (crlf s) = flines s.
Proof.
  rewrite !flines_slines. unfold crlf.
  assert (forall s, (filter fullp (slines (concat (map (fun c => if c =? 10 then [13; 10] else [c]) s))) = filter fullp (slines s)
     /\ hd [] (slines (concat (map (fun c => if c =? 10 then [13; 10] else [c]) s))) = hd [] (slines s))) as G; [|apply G].
  intros t. induction t as [|c t [IH1 IH2]]; [split; reflexivity|]. cbn [map concat].
  destruct (c =? 10) eqn:E.
  - cbn [app slines]. destruct (eol_dec 13) as [_|X]; [|exfalso; apply X; now right].
    destruct (eol_dec 10) as [_|X]; [|exfalso; apply X; now left].
    destruct (eol_dec c) as [_|X]; [|exfalso; apply X; left; lia]. cbn [filter fullp hd]. split; [exact IH1|reflexivity].
  - cbn [app slines]. destruct (eol_dec c); [cbn [filter fullp hd]; split; [exact IH1|reflexivity]|].
    destruct (slines (concat _)) as [|u us] eqn:U; [now apply slines_ne in U|].
    destruct (slines t) as [|v vs] eqn:V; [now apply slines_ne in V|]. cbn [hd] in IH2. subst u. cbn [filter fullp hd] in *.
    split; [|reflexivity]. f_equal. destruct v; cbn [fullp] in IH1; [exact IH1|now inversion IH1].
Qed.
Lemma crlf_same s : unarmor_all (crlf s) = unarmor_all s /\ unarmor (crlf s) = unarmor s.
Proof.
  apply (same_lines _ _ (flines s)); [|apply flines_of]. rewrite <- crlf_lines. apply flines_of.
Qed.
