(* Proofs about Concat. *)
Require Import Verif.Base Verif.BaseFacts Verif.ParserModel Verif.ParserSpec Verif.ParserProofs Verif.ParserFacts
  Verif.TagSpec Verif.PrimModel Verif.PrimSpec Verif.ContModel Verif.ContSpec Verif.ContBase Verif.ContRep Verif.ContPrim Verif.ContPath Verif.ContHistSpec
  Verif.ContHist2 Verif.ContFinal Verif.BerSpec Verif.BerFinal Verif.ParsProofs Verif.ConcatModel Verif.ConcatSpec.

Lemma encoding_nonempty i : ber_info max_budget i -> encoding_of i <> [].
Proof.
  intros B E. pose proof (parse__0_complete i [] B) as P. rewrite app_nil_r, E in P. vm_compute in P. discriminate.
Qed.

Section Facts.
  Variable cls : nat -> spec.
  Notation cut := (cut cls).

  Lemma cload_piece s p v : bytes_ok p -> cload s no_params p true = Ok v ->
    exists i, ber_info max_budget i /\ p = encoding_of i /\ x_build (methods s) no_params None i = Ok v.
  Proof.
    intros B H. unfold cload in H. apply bind_ok in H as ([i e] & P & H). apply parse__0 in P as (Bi & (r & Er) & Ee); auto.
    cbn [andb] in H. destruct (negb (e =? len p)) eqn:N; [discriminate|]. apply negb_false_iff, Z.eqb_eq in N.
    exists i. split; auto. split; auto. rewrite Er, len_app in N. rewrite Ee in N.
    assert (r = []) as -> by (destruct r; auto; rewrite len_cons in N; pose proof (len_nonneg r); lia). now rewrite app_nil_r in Er.
  Qed.
  Lemma cload_of_build s i v : ber_info max_budget i -> x_build (methods s) no_params None i = Ok v -> cload s no_params (encoding_of i) true = Ok v.
  Proof.
    intros B H. unfold cload. pose proof (parse__0_complete i [] B) as P. rewrite app_nil_r in P. rewrite P. cbn [bind].
    rewrite Z.eqb_refl. exact H.
  Qed.

  Lemma read_sound l : forall pre d cs e, bytes_ok (pre ++ d) -> read_children cls (pre ++ d) (len pre) l = Ok (cs, e) ->
    exists ps xs rest, cs = map Some xs /\ cut l ps xs /\ d = concat ps ++ rest /\ e = len (pre ++ concat ps) /\ ((length ps < length l)%nat -> rest = []).
  Proof.
    induction l as [|n l IH]; intros pre d cs e B H; cbn [read_children] in H.
    - injection H as <- <-. exists [], [], d. repeat split; auto; [constructor|now rewrite app_nil_r|cbn; lia].
    - apply bind_ok in H as ([v nx] & H1 & H2). apply bind_ok in H2 as ([vs e'] & H2 & H3). injection H3 as <- <-.
      destruct (Z.ltb_spec (len pre) (len (pre ++ d))) as [L|L].
      + apply bind_ok in H1 as ([i ei] & P & H1). apply bind_ok in H1 as (v' & H1 & H4). injection H4 as <- <-.
        apply parse_sound in P as (Bi & (rest' & Er) & Ee); auto.
        subst d. rewrite app_assoc in H2, B. rewrite Ee, <- len_app in H2.
        destruct (IH (pre ++ encoding_of i) rest' vs e' B H2) as (ps & xs & rest & -> & C & -> & -> & R).
        exists (encoding_of i :: ps), ((n, v') :: xs), rest. split; auto.
        split; [constructor; auto using encoding_nonempty, cload_of_build|]. cbn [concat length]. rewrite !app_assoc. repeat split; auto. intros Hl. apply R. lia.
      + apply bind_ok in H1 as (v' & H1 & H4). injection H4 as <- <-. rewrite len_app in L.
        assert (d = []) as -> by (destruct d; auto; rewrite len_cons in L; pose proof (len_nonneg d); lia).
        destruct (IH pre [] vs e' B H2) as (ps & xs & rest & -> & C & E & -> & R).
        symmetry in E. apply app_eq_nil in E as [E ->].
        assert (ps = []) as ->. { destruct C; auto. cbn in E. apply app_eq_nil in E as [-> _]. congruence. }
        exists [], ((n, v') :: xs), []. split; auto. split; [now constructor|]. auto.
  Qed.

  Lemma read_complete l : forall ps xs, cut l ps xs -> forall pre rest, bytes_ok (concat ps) -> ((length ps < length l)%nat -> rest = []) ->
    read_children cls (pre ++ concat ps ++ rest) (len pre) l = Ok (map Some xs, len (pre ++ concat ps)).
  Proof.
    induction 1 as [|n p v l ps cs Np Hc C IH|n v l cs Hm C IH]; intros pre rest B R.
    - cbn. now rewrite app_nil_r.
    - cbn [concat] in B. apply Forall_app in B as [B1 B2].
      destruct (cload_piece _ _ _ B1 Hc) as (i & Bi & -> & Hb). cbn [read_children concat].
      assert (L : (len pre <? len (pre ++ (encoding_of i ++ concat ps) ++ rest)) = true).
      { apply Z.ltb_lt. rewrite !len_app. destruct (encoding_of i) as [|z q] eqn:E; [congruence|]. rewrite len_cons. pose proof (len_nonneg q). pose proof (len_nonneg (concat ps)). pose proof (len_nonneg rest). lia. }
      rewrite L. rewrite <- app_assoc. rewrite parse_complete by auto. cbn [bind]. rewrite Hb. cbn [bind]. rewrite <- len_app.
      rewrite (app_assoc pre (encoding_of i)). rewrite IH; auto; [|intros; apply R; cbn [length]; lia]. cbn [bind map]. now rewrite <- app_assoc.
    - rewrite R in * by (cbn [length]; lia). cbn [read_children concat app]. rewrite app_nil_r, Z.ltb_irrefl, Hm. cbn [bind].
      specialize (IH pre []). cbn [concat app] in IH. rewrite app_nil_r in IH. rewrite IH; auto.
  Qed.

  Theorem load_iff specs d strict o : bytes_ok d ->
    (co_load cls specs d strict = Ok o <->
     exists ps rest xs, d = concat ps ++ rest /\ cut specs ps xs /\ o = Some (map Some xs) /\
       ((length ps < length specs)%nat -> rest = []) /\ (strict = true -> rest = [])).
  Proof.
    intros B. unfold co_load, co_make. split.
    - intros H. apply bind_ok in H as (o' & H & E). injection E as <-. apply bind_ok in H as ([vs e] & H & E).
      apply (read_sound specs [] d vs e B) in H as (ps & xs & rest & -> & C & -> & -> & R). cbn [app] in E.
      exists ps, rest, xs. destruct strict; cbn [andb] in E.
      + destruct (Z.eqb_spec (len (concat ps)) (len (concat ps ++ rest))) as [L|L]; [|discriminate]. injection E as <-. repeat split; auto.
        intros _. rewrite len_app in L. destruct rest; auto. rewrite len_cons in L. pose proof (len_nonneg rest). lia.
      + injection E as <-. repeat split; auto. discriminate.
    - intros (ps & rest & xs & -> & C & -> & R & S). apply Forall_app in B as [B1 B2].
      pose proof (read_complete specs ps xs C [] rest B1 R) as H. cbn [app] in H. change (len (@nil Z)) with 0 in H. rewrite H. cbn [bind].
      replace (strict && negb (len (concat ps) =? len (concat ps ++ rest))) with false; auto.
      destruct strict; auto. rewrite S, app_nil_r, Z.eqb_refl by auto. reflexivity.
  Qed.

  Theorem load_values (l : list (nat * aval * bytes)) rest strict : bytes_ok (concat (map snd l)) -> (strict = true -> rest = []) ->
    Forall (fun x => let '(n, a, d) := x in wf (cls n) /\ taggable (cls n) no_params /\ ber_encodes (cls n) (stags (cls n) no_params) a d) l ->
    exists xs, co_load cls (map (fun x => fst (fst x)) l) (concat (map snd l) ++ rest) strict = Ok (Some (map Some xs)) /\
      Forall2 (fun x c => let '(n, a, d) := x in fst c = n /\ exists a', sim (cls n) a a' /\ follows_from Lost (cls n) (stags (cls n) no_params) a' (snd c)) l xs.
  Proof.
    intros B S F.
    assert (G : exists xs, cut (map (fun x => fst (fst x)) l) (map snd l) xs /\
      Forall2 (fun x c => let '(n, a, d) := x in fst c = n /\ exists a', sim (cls n) a a' /\ follows_from Lost (cls n) (stags (cls n) no_params) a' (snd c)) l xs).
    { clear B. induction F as [|[[n a] d] l (W & T & H) F IH]; [exists []; split; constructor|]. destruct IH as (xs & C & F2).
      destruct (ber_load (cls n) no_params a d [] true W T H) as (v & a' & E & Sm & Fo); auto. rewrite app_nil_r in E.
      exists ((n, v) :: xs). cbn [map fst snd]. split.
      - constructor; auto. destruct H as (i & Bi & -> & _). now apply encoding_nonempty.
      - constructor; auto. split; auto. exists a'. auto. }
    destruct G as (xs & C & F2). exists xs. split; auto. unfold co_load, co_make.
    pose proof (read_complete _ _ _ C [] rest B) as H. cbn [app] in H. change (len (@nil Z)) with 0 in H. rewrite H; [|rewrite !map_length; lia]. cbn [bind].
    replace (strict && negb (len (concat (map snd l)) =? len (concat (map snd l) ++ rest))) with false; auto.
    destruct strict; auto. rewrite S, app_nil_r, Z.eqb_refl by auto. reflexivity.
  Qed.

  (* ---- dumps ---- *)
  Fixpoint joined_dumps (f : bool) (cs : list child) : res bytes :=
    match cs with
    | [] => Ok []
    | (n, v) :: r => do b <- snd (x_dump (methods (cls n)) f v); do y <- joined_dumps f r; Ok (b ++ y)
    end.
  Lemma dump_joined f cs : snd (dump_children cls f (map Some cs)) = joined_dumps f cs.
  Proof.
    induction cs as [|[n v] cs IH]; cbn [map dump_children joined_dumps]; auto.
    destruct (x_dump (methods (cls n)) f v) as [v' [b|e]]; cbn [snd bind]; auto. rewrite <- IH.
    destruct (dump_children cls f (map Some cs)) as [r x]. cbn [snd]. reflexivity.
  Qed.
  Lemma dump_state f cs b : snd (dump_children cls f (map Some cs)) = Ok b ->
    fst (dump_children cls f (map Some cs)) = map Some (map (fun c => (fst c, after (cls (fst c)) [([], ADump f)] (snd c))) cs).
  Proof.
    revert b. induction cs as [|[n v] cs IH]; intros b H; cbn [map dump_children] in *; auto.
    pose proof (dump_is_read (cls n) v f) as D. destruct (x_dump (methods (cls n)) f v) as [v' [y|e]]; cbn [fst] in D; [|discriminate].
    destruct (dump_children cls f (map Some cs)) as [r x] eqn:E. cbn [fst snd] in *. apply bind_ok in H as (y' & H & _). subst x.
    cbn [fst snd]. rewrite (IH y' eq_refl), <- D. reflexivity.
  Qed.

  Theorem dump_iff f cs b : snd (co_dump cls f (Some (map Some cs))) = Ok b <->
    exists bs, Forall2 (fun c y => snd (x_dump (methods (cls (fst c))) f (snd c)) = Ok y) cs bs /\ b = concat bs.
  Proof.
    unfold co_dump. pose proof (dump_joined f cs) as J. destruct (dump_children cls f (map Some cs)) as [l r]. cbn [fst snd] in *. subst r.
    revert b. induction cs as [|[n v] cs IH]; intros b; cbn [joined_dumps].
    - split; [intros E; injection E as <-; exists []; auto|]. intros (bs & F & ->). now inversion F.
    - split.
      + intros H. apply bind_ok in H as (y & Hy & H). apply bind_ok in H as (z & Hz & E). injection E as <-.
        apply IH in Hz as (bs & F & ->). exists (y :: bs). auto.
      + intros (bs & F & ->). inversion F as [|c y cs' bs' Hy F' E1 E2]; subst. cbn [fst snd] in Hy. rewrite Hy. cbn [bind].
        rewrite (proj2 (IH (concat bs'))); [reflexivity|]. eauto.
  Qed.
  (* the DER encoding of each value, from any BER encodings *)
  Theorem load_forced (l : list (nat * aval * bytes * bytes)) rest strict : bytes_ok (concat (map (fun x => snd (fst x)) l)) -> (strict = true -> rest = []) ->
    Forall (fun x => let '(n, a, d, e) := x in wf (cls n) /\ taggable (cls n) no_params /\ ber_encodes (cls n) (stags (cls n) no_params) a d /\ der (cls n) (stags (cls n) no_params) a e) l ->
    exists o, co_load cls (map (fun x => fst (fst (fst x))) l) (concat (map (fun x => snd (fst x)) l) ++ rest) strict = Ok o /\
      snd (co_dump cls true o) = Ok (concat (map snd l)).
  Proof.
    intros B S F.
    assert (G : exists xs, cut (map (fun x => fst (fst (fst x))) l) (map (fun x => snd (fst x)) l) xs /\
      Forall2 (fun c y => snd (x_dump (methods (cls (fst c))) true (snd c)) = Ok y) xs (map snd l)).
    { clear B. induction F as [|[[[n a] d] e] l (W & T & H & D) F IH]; [exists []; split; constructor|]. destruct IH as (xs & C & F2).
      destruct (ber_normal (cls n) no_params a d e W T H D) as (v & E & N). destruct (N [] eq_refl) as (N1 & _). cbn [after] in N1.
      exists ((n, v) :: xs). cbn [map fst snd]. split; [|constructor; auto].
      constructor; auto. destruct H as (i & Bi & -> & _). now apply encoding_nonempty. }
    destruct G as (xs & C & F2). exists (Some (map Some xs)). split; [|apply dump_iff; eauto]. unfold co_load, co_make.
    pose proof (read_complete _ _ _ C [] rest B) as H. cbn [app] in H. change (len (@nil Z)) with 0 in H. rewrite H; [|rewrite !map_length; lia]. cbn [bind].
    match goal with |- context [strict && ?x] => replace (strict && x) with false end; auto.
    destruct strict; auto. rewrite S, app_nil_r, Z.eqb_refl by auto. reflexivity.
  Qed.

  Lemma update_some (cs : list child) k c : update (map Some cs) k (Some c) = map Some (update cs k c).
  Proof. revert k. induction cs as [|x cs IH]; intros [|k]; cbn; auto. now rewrite IH. Qed.
  Lemma nth_update {A} (l : list A) k j x y : nth_error l j = Some y -> nth_error (update l k x) j = Some (if Nat.eqb k j then x else y).
  Proof. revert k j. induction l as [|z l IH]; intros k j H; destruct j, k; cbn in *; try discriminate; auto. Qed.
  Lemma length_update {A} (l : list A) k x : length (update l k x) = length l.
  Proof. revert k. induction l as [|z l IH]; intros [|k]; cbn; auto. Qed.

  Theorem shares specs h : forall cs, length cs = length specs -> dumps_fine cls specs h (Some (map Some cs)) ->
    exists cs', kafter cls specs h (Some (map Some cs)) = Some (map Some cs') /\ length cs' = length specs /\
      forall k c, nth_error cs k = Some c -> nth_error cs' k = Some (share cls k h c).
  Proof.
    induction h as [|d h IH]; intros cs L D; [exists cs; auto|].
    assert (N : forall cs1, kstep cls specs d (Some (map Some cs)) = Some (map Some cs1) -> dumps_fine cls specs h (Some (map Some cs1))).
    { intros cs1 E g f r Eh. destruct (D (d :: g) f r) as (b & Hb); [now rewrite Eh|]. cbn [kafter] in Hb. rewrite E in Hb. eauto. }
    assert (G : exists cs1, kstep cls specs d (Some (map Some cs)) = Some (map Some cs1) /\ length cs1 = length specs /\
      forall k c, nth_error cs k = Some c -> exists c1, nth_error cs1 k = Some c1 /\ forall h, share cls k h c1 = share cls k (d :: h) c).
    { destruct d as [key x|j l|f]; cbn [kstep].
      - unfold co_set. destruct ((key >? len specs - 1) || (key <? 0)) eqn:O; cbn [fst].
        + exists cs. split; auto. split; auto. intros k c K. exists c. split; auto. intros h0. destruct x; cbn [share]; auto.
          replace (key =? Z.of_nat k) with false; auto. symmetry. apply Z.eqb_neq. intros ->.
          assert (k < length cs)%nat by (apply nth_error_Some; congruence). unfold len in O. lia.
        + destruct x as [c0|]; cbn [fst].
          * exists (update cs (Z.to_nat key) c0). split; [now rewrite update_some|]. split; [now rewrite length_update|].
            intros k c K. rewrite (nth_update cs _ k c0 c K). eexists. split; [reflexivity|]. intros h0. cbn [share]. f_equal.
            destruct (Nat.eqb_spec (Z.to_nat key) k), (Z.eqb_spec key (Z.of_nat k)); auto; lia.
          * exists cs. split; auto. split; auto. intros k c K. exists c. auto.
      - rewrite nth_error_map. destruct (nth_error cs j) as [[n v]|] eqn:E; cbn [option_map].
        + eexists. split; [now rewrite update_some|]. split; [now rewrite length_update|]. intros k c K.
          rewrite (nth_update cs j k _ c K). eexists. split; [reflexivity|]. intros h0. cbn [share]. f_equal.
          destruct (Nat.eqb_spec j k); auto. subst k. rewrite E in K. injection K as <-. reflexivity.
        + exists cs. split; auto. split; auto. intros k c K. exists c. split; auto. intros h0. cbn [share].
          destruct (Nat.eqb_spec j k); auto. congruence.
      - unfold co_dump. destruct (D [] f h eq_refl) as (b & Hb). cbn [kafter] in Hb. unfold co_dump in Hb.
        pose proof (dump_state f cs b) as S. destruct (dump_children cls f (map Some cs)) as [l' r]. cbn [fst snd] in *. subst r. rewrite S by auto.
        eexists. split; [reflexivity|]. split; [now rewrite map_length|]. intros k c K. eexists. split; [erewrite map_nth_error by exact K; reflexivity|]. reflexivity. }
    destruct G as (cs1 & E & L1 & G). destruct (IH cs1 L1 (N cs1 E)) as (cs' & E' & L' & H). cbn [kafter]. rewrite E. exists cs'.
    split; auto. split; auto. intros k c K. destruct (G k c K) as (c1 & K1 & Sh). rewrite (H k c1 K1). now rewrite Sh.
  Qed.

  (* ---- building from values ---- *)
  Lemma update_at {A} (g r : list A) x y : update (g ++ x :: r) (length g) y = g ++ y :: r.
  Proof. induction g as [|z g IH]; cbn; auto. now rewrite IH. Qed.
  Lemma set_one specs (g r : list (option child)) x c : (length g < length specs)%nat ->
    co_set specs (len g) (IObj c) (Some (g ++ x :: r)) = (Some (g ++ Some c :: r), Ok tt).
  Proof.
    intros L. unfold co_set. replace ((len g >? len specs - 1) || (len g <? 0)) with false by (unfold len; lia).
    unfold len. rewrite Nat2Z.id. now rewrite update_at.
  Qed.
  Lemma set_all_ok specs cs : forall g xs, (length g + length cs <= length specs)%nat ->
    co_set_all specs (len g) (map IObj cs ++ xs) (Some (g ++ repeat None (length specs - length g))) =
    co_set_all specs (len (g ++ map Some cs)) xs (Some ((g ++ map Some cs) ++ repeat None (length specs - length (g ++ map Some cs)))).
  Proof.
    induction cs as [|c cs IH]; intros g xs L; cbn [map app length] in *; [now rewrite app_nil_r|].
    replace (length specs - length g)%nat with (S (length specs - length (g ++ [Some c]))) by (rewrite app_length; cbn; lia). cbn [repeat].
    cbn [co_set_all]. rewrite set_one by lia.
    replace (len g + 1) with (len (g ++ [Some c])) by (rewrite len_app; reflexivity).
    replace (g ++ Some c :: repeat None (length specs - length (g ++ [Some c]))) with ((g ++ [Some c]) ++ repeat None (length specs - length (g ++ [Some c]))) by (now rewrite <- app_assoc).
    rewrite IH by (rewrite app_length; cbn; lia). now rewrite <- !app_assoc.
  Qed.

  Theorem made specs cs : length cs = length specs -> forall strict, co_make cls specs (Some (map IObj cs)) None strict = Ok (Some (map Some cs)).
  Proof.
    intros L strict. unfold co_make. cbn [bind]. pose proof (set_all_ok specs cs [] [] ltac:(cbn; lia)) as H. cbn [app length] in H. rewrite app_nil_r, Nat.sub_0_r in H.
    change (len (@nil (option child))) with 0 in H. rewrite H. cbn [co_set_all]. rewrite map_length, L, Nat.sub_diag. cbn. now rewrite app_nil_r.
  Qed.
  Theorem made_refused specs cs x xs strict :
    ((length cs < length specs)%nat -> co_make cls specs (Some (map IObj cs ++ IOther :: xs)) None strict = Err ValueError) /\
    (length cs = length specs -> co_make cls specs (Some (map IObj cs ++ x :: xs)) None strict = Err KeyError).
  Proof.
    unfold co_make. cbn [bind]. split; intros L.
    - pose proof (set_all_ok specs cs [] (IOther :: xs) ltac:(cbn; lia)) as H. cbn [app length] in H. rewrite Nat.sub_0_r in H.
      change (len (@nil (option child))) with 0 in H. rewrite H. cbn [co_set_all]. unfold co_set.
      replace ((len (map Some cs) >? len specs - 1) || (len (map Some cs) <? 0)) with false by (unfold len; rewrite map_length; lia). reflexivity.
    - pose proof (set_all_ok specs cs [] (x :: xs) ltac:(cbn; lia)) as H. cbn [app length] in H. rewrite Nat.sub_0_r in H.
      change (len (@nil (option child))) with 0 in H. rewrite H. cbn [co_set_all]. unfold co_set.
      replace ((len (map Some cs) >? len specs - 1) || (len (map Some cs) <? 0)) with true by (unfold len; rewrite map_length; lia). reflexivity.
  Qed.

  (* ---- copies ---- *)
  Lemma copied cs :
    (forall z, co_copy cls (Some cs) = Ok z -> exists zs, z = Some zs /\
       Forall2 (fun c d => match c, d with
                           | Some c, Some d => fst d = fst c /\ x_copy (methods (cls (fst c))) (snd c) = Ok (snd d)
                           | None, None => True
                           | _, _ => False
                           end) cs zs) /\
    co_copy cls None = Ok None.
  Proof.
    split; [|reflexivity]. unfold co_copy. intros z H. apply bind_ok in H as (l & H & E). injection E as <-. exists l. split; [reflexivity|].
    revert l H. induction cs as [|[[n v]|] cs IH]; intros l H; cbn [copy_children bind] in H.
    - injection H as <-. constructor.
    - apply bind_ok in H as (v' & Hv & H). apply bind_ok in H as (r & Hr & E). injection E as <-. constructor; [auto|]. now apply IH.
    - apply bind_ok in H as (r & Hr & E). injection E as <-. constructor; [auto|]. now apply IH.
  Qed.
End Facts.

Lemma child_at (specs : list nat) (cs : list child) : length cs = length specs ->
  co_len (Some (map Some cs)) = Ok (len specs) /\
  (forall k c, nth_error cs k = Some c -> co_get specs (Z.of_nat k) (Some (map Some cs)) = Ok (Some c)) /\
  (forall key o, key < 0 \/ len specs <= key -> co_get specs key o = Err KeyError).
Proof.
  intros L. split; [|split].
  - cbn. unfold len. now rewrite map_length, L.
  - intros k c K. assert (k < length cs)%nat by (apply nth_error_Some; congruence). unfold co_get, len.
    replace (Z.of_nat k >? _) with false by (symmetry; rewrite Z.gtb_ltb; apply Z.ltb_ge; lia).
    replace (Z.of_nat k <? 0) with false by (symmetry; apply Z.ltb_ge; lia). cbn [orb]. rewrite Nat2Z.id.
    erewrite map_nth_error by exact K. reflexivity.
  - intros key o H. unfold co_get. replace ((key >? len specs - 1) || (key <? 0)) with true; [reflexivity|].
    symmetry. apply orb_true_iff. rewrite Z.gtb_ltb, !Z.ltb_lt. lia.
Qed.
