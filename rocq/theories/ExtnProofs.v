Require Import Verif.Base Verif.BaseFacts Verif.Text Verif.OidProofs Verif.MapModel Verif.MapSpec Verif.MapProofs Verif.Tables Verif.MapTables
  Verif.ExtnModel Verif.ExtnSpec.
Require Coq.Strings.String.

Lemma attribute_inj n m : attribute n = attribute m -> n = m.
Proof. unfold attribute. intro H. apply app_inv_head in H. now apply app_inv_tail in H. Qed.
Lemma mem_in s l : ExtnModel.mem s l = true <-> In s l.
Proof.
  unfold ExtnModel.mem. rewrite existsb_exists. split.
  - intros (x & I & E). apply text_ok in E. now subst.
  - intro I. exists s. split; [exact I|now apply text_ok].
Qed.
Lemma set_add_in s l n : In n (set_add s l) <-> n = s \/ In n l.
Proof.
  unfold set_add. destruct (ExtnModel.mem s l) eqn:E.
  - apply mem_in in E. split; [auto|]. intros [->|H]; auto.
  - rewrite in_app_iff. cbn. intuition congruence.
Qed.
Lemma set_add_nodup s l : NoDup l -> NoDup (set_add s l).
Proof.
  intro N. unfold set_add. destruct (ExtnModel.mem s l) eqn:E; [exact N|].
  assert (~ In s l) by (rewrite <- mem_in; congruence).
  rewrite <- (app_nil_r (l ++ [s])), <- app_assoc. apply NoDup_Add with (a := s) (l := l); [|split; auto].
  rewrite app_nil_r. rewrite <- (app_nil_r l) at 1. apply Add_app.
Qed.

Section Extn.
Variable V : Type.
Variable attrs : list text.
Let known (n : text) : Prop := In (attribute n) attrs.

Lemma known_dec n : {known n} + {~ known n}.
Proof.
  destruct (ExtnModel.mem (attribute n) attrs) eqn:E; [left|right]; unfold known; rewrite <- mem_in; congruence.
Qed.
Lemma get_set (d : list (text * V)) k v k' : getattr (setattr d k v) k' = if eqb_text k k' then Some v else getattr d k'.
Proof.
  induction d as [|[a w] d IH]; cbn [setattr getattr]; [reflexivity|].
  destruct (eqb_text a k) eqn:E; cbn [getattr].
  - apply text_ok in E. subst a. destruct (eqb_text k k'); reflexivity.
  - rewrite IH. destruct (eqb_text a k') eqn:F; [|reflexivity].
    apply text_ok in F. subst a. destruct (eqb_text k k') eqn:G; [|reflexivity].
    apply text_ok in G. subst. rewrite (proj2 (text_ok k' k') eq_refl) in E. discriminate.
Qed.

Definition upd (r : option V) (d : option V) : option V := match r with Some v => Some v | None => d end.

Lemma run_readable xs : (forall x, In x xs -> known (e_name x) -> exists v, e_value x = Ok v) ->
  forall crit vals, NoDup crit -> exists crit' vals',
  run attrs crit vals (map Ok xs) = (State true (Some crit') vals', Ok tt) /\ NoDup crit' /\
  (forall n, In n crit' <-> In n crit \/ marked_critical xs n) /\
  (forall n, known n -> exists r, last_value xs n r /\ getattr vals' (attribute n) = upd r (getattr vals (attribute n))).
Proof.
  induction xs as [|x xs IH]; intros H crit vals N; cbn [map run].
  - exists crit, vals. split; [reflexivity|]. split; [exact N|]. split.
    + intro n. split; [auto|]. intros [I|(x & [] & _)]. exact I.
    + intros n _. exists None. split; [intros y []|reflexivity].
  - unfold process.
    set (crit1 := if e_critical x then set_add (e_name x) crit else crit).
    assert (N1 : NoDup crit1) by (unfold crit1; destruct (e_critical x); [now apply set_add_nodup|exact N]).
    assert (C1 : forall n, In n crit1 <-> In n crit \/ (n = e_name x /\ e_critical x = true)).
    { intro n. unfold crit1. destruct (e_critical x); [rewrite set_add_in|]; intuition congruence. }
    assert (Hx : forall y, In y xs -> known (e_name y) -> exists v, e_value y = Ok v) by (intros y I; apply H; now right).
    destruct (ExtnModel.mem (attribute (e_name x)) attrs) eqn:M.
    + apply mem_in in M. destruct (H x (or_introl eq_refl) M) as [v Ev]. rewrite Ev. cbn [bind].
      destruct (IH Hx crit1 (setattr vals (attribute (e_name x)) v) N1) as (c' & v' & R & Nd & C & G).
      exists c', v'. split; [exact R|]. split; [exact Nd|]. split.
      * intro n. rewrite C, C1. unfold marked_critical. split.
        -- intros [[I|[-> E]]|(y & I & E & F)]; [auto| |]; right; [exists x|exists y]; cbn; auto.
        -- intros [I|(y & [<-|I] & E & F)]; [auto| |]; [left; right; auto|right; exists y; auto].
      * intros n K. destruct (G n K) as (r & L & E). rewrite get_set in E.
        destruct r as [w|].
        -- destruct L as (a & y & b & -> & L). exists (Some w). split; [|exact E].
           exists (x :: a), y, b. split; [reflexivity|exact L].
        -- cbn [upd] in E. destruct (eqb_text (attribute (e_name x)) (attribute n)) eqn:Q.
           ++ apply text_ok, attribute_inj in Q. exists (Some v). split; [|exact E].
              exists [], x, xs. auto.
           ++ exists None. split; [|exact E]. intros y [<-|I]; [|now apply L].
              intros <-. rewrite (proj2 (text_ok _ _) eq_refl) in Q. discriminate.
    + cbn [bind].
      destruct (IH Hx crit1 vals N1) as (c' & v' & R & Nd & C & G).
      exists c', v'. split; [exact R|]. split; [exact Nd|]. split.
      * intro n. rewrite C, C1. unfold marked_critical. split.
        -- intros [[I|[-> E]]|(y & I & E & F)]; [auto| |]; right; [exists x|exists y]; cbn; auto.
        -- intros [I|(y & [<-|I] & E & F)]; [auto| |]; [left; right; auto|right; exists y; auto].
      * intros n K. destruct (G n K) as (r & L & E). exists r. split; [|exact E].
        destruct r as [w|].
        -- destruct L as (a & y & b & -> & L). exists (x :: a), y, b. split; [reflexivity|exact L].
        -- intros y [<-|I]; [|now apply L]. intros Q. unfold known in K. rewrite <- Q, <- mem_in in K. congruence.
Qed.

Lemma run_stops (l : list (res (extension V))) e : stops known l e -> forall crit vals, exists st : state V, run attrs crit vals l = (st, Err e) /\ s_processed st = false.
Proof.
  intros (a & b & xs & (-> & H) & T). revert l T H. induction xs as [|x xs IH]; intros l T H crit vals.
  - cbn [map app] in T. destruct T as [->|(x & -> & K & E)]; cbn [run].
    + eexists. split; reflexivity.
    + unfold process. rewrite (proj2 (mem_in _ _) K), E. cbn [bind]. eexists. split; reflexivity.
  - assert (Hx : forall y, In y xs -> known (e_name y) -> exists v, e_value y = Ok v) by (intros y I; apply H; now right).
    assert (X : exists l', l = Ok x :: l' /\
      (l' = map Ok xs ++ Err e :: b \/ exists y, l' = map Ok xs ++ Ok y :: b /\ known (e_name y) /\ e_value y = Err e)).
    { destruct T as [->|(y & -> & Q)]; cbn [map app]; eexists; split; eauto. }
    destruct X as (l' & -> & T'). cbn [run]. unfold process.
    destruct (ExtnModel.mem (attribute (e_name x)) attrs) eqn:M.
    + apply mem_in in M. destruct (H x (or_introl eq_refl) M) as [v Ev]. rewrite Ev. cbn [bind]. exact (IH l' T' Hx _ _).
    + cbn [bind]. exact (IH l' T' Hx _ _).
Qed.

Lemma readable_or_stops (l : list (res (extension V))) : (exists xs, readable known l xs) \/ exists e, stops known l e.
Proof.
  induction l as [|x l IH].
  - left. exists []. split; [reflexivity|intros y []].
  - destruct x as [x|e].
    + destruct (known_dec (e_name x)) as [K|K]; [destruct (e_value x) as [v|e] eqn:E|].
      * destruct IH as [(xs & -> & H)|(e & a & b & xs & (-> & H) & T)].
        -- left. exists (x :: xs). split; [reflexivity|]. intros y [<-|I]; eauto.
        -- right. exists e, (map Ok (x :: xs)), b, (x :: xs). split.
           ++ split; [reflexivity|]. intros y [<-|I]; eauto.
           ++ destruct T as [->|(y & -> & Q)]; [left; reflexivity|right; exists y; split; [reflexivity|exact Q]].
      * right. exists e, [], l, []. split; [split; [reflexivity|intros y []]|]. right. exists x. auto.
      * destruct IH as [(xs & -> & H)|(e & a & b & xs & (-> & H) & T)].
        -- left. exists (x :: xs). split; [reflexivity|]. intros y [<-|I]; [contradiction|eauto].
        -- right. exists e, (map Ok (x :: xs)), b, (x :: xs). split.
           ++ split; [reflexivity|]. intros y [<-|I]; [contradiction|eauto].
           ++ destruct T as [->|(y & -> & Q)]; [left; reflexivity|right; exists y; split; [reflexivity|exact Q]].
    + right. exists e, [], l, []. split; [split; [reflexivity|intros y []]|]. now left.
Qed.

Lemma history_reads (src : source V) (l : list (action V)) : reads_only l ->
  forall st, fold_left (step attrs) l (src, st) = (src, snd (fold_left (step attrs) l (src, st))).
Proof.
  induction l as [|a l IH]; intros R st; [reflexivity|]. cbn [fold_left].
  assert (R' : reads_only l) by (intros b I; apply R; now right).
  destruct (R a (or_introl eq_refl)) as [->|[n ->]]; cbn [step]; apply IH, R'.
Qed.

(* states reached by reading *)
Lemma reads_invariant (P : state V -> Prop) (src : source V) (l : list (action V)) : reads_only l ->
  (forall st, P st -> P (fst (ensure attrs src st))) -> forall st, P st -> P (snd (fold_left (step attrs) l (src, st))).
Proof.
  intros R H. induction l as [|a l IH]; intros st Q; [exact Q|]. cbn [fold_left].
  assert (R' : reads_only l) by (intros b I; apply R; now right).
  destruct (R a (or_introl eq_refl)) as [->|[n ->]]; cbn [step].
  - replace (fst (read_critical attrs src st)) with (fst (ensure attrs src st)); [apply IH; auto|].
    unfold read_critical. now destruct (ensure attrs src st).
  - replace (fst (read_value attrs n src st)) with (fst (ensure attrs src st)); [apply IH; auto|].
    unfold read_value. now destruct (ensure attrs src st).
Qed.

Lemma answers (l : list (res (extension V))) xs (h : list (action V)) : readable known l xs -> reads_only h ->
  let st := snd (history attrs (Ok l) h) in
  (exists c, snd (read_critical attrs (Ok l) st) = Ok (Some c) /\ NoDup c /\ forall n, In n c <-> marked_critical xs n) /\
  (forall n, In (attribute n) attrs -> exists r, snd (read_value attrs (attribute n) (Ok l) st) = Ok r /\ last_value xs n r).
Proof.
  intros [-> H] R. cbv zeta. unfold history.
  destruct (run_readable xs H [] [] (NoDup_nil _)) as (c & v & E & N & C & G).
  assert (X : forall st, st = fresh_state \/ st = State true (Some c) v ->
              ensure attrs (Ok (map Ok xs)) st = (State true (Some c) v, Ok tt)).
  { intros st [->| ->]; cbn; [exact E|reflexivity]. }
  assert (Y := reads_invariant (fun st => st = fresh_state \/ st = State true (Some c) v) (Ok (map Ok xs)) h R).
  specialize (Y (fun st Q => or_intror (f_equal fst (X st Q))) _ (or_introl eq_refl)).
  split.
  - exists c. unfold read_critical. rewrite (X _ Y). split; [reflexivity|]. split; [exact N|].
    intro n. rewrite C. cbn. tauto.
  - intros n K. destruct (G n K) as (r & L & Q). exists r. unfold read_value. rewrite (X _ Y). split; [|exact L].
    cbn [snd bind s_values]. rewrite Q. destruct r; reflexivity.
Qed.

Lemma errors (src : source V) e (h : list (action V)) :
  src = Err e \/ (exists l, src = Ok l /\ stops known l e) -> reads_only h ->
  let st := snd (history attrs src h) in
  snd (read_critical attrs src st) = Err e /\ forall n, snd (read_value attrs (attribute n) src st) = Err e.
Proof.
  intros H R. cbv zeta. unfold history.
  assert (X : forall st : state V, s_processed st = false -> exists st', ensure attrs src st = (st', Err e) /\ s_processed st' = false).
  { intros st P. unfold ensure. rewrite P. unfold set_extensions. destruct H as [->|(l & -> & S)].
    - eexists. split; reflexivity.
    - exact (run_stops l e S [] (s_values st)). }
  assert (Y := reads_invariant (fun st => s_processed st = false) src h R).
  assert (Y' := Y (fun st Q => ltac:(destruct (X st Q) as (st' & E & P); rewrite E; exact P)) fresh_state eq_refl).
  destruct (X _ Y') as (st' & E & _). unfold read_critical, read_value. rewrite E. split; reflexivity.
Qed.
End Extn.

(* ---- the classes ---- *)
Definition sapp := String.append.
(* the identifiers with an accessor, their names and types *)
Definition class_ok (x : str * (list str * list (str * str))) : bool :=
  let '(nm, (attrs, accs)) := x in
  match sget extension_of nm with
  | None => false
  | Some ext =>
      match sget spec_tables ext with
      | None => false
      | Some (idc, specs) =>
          forallb (fun pa => String.eqb (snd pa) (sapp "_" (fst pa)) && sin (snd pa) attrs) accs &&
          forallb (fun a => sin a (map snd accs)) attrs &&
          forallb (fun a => existsb (fun kt => String.eqb a (sapp "_" (sapp (fst kt) "_value")) ) specs) attrs &&
          snodup attrs
      end
  end.
Lemma classes_checked : forallb class_ok extension_classes = true.
Proof. vm_compute. reflexivity. Qed.
Lemma class_facts nm attrs accs : In (nm, (attrs, accs)) extension_classes ->
  (forall p a, In (p, a) accs -> a = sapp "_" p /\ In a attrs) /\
  (forall a, In a attrs -> In a (map snd accs)) /\
  NoDup attrs /\
  exists ext idc specs, In (nm, ext) extension_of /\ In (ext, (idc, specs)) spec_tables /\
    forall a, In a attrs -> exists id t, In (id, t) specs /\ a = sapp "_" (sapp id "_value").
Proof.
  intro I. pose proof classes_checked as C. rewrite forallb_forall in C. specialize (C _ I). unfold class_ok in C.
  destruct (sget extension_of nm) as [ext|] eqn:E; [|discriminate].
  destruct (sget spec_tables ext) as [[idc specs]|] eqn:S; [|discriminate].
  rewrite !andb_true_iff, !forallb_forall in C. destruct C as (((C1 & C2) & C3) & C4). split; [|split; [|split]].
  - intros p a J. specialize (C1 _ J). cbn in C1. rewrite andb_true_iff, String.eqb_eq, sin_iff in C1. exact C1.
  - intros a J. apply sin_iff. now apply C2.
  - now apply snodup_ok.
  - exists ext, idc, specs. split; [now apply sget_in|]. split; [now apply sget_in|].
    intros a J. specialize (C3 _ J). rewrite existsb_exists in C3. destruct C3 as ([id t] & K & Q).
    apply String.eqb_eq in Q. eauto.
Qed.
Lemma tx_app a b : tx (sapp a b) = tx a ++ tx b.
Proof. induction a as [|x a IH]; [reflexivity|]. cbn [sapp String.append tx app]. f_equal. exact IH. Qed.
Lemma class_attribute id : tx (sapp "_" (sapp id "_value")) = attribute (tx id).
Proof. unfold attribute. rewrite !tx_app. reflexivity. Qed.

Lemma known_accessor nm attrs accs n : In (nm, (attrs, accs)) extension_classes ->
  In (attribute n) (map tx attrs) <-> has_accessor accs n.
Proof.
  intro I. destruct (class_facts _ _ _ I) as (A & B & _ & ext & idc & specs & _ & _ & D). split.
  - rewrite in_map_iff. intros (a & E & J). destruct (D a J) as (id & t & _ & ->).
    rewrite class_attribute in E. apply attribute_inj in E. subst n. exists id. split; [reflexivity|].
    apply B in J. apply in_map_iff in J. destruct J as ([p a] & E & J). cbn in E. subst a.
    destruct (A _ _ J) as [E _]. injection E as E. change String.append with sapp. rewrite E.
    change p with (fst (p, sapp "_" p)). apply in_map. now rewrite <- E in *.
  - intros (id & -> & J). apply in_map_iff in J. destruct J as ([p a] & E & J). cbn in E. subst p.
    destruct (A _ _ J) as [-> K]. apply in_map_iff. exists (sapp "_" (sapp id "_value")). split; [apply class_attribute|exact K].
Qed.
Lemma readable_ext {V} (k k' : text -> Prop) l xs : (forall n, k n <-> k' n) -> readable (V := V) k l xs -> readable k' l xs.
Proof. intros E [H G]. split; [exact H|]. intros x I K. apply G; [exact I|now apply E]. Qed.
Lemma stops_ext {V} (k k' : text -> Prop) l e : (forall n, k n <-> k' n) -> stops (V := V) k l e -> stops k' l e.
Proof.
  intros E (a & b & xs & H & T). exists a, b, xs. split; [now apply (readable_ext k)|].
  destruct T as [T|(x & T & K & F)]; [now left|right]. exists x. split; [exact T|]. split; [now apply E|exact F].
Qed.

Lemma class_answers {V} nm attrs accs (l : list (res (extension V))) xs h : In (nm, (attrs, accs)) extension_classes ->
  readable (has_accessor accs) l xs -> reads_only h ->
  let st := snd (history (map tx attrs) (Ok l) h) in
  (exists c, snd (read_critical (map tx attrs) (Ok l) st) = Ok (Some c) /\ NoDup c /\ forall n, In n c <-> marked_critical xs n) /\
  (forall id a, In (String.append id "_value", a)%string accs ->
     exists r, snd (read_value (map tx attrs) (tx a) (Ok l) st) = Ok r /\ last_value xs (tx id) r).
Proof.
  intros I R H. cbv zeta.
  assert (R' := readable_ext _ (fun n => In (attribute n) (map tx attrs)) l xs (fun n => iff_sym (known_accessor nm attrs accs n I)) R).
  destruct (answers V (map tx attrs) l xs h R' H) as [A B]. split; [exact A|].
  intros id a J. destruct (class_facts _ _ _ I) as (F & _). destruct (F _ _ J) as [-> K].
  change String.append with sapp in *. rewrite class_attribute. apply B. rewrite <- class_attribute. now apply in_map.
Qed.
Lemma class_errors {V} nm attrs accs (src : source V) e h : In (nm, (attrs, accs)) extension_classes ->
  src = Err e \/ (exists l, src = Ok l /\ stops (has_accessor accs) l e) -> reads_only h ->
  let st := snd (history (map tx attrs) src h) in
  snd (read_critical (map tx attrs) src st) = Err e /\
  (forall p a, In (p, a) accs -> snd (read_value (map tx attrs) (tx a) src st) = Err e).
Proof.
  intros I S H. cbv zeta.
  assert (S' : src = Err e \/ exists l, src = Ok l /\ stops (fun n => In (attribute n) (map tx attrs)) l e).
  { destruct S as [S|(l & -> & S)]; [now left|right]. exists l. split; [reflexivity|].
    exact (stops_ext _ _ l e (fun n => iff_sym (known_accessor nm attrs accs n I)) S). }
  destruct (errors V (map tx attrs) src e h S' H) as [A B]. split; [exact A|].
  intros p a J. destruct (class_facts _ _ _ I) as (F & _ & _ & ext & idc & specs & _ & _ & D). destruct (F _ _ J) as [_ K].
  destruct (D a K) as (id & t & _ & ->). rewrite class_attribute. apply B.
Qed.
Lemma class_total {V} nm attrs accs (l : list (res (extension V))) : In (nm, (attrs, accs)) extension_classes ->
  (exists xs, readable (has_accessor accs) l xs) \/ exists e, stops (has_accessor accs) l e.
Proof.
  intro I. destruct (readable_or_stops V (map tx attrs) l) as [(xs & R)|(e & S)].
  - left. exists xs. exact (readable_ext _ _ l xs (fun n => known_accessor nm attrs accs n I) R).
  - right. exists e. exact (stops_ext _ _ l e (fun n => known_accessor nm attrs accs n I) S).
Qed.
