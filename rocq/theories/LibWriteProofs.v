(* The classes of the library pass the checks of WriteProofs. *)
Require Import Verif.Base Verif.BaseFacts Verif.Text Verif.ParserModel Verif.ParserSpec Verif.ParserFacts Verif.PrimModel Verif.PrimSpec Verif.ContModel Verif.ContSpec
  Verif.GenModel Verif.ReadModel Verif.ReadSpec Verif.ReadProofs Verif.LibProofs Verif.LibModel Verif.LibRead Verif.LibReadProofs
  Verif.RecodeModel Verif.RecodeSpec Verif.LibRecode Verif.WriteModel Verif.WriteSpec Verif.WriteProofs Verif.LibWrite.
Require Coq.Strings.String.
Require Import Coq.Bool.Bool Sorting.Permutation.
Import Coq.Strings.String.StringSyntax.

Section Texts.
Variable texts : string -> bytes -> res (option text).
Variable settext : string -> text -> res bytes.
Variable retext : string -> bytes -> res bytes.
Variable pad : bool.
Notation env := (lib_env texts pad).
Notation own := (lib_own settext).
Notation redo := (lib_redo retext).
Notation makes := (makes env own redo lib_fill lib_special).
Notation body := (body env own redo lib_fill).

Definition plain_out (o : out) : bool := match o with OSame => true | _ => false end.
Definition writable (e : LibRead.entry) : bool :=
  let '(r, (c, d, o)) := e in
  match d with
  | DSeq fs sel => plain_out o &&
      match sel with
      | Some s => (lib_special r || keyed env own (Some s) fs (s_key s)) &&
          match nth_error fs (s_field s) with Some f => match g_pres f with GDef _ => false | _ => true end | None => true end
      | None => true
      end
  | DChoice alts _ => nodupb eqb_text (map g_name alts) && match o with OSame => true | OName => ref_eqb r (CName "x509.Name") | _ => false end
  | DPrim _ => match o with OName => false | _ => true end
  | _ => plain_out o
  end.
Lemma table_writable : forallb (forallb writable) (table pad) = true.
Proof. destruct pad; vm_compute; reflexivity. Qed.

(* no class chosen for the inside of a string is a Choice, see WriteModel.v *)
Definition no_choice_inside (e : LibRead.entry) : bool :=
  match snd (fst (snd e)) with
  | DSeq _ (Some s) => forallb (fun pk => match pk with Inside r => match lookup pad r with Some (_, DChoice _ _, _) => false | _ => true end | _ => true end) (picks s)
  | _ => true
  end.
Lemma inside_plain : forallb (forallb no_choice_inside) (table pad) = true.
Proof. destruct pad; vm_compute; reflexivity. Qed.
Lemma ref_eqb_sound a b : ref_eqb a b = true -> a = b.
Proof.
  destruct a as [x|x i], b as [y|y j]; cbn; try discriminate.
  - intros H. apply String.eqb_eq in H. now subst.
  - rewrite andb_true_iff. intros [H K]. apply String.eqb_eq in H, K. now subst.
Qed.
Lemma entry_of r k : env r = Some k -> exists row e, In row (table pad) /\ In e row /\ fst e = r /\ r_cls k = fst (fst (snd e)) /\ r_def k = snd (fst (snd e)) /\
  r_out k = apply_out texts (snd (snd e)) /\ writable e = true.
Proof.
  intros H. unfold lib_env, lookup in H. destruct (find _ _) as [e|] eqn:F; [|discriminate]. cbn [option_map] in H. injection H as <-.
  pose proof table_writable as T. rewrite forallb_forall in T.
  destruct (nth_in_or_default (String.length (ref_name r)) (table pad) []) as [I|I]; [|rewrite I in F; discriminate].
  pose proof (T _ I) as Tr. rewrite forallb_forall in Tr. apply find_some in F as [F Q]. apply ref_eqb_sound in Q.
  exists (nth (String.length (ref_name r)) (table pad) []), e. repeat (split; [auto|]). now apply Tr.
Qed.

Lemma lib_seqs r k fs sel b : env r = Some k -> r_def k = DSeq fs sel -> r_out k b = Ok b.
Proof.
  intros E D. destruct (entry_of r k E) as (row & [q [[c d] o]] & _ & _ & _ & _ & Ed & Eo & W). cbn [fst snd] in *. rewrite Eo. rewrite D in Ed. subst d.
  unfold writable in W. apply andb_true_iff in W as [W _]. destruct o; try discriminate. reflexivity.
Qed.
Lemma lib_keyed r k fs s : env r = Some k -> lib_special r = false -> r_def k = DSeq fs (Some s) -> keyed env own (Some s) fs (s_key s) = true.
Proof.
  intros E Sp D. destruct (entry_of r k E) as (row & [q [[c d] o]] & _ & _ & Eq & _ & Ed & Eo & W). cbn [fst snd] in *. rewrite D in Ed. subst d q.
  unfold writable in W. rewrite Sp in W. apply andb_true_iff in W as [_ W]. now apply andb_true_iff in W as [W _].
Qed.
Lemma find_named (l : list rfield) f : NoDup (map g_name l) -> In f l -> find (fun g => eqb_text (g_name g) (g_name f)) l = Some f.
Proof.
  induction l as [|g l IH]; cbn [map find]; intros N I; [contradiction|]. apply NoDup_cons_iff in N as [N1 N2].
  destruct (eqb_text (g_name g) (g_name f)) eqn:Q.
  - apply eqb_text_iff in Q. destruct I as [->|I]; auto. destruct N1. rewrite Q. now apply in_map.
  - destruct I as [->|I]; auto. assert (eqb_text (g_name f) (g_name f) = true) by (now apply eqb_text_iff). congruence.
Qed.
Lemma lib_named r k alts fx f : env r = Some k -> r_def k = DChoice alts fx -> In f alts -> find (fun g => eqb_text (g_name g) (g_name f)) alts = Some f.
Proof.
  intros E D. destruct (entry_of r k E) as (row & [q [[c d] o]] & _ & _ & Eq & _ & Ed & Eo & W). cbn [fst snd] in *. rewrite D in Ed. subst d.
  unfold writable in W. apply andb_true_iff in W as [W _]. apply find_named. exact (nodupb_sound _ eqb_text_iff _ W).
Qed.
Lemma lib_bare r k fs sel : env r = Some k -> r_def k = DSeq fs sel -> lib_untouched r = true -> fs = [].
Proof.
  intros E D U. destruct r as [n|n j]; cbn [lib_untouched] in U; [|discriminate]. apply String.eqb_eq in U. subst n.
  unfold lib_env in E. destruct (lookup pad (CName "core.Sequence")) as [e|] eqn:L; [|discriminate]. cbn [option_map] in E. injection E as <-. cbn [r_def] in D.
  assert (S : match lookup pad (CName "core.Sequence") with Some (_, DSeq fs _, _) => fs = [] | _ => False end) by (destruct pad; vm_compute; reflexivity).
  rewrite L in S. destruct e as [[c d] o]. cbn [fst snd] in D. subst d. exact S.
Qed.

(* ---- defaults ---- *)
Definition has_default (f : rfield) : bool := match g_pres f with GDef _ => true | _ => false end.
Definition defaults : list rfield :=
  flat_map (flat_map (fun e : LibRead.entry => match snd (fst (snd e)) with DSeq fs _ => filter has_default fs | _ => [] end)) (table pad).
Definition default_view (m : nat) (f : rfield) : option (bool * res aval * res aval) :=
  match lib_default f, g_pres f, g_class f with
  | Some w, GDef d, Some q => match parse_ w (len w) 0 with Ok (j, _) => Some (len w <? 1000, read env pad (4 + m) q (g_params f) None j, Ok d) | Err _ => None end
  | _, _, _ => None
  end.
Definition default_checked (f : rfield) : Prop := forall m,
  match default_view m f with Some (b, x, y) => b = true /\ x = y | None => lib_default f = None end.
Lemma defaults_ok : Forall default_checked defaults.
Proof.
  assert (G : forall l l', l = l' -> Forall default_checked l' -> Forall default_checked l) by (intros; subst; auto).
  destruct pad; (eapply G; [vm_compute; reflexivity|]); repeat (constructor; [intros m; vm_compute; first [split; reflexivity|reflexivity]|]); constructor.
Qed.
Lemma lib_defaults r k fs sel pk f p : env r = Some k -> r_def k = DSeq fs sel -> In (f, p) (typed_opt (option_map s_field sel) pk fs) -> default_reads env pad lib_default f p.
Proof.
  intros E D I w Hw. destruct (entry_of r k E) as (row & [q [[c d] o]] & I1 & I2 & Eq & _ & Ed & Eo & W). cbn [fst snd] in *. rewrite D in Ed. subst d.
  assert (Hd : has_default f = true). { unfold lib_default in Hw. unfold has_default. destruct (g_pres f); auto; discriminate. }
  assert (If : In f fs). { rewrite <- (typed_fields (option_map s_field sel) pk fs). now apply (in_map fst) in I. }
  assert (Ip : p = Keep).
  { destruct sel as [s|]; cbn [option_map] in I.
    - unfold writable in W. apply andb_true_iff in W as [_ W]. apply andb_true_iff in W as [_ W].
      assert (G : forall fs j, match nth_error fs j with Some f => match g_pres f with GDef _ => false | _ => true end | None => true end = true -> In (f, p) (typed_opt (Some j) pk fs) -> p = Keep).
      { clear - Hd. induction fs as [|g fs IH]; intros j Wj Ij; [destruct j; contradiction|]. destruct j as [|j]; cbn in Wj, Ij; destruct Ij as [Ij|Ij].
        - injection Ij as -> ->. unfold has_default in Hd. destruct (g_pres f); discriminate.
        - apply in_map_iff in Ij as (x & Ij & _). congruence.
        - congruence.
        - eapply IH; eauto. }
      eapply G; eauto.
    - cbn in I. apply in_map_iff in I as (x & I & _). congruence. }
  split; auto.
  assert (Id : In f defaults).
  { apply in_flat_map. exists row. split; auto. apply in_flat_map. eexists. split; [exact I2|]. cbn [fst snd]. apply filter_In. auto. }
  pose proof (proj1 (Forall_forall _ _) defaults_ok f Id) as C. unfold default_checked, default_view in C. rewrite Hw in C.
  destruct (g_pres f) as [| |d] eqn:Ep; try (specialize (C 0%nat); discriminate). destruct (g_class f) as [q'|]; [|specialize (C 0%nat); discriminate].
  destruct (parse_ w (len w) 0) as [[j x]|] eqn:P; [|specialize (C 0%nat); discriminate]. split.
  - destruct (C 0%nat) as [C1 _]. apply Z.ltb_lt in C1. eapply Z.lt_trans; [exact C1|]. reflexivity.
  - exists d, q', 4%nat. split; auto. split; auto. intros m j' B <-. pose proof (parse__0_complete j' [] B) as P'. rewrite app_nil_r in P'. rewrite P' in P. injection P as -> _. apply C.
Qed.

(* ---- natives of their own ---- *)
Lemma env_def r k d : env r = Some k -> (match lookup pad r with Some e => snd (fst e) = d /\ snd e = OSame | None => True end) -> r_def k = d /\ forall b, r_out k b = Ok b.
Proof. unfold lib_env. destruct (lookup pad r) as [e|]; [|discriminate]. cbn [option_map]. intros [= <-] (D & O). cbn. split; auto. intros b. now rewrite O. Qed.
Lemma made_list n c i a r' set : makes n (CName c) None i a ->
  (match lookup pad (CName c) with Some e => snd (fst e) = DOf (Some r') /\ snd e = OSame /\ (k_tag (fst (fst e)) =? 17) = set | None => True end) ->
  exists l, a = AList l /\ Forall (fun x => exists m y, makes m r' None y x) l.
Proof.
  intros H L. destruct n as [|n]; [contradiction|]. destruct H as (k & b & E & _ & H & O).
  destruct (env_def _ _ (DOf (Some r')) E) as (D & O'). { destruct (lookup pad (CName c)); tauto. }
  rewrite O' in O. injection O as ->. unfold WriteSpec.body in H. rewrite D in H. destruct H as (r2 & li & [= <-] & -> & la & lb & -> & H & P).
  exists lb. split; auto. assert (F : Forall (fun x => exists m y, makes m r' None y x) la).
  { clear P. revert la H. induction li as [|x li IH]; intros [|y la]; cbn; try tauto; auto. intros [H1 H2]. constructor; auto. exists n, (bare x). exact (given_bare _ _ _ lib_untouched _ _ _ _ _ _ _ H1). }
  destruct (k_tag (r_cls k) =? 17); [eapply Permutation_Forall; eauto|now subst].
Qed.
Definition is_pair (x : aval) : Prop := exists l t v, x = ADict l /\ dict_get l (tx "type") = Some (APrim (NText t)) /\ dict_get l (tx "value") = Some v.
Lemma made_pair n i a : makes n (CName "x509.NameTypeAndValue") None i a -> is_pair a.
Proof.
  destruct n as [|n]; [contradiction|]. intros (k & b & E & _ & H & O).
  assert (L : match lookup pad (CName "x509.NameTypeAndValue") with
              | Some e => match snd (fst e) with DSeq [f; g] (Some s) => g_name f = tx "type" /\ g_class f = Some (CName "x509.NameType") /\ g_pres f = GReq /\ g_name g = tx "value" /\ s_field s = 1%nat | _ => False end /\ snd e = OSame
              | None => True end) by (destruct pad; vm_compute; repeat split; reflexivity).
  unfold lib_env in E. destruct (lookup pad (CName "x509.NameTypeAndValue")) as [[[c d] o]|]; [|discriminate]. cbn [option_map fst snd] in *. injection E as <-.
  destruct L as (L & ->). cbn in O. injection O as ->. destruct d as [| | |[|f [|g [|]]] [s|]| |]; try contradiction. destruct L as (Nf & Cf & Pf & Ng & Es).
  unfold WriteSpec.body in H. cbn [r_def] in H. destruct H as (li & -> & la & ts & -> & _ & _ & T & H). unfold field_types in T. destruct T as (b & pk & _ & _ & ->). rewrite Es in H. cbn [typed] in H.
  destruct la as [|[n1 x] [|[n2 y] [|]]]; cbn in H; try tauto. destruct H as (H1 & (H2 & _) & _). cbn in H1, H2. destruct H1 as (H1 & H3). cbn [fst snd] in H1, H3. subst n1 n2. rewrite Nf in H3. rewrite Pf in H3.
  assert (M : exists z, makes n (CName "x509.NameType") None z x).
  { unfold element_made in H3. cbn [fst snd] in H3. rewrite Cf in H3. destruct (dict_get li (tx "type")) as [z|]; [|contradiction]. exists (bare z). refine (given_bare _ _ _ lib_untouched _ _ _ _ true _ _ _). destruct z; exact H3. }
  destruct M as (z & M). exists [(g_name f, x); (g_name g, y)]. assert (exists t, x = APrim (NText t)) as (t & ->).
  { destruct n as [|n]; [contradiction|]. destruct M as (k & b2 & E & _ & H & O).
    assert (L : match lookup pad (CName "x509.NameType") with Some e => (exists m, snd (fst e) = DPrim (KOid m)) /\ snd e = OSame | None => True end)
      by (destruct pad; vm_compute; split; [eexists; reflexivity|reflexivity|eexists; reflexivity|reflexivity]).
    unfold lib_env in E. destruct (lookup pad (CName "x509.NameType")) as [e|]; [|discriminate]. cbn [option_map] in E. injection E as <-. destruct L as ((m & D) & Eo). cbn in O. rewrite Eo in O. cbn in O. injection O as ->.
    unfold WriteSpec.body in H. cbn [r_def] in H. rewrite D in H. change (own (CName "x509.NameType")) with (@None (native -> res bytes)) in H.
    destruct z as [|v| | | |]; try contradiction; [destruct H; discriminate|]. destruct H as (w & (_ & H) & -> & _). destruct v, w; try contradiction. eauto. }
  exists t, y. split; auto. rewrite Nf, Ng. split; reflexivity.
Qed.
Lemma rdn_adds l : Forall is_pair l -> forall d, exists e, name_rdn d l = Ok e.
Proof.
  induction 1 as [|x l (m & t & v & -> & T & V) F IH]; intros d; cbn [name_rdn]; eauto. unfold name_add. rewrite T, V. cbn [bind]. apply IH.
Qed.
Lemma name_adds l : Forall (fun x => exists m, x = AList m /\ Forall is_pair m) l -> forall d, exists e, name_all d l = Ok e.
Proof.
  induction 1 as [|x l (m & -> & Fm) F IH]; intros d; cbn [name_all]; eauto. destruct (rdn_adds m Fm d) as (e & ->). cbn [bind]. apply IH.
Qed.
Lemma name_body n k i b : env (CName "x509.Name") = Some k -> body (makes n) (CName "x509.Name") k None i b -> exists d, name_all [] (match b with AList l => l | _ => [] end) = Ok d /\ exists l, b = AList l.
Proof.
  intros E H.
  assert (L : match lookup pad (CName "x509.Name") with Some e => match snd (fst e) with DChoice [f] _ => g_class f = Some (CName "x509.RDNSequence") | _ => False end | None => True end)
    by (destruct pad; vm_compute; reflexivity).
  unfold lib_env in E. destruct (lookup pad (CName "x509.Name")) as [[[c d] o]|]; [|discriminate]. cbn [option_map fst snd] in *. injection E as <-.
  destruct d as [| | | | |[|f [|]] fx]; try contradiction. unfold WriteSpec.body in H. cbn [r_def] in H. destruct H as (name & x & -> & q & g & r' & Hn & _ & _ & Cg & M).
  assert (g = f) as -> by (destruct q as [|[|]]; cbn in Hn; congruence). assert (r' = CName "x509.RDNSequence") as -> by congruence.
  apply (made_list n _ _ _ (CName "x509.RelativeDistinguishedName") false) in M; [|destruct pad; vm_compute; repeat split; reflexivity]. destruct M as (l & -> & F).
  destruct (name_adds l) with (d := @nil (text * aval)) as (d & Ed); [|eauto].
  eapply Forall_impl; [|exact F]. cbn. intros y (m & z & M).
  apply (made_list m _ _ _ (CName "x509.NameTypeAndValue") true) in M; [|destruct pad; vm_compute; repeat split; reflexivity]. destruct M as (l2 & -> & F2).
  exists l2. split; auto. eapply Forall_impl; [|exact F2]. cbn. intros ? (? & ? & M). eapply made_pair; eauto.
Qed.
Lemma lib_outs n r k ins i b b' a : env r = Some k -> body (makes n) r k ins i b -> body (makes n) r k ins i b' -> r_out k b = Ok a -> exists a', r_out k b' = Ok a'.
Proof.
  intros E H H' O. destruct (entry_of r k E) as (row & [q [[c d] o]] & _ & _ & Eq & _ & Ed & Eo & W). cbn [fst snd] in *. rewrite Eo in *. subst q.
  destruct o as [|n0|s|]; cbn [apply_out]; eauto.
  - cbn [writable] in W. destruct d as [kd| | |fs sel| |alts fx]; try discriminate W; [|now apply andb_true_iff in W as [_ W]].
    assert (b = b') as <-; [|eauto]. destruct (lib_env_ok texts pad r k E) as (K & _). apply class_ok_parts in K as (_ & _ & K). unfold def_okb in K. rewrite Ed in K.
    unfold WriteSpec.body in H, H'. rewrite Ed in H, H'. destruct ins; [contradiction|]. destruct (own r) as [f|], i as [|v| | | |]; try contradiction.
    + destruct H as (_ & -> & _), H' as (_ & -> & _). reflexivity.
    + destruct H as (x & w & E1 & P1 & -> & _), H' as (x' & w' & E2 & P2 & -> & _). assert (x = x') as <- by congruence. f_equal. destruct kd; try contradiction; destruct P1 as (_ & ->), P2 as (_ & ->); reflexivity.
    + destruct H as (_ & -> & _), H' as (_ & -> & _). reflexivity.
    + destruct H as (w & M & -> & _), H' as (w' & M' & -> & _). f_equal. eapply means_fun; eauto.
  - cbn [writable] in W. destruct d as [kd| | |fs sel| |alts fx]; try discriminate W. apply andb_true_iff in W as [_ W]. apply ref_eqb_sound in W. subst r.
    destruct ins; [unfold WriteSpec.body in H; rewrite Ed in H; contradiction|]. destruct (name_body n k i b' E H') as (e & N & l & ->). rewrite N. cbn [bind]. eauto.
Qed.
End Texts.
