(* Host name matching of certificates: the whole check, common names, addresses. *)
Require Import Verif.Base Verif.BaseFacts Verif.Text Verif.NameModel Verif.NameSort Verif.InetModel Verif.InetSpec Verif.InetProofs Verif.InetAddr Verif.InetPlat
  Verif.DomainModel Verif.DomainSpec Verif.DomainProofs.

Lemma address_like_spec s : has 58 s || looks_ipv4 s = true <-> address_like s.
Proof. unfold address_like. rewrite orb_true_iff, has_in, looks_ipv4_spec. reflexivity. Qed.
Lemma labels_nonnil e : labels_of e <> [].
Proof. apply split_on_nonnil. Qed.

(* ---- the whole check, for names ---- *)
Section Whole.
  Variable idna : text -> res text.
  Variable pton : bool -> text -> res bytes.
  Variable ntop : bool -> bytes -> res text.
  Lemma check_name c s e : idna s = Ok e -> ~ address_like (map lower_char e) ->
    is_valid_domain_ip idna pton ntop c s = do ds <- valid_domains c; check_domains idna (labels_of e) ds.
  Proof.
    intros E N. unfold is_valid_domain_ip. rewrite E. cbn [bind]. fold (lower_ascii e) in N.
    assert (L : has 58 (lower_ascii e) || looks_ipv4 (lower_ascii e) = false).
    { destruct (_ || _) eqn:X; [|reflexivity]. apply address_like_spec in X. contradiction. }
    apply orb_false_iff in L. destruct L as [-> ->]. reflexivity.
  Qed.
  Lemma name_shape c s e : idna s = Ok e -> ~ address_like (map lower_char e) ->
    is_valid_domain_ip idna pton ntop c s = Ok true ->
    exists ds v e', valid_domains c = Ok ds /\ In v ds /\ idna v = Ok e' /\ shape (labels_of e') (labels_of e).
  Proof.
    intros E N H. rewrite (check_name c s e E N) in H. destruct (valid_domains c) as [ds|]; [|discriminate]. cbn [bind] in H.
    destruct (check_shape idna _ _ (labels_nonnil e) H) as (v & e' & I & E' & S). exists ds, v, e'. auto.
  Qed.
  Lemma name_exact c s e ds : idna s = Ok e -> ~ address_like (map lower_char e) -> ~ In 10 (hd [] (labels_of e)) ->
    valid_domains c = Ok ds -> Forall (fun v => exists e', idna v = Ok e' /\ plain_name e') ds ->
    exists r, is_valid_domain_ip idna pton ntop c s = Ok r /\
      (r = true <-> exists v e', In v ds /\ idna v = Ok e' /\ covers (labels_of e') (labels_of e)).
  Proof.
    intros E N L D F. rewrite (check_name c s e E N), D. cbn [bind].
    apply check_plain; [apply labels_nonnil|exact L|exact F].
  Qed.

  (* ---- and for addresses ---- *)
  Lemma san_ips_ok l : platform pton ntop -> (forall o, In (GIp o) l -> bytes_ok o /\ address_size o) ->
    exists ts, san_ips ntop l = Ok (map Some ts) /\
      Forall2 (fun o t => exists v6, len o = size_of v6 /\ ntop v6 o = Ok t) (flat_map (fun g => match g with GIp o => [o] | _ => [] end) l) ts.
  Proof.
    intros P. induction l as [|g l IH]; intros H; cbn [san_ips flat_map]; [exists []; split; [reflexivity|constructor]|].
    destruct IH as (ts & E & F); [intros o I; apply H; right; exact I|].
    destruct g as [d|o|]; [exists ts; auto| |exists ts; auto].
    destruct (H o (or_introl eq_refl)) as [B S].
    assert (exists v6, len o = size_of v6) as (v6 & L) by (destruct S; [exists false|exists true]; assumption).
    destruct (P v6 o B L) as (t & T & _). rewrite (ip_native_plain ntop v6 o t L T), E. cbn [bind].
    exists (t :: ts). split; [reflexivity|]. cbn [app]. constructor; [exists v6; auto|exact F].
  Qed.
  Lemma check_ips_ok ip os ts : platform pton ntop -> dots_in_v4 ntop ->
    Forall2 (fun o t => exists v6, len o = size_of v6 /\ ntop v6 o = Ok t) os ts -> Forall bytes_ok os ->
    exists r, check_ips pton ip (map Some ts) = Ok r /\ (r = true <-> In ip os).
  Proof.
    intros P D F. induction F as [|o t os ts (v6 & L & T) F IH]; intros B; cbn [map check_ips].
    { exists false. split; [reflexivity|]. split; [discriminate|intros []]. }
    inversion B as [|? ? B1 B2]; subst. destruct (IH B2) as (r & R & I).
    destruct (P v6 o B1 L) as (t' & T' & Pt & _). assert (t' = t) by congruence. subst t'.
    assert (X : negb (has 46 t) = v6).
    { pose proof (D v6 o t B1 L T) as X. destruct (has 46 t) eqn:Hh.
      - apply has_in in Hh. rewrite X in Hh. subst v6. reflexivity.
      - destruct v6; [reflexivity|]. assert (has 46 t = true) by (apply has_in, X; reflexivity). congruence. }
    rewrite X, Pt. cbn [bind]. destruct (eqb_bytes o ip) eqn:Q.
    - apply eqb_bytes_spec in Q. subst ip. exists true. split; [reflexivity|]. split; [left; reflexivity|auto].
    - exists r. split; [exact R|]. rewrite I. cbn [In]. split; [auto|]. intros [<-|H]; [|exact H].
      assert (eqb_bytes o o = true) by (apply eqb_bytes_spec; reflexivity). congruence.
  Qed.
  Lemma ip_exact c s e l v6 ip : platform pton ntop -> dots_in_v4 ntop -> idna s = Ok e -> address_like (map lower_char e) ->
    (In 58 (map lower_char e) <-> v6 = true) -> pton v6 (map lower_char e) = Ok ip ->
    c_san c = Some l -> (forall o, In (GIp o) l -> bytes_ok o /\ address_size o) ->
    exists r, is_valid_domain_ip idna pton ntop c s = Ok r /\ (r = true <-> In (GIp ip) l).
  Proof.
    intros P D E A V T S H. unfold is_valid_domain_ip. rewrite E. cbn [bind]. change (map lower_char e) with (lower_ascii e) in *.
    assert (Hv : has 58 (lower_ascii e) = v6).
    { destruct (has 58 (lower_ascii e)) eqn:X; [apply has_in in X; rewrite V in X; auto|].
      destruct v6; [|reflexivity]. assert (has 58 (lower_ascii e) = true) by (apply has_in, V; reflexivity). congruence. }
    apply address_like_spec in A. rewrite Hv in *.
    assert (Z0 : negb v6 && negb (negb v6 && looks_ipv4 (lower_ascii e)) = false)
      by (destruct v6, (looks_ipv4 (lower_ascii e)); try reflexivity; discriminate).
    rewrite Z0. unfold valid_ips. rewrite S.
    destruct (san_ips_ok l P H) as (ts & Es & F). rewrite Es. cbn [bind].
    set (os := flat_map (fun g => match g with GIp o => [o] | _ => [] end) l) in *.
    assert (In_os : forall o, In o os <-> In (GIp o) l).
    { intros o. unfold os. rewrite in_flat_map. split.
      - intros (g & I & Q). destruct g; cbn [In] in Q; try tauto. destruct Q as [->|[]]. exact I.
      - intros I. exists (GIp o). split; [exact I|left; reflexivity]. }
    assert (B : Forall bytes_ok os) by (apply Forall_forall; intros o I; apply In_os in I; apply H in I; tauto).
    destruct (check_ips_ok ip os ts P D F B) as (r & R & I). destruct ts as [|t ts].
    - inversion F as [F0|]; subst. exists false. split; [reflexivity|]. split; [discriminate|].
      intros Q. apply In_os in Q. rewrite <- F0 in Q. destruct Q.
    - cbn [map]. rewrite T. cbn [bind]. exists r. split; [exact R|]. rewrite I. apply In_os.
  Qed.
End Whole.

Lemma shim_dots : dots_in_v4 shim_ntop.
Proof.
  intros v6 p s B L E. destruct v6; cbn [size_of shim_ntop] in *.
  - split; [|discriminate]. intros I. exfalso.
    destruct (ntop6_canonical p B L) as (s' & E' & C). assert (s' = s) by congruence. subst s'.
    destruct C as [_ [[_ C]|(z & n & a & b & _ & _ & _ & CA & CB & ->)]].
    + apply colons_chars in C. rewrite Forall_forall in C. specialize (C 46 I). unfold hexc in C. lia.
    + apply colons_chars in CA, CB. rewrite Forall_forall in CA, CB. rewrite !in_app_iff in I. destruct I as [I|[I|I]].
      * specialize (CA 46 I). unfold hexc in CA. lia.
      * destruct I as [I|[I|[]]]; discriminate.
      * specialize (CB 46 I). unfold hexc in CB. lia.
  - split; [reflexivity|]. intros _. destruct (ntop4_ok p L) as [E' _]. assert (s = join_with 46 (map dec p)) as -> by congruence.
    destruct p as [|a [|b p]]; try (unfold len in L; cbn in L; lia). cbn [map]. rewrite join_cons by discriminate.
    apply in_app_iff. right. left. reflexivity.
Qed.

(* ---- alternative names ---- *)
Lemma san_fold l : forall acc, NoDup acc ->
  let out := fold_left (fun acc g => match g with GDns s => if mem s acc then acc else acc ++ [s] | _ => acc end) l acc in
  NoDup out /\ (forall s, In s out <-> In s acc \/ In (GDns s) l) /\ exists t, out = acc ++ t.
Proof.
  induction l as [|g l IH]; intros acc N; cbn [fold_left].
  { split; [exact N|]. split; [intros s; cbn [In]; tauto|]. exists []. rewrite app_nil_r. reflexivity. }
  assert (Skip : (forall s, g = GDns s -> In s acc) ->
    NoDup (fold_left (fun acc g => match g with GDns s => if mem s acc then acc else acc ++ [s] | _ => acc end) l acc) /\
    (forall s, In s (fold_left (fun acc g => match g with GDns s => if mem s acc then acc else acc ++ [s] | _ => acc end) l acc) <-> In s acc \/ In (GDns s) (g :: l)) /\
    exists t, fold_left (fun acc g => match g with GDns s => if mem s acc then acc else acc ++ [s] | _ => acc end) l acc = acc ++ t).
  { intros K. destruct (IH acc N) as (H1 & H2 & H3). split; [exact H1|]. split; [|exact H3]. intros s. rewrite H2. cbn [In].
    split; [tauto|]. intros [?|[->|?]]; auto. }
  destruct g as [d|o|]; try (apply Skip; discriminate).
  destruct (mem d acc) eqn:M; [apply Skip; intros s [= <-]; apply mem_in, M|].
  assert (Nd : ~ In d acc) by (intros I; apply mem_in in I; congruence).
  destruct (IH (acc ++ [d])) as (H1 & H2 & t & H3).
  { apply NoDup_rev in N. rewrite <- (rev_involutive (acc ++ [d])). apply NoDup_rev. rewrite rev_app_distr. cbn [rev app].
    constructor; [rewrite <- in_rev; exact Nd|exact N]. }
  split; [exact H1|]. split.
  - intros s. rewrite H2, in_app_iff. cbn [In]. split; [|].
    + intros [[?|[->|[]]]|?]; auto.
    + intros [?|[[= ->]|?]]; auto.
  - exists (d :: t). rewrite H3, <- app_assoc. reflexivity.
Qed.
Lemma valid_domains_san c l : c_san c = Some l -> l <> [] ->
  exists ds, valid_domains c = Ok ds /\ NoDup ds /\ forall s, In s ds <-> In (GDns s) l.
Proof.
  intros S N. unfold valid_domains. rewrite S. destruct l as [|g l]; [congruence|]. eexists. split; [reflexivity|].
  destruct (san_fold (g :: l) [] (NoDup_nil _)) as (H1 & H2 & _). split; [exact H1|]. intros s. unfold san_domains. rewrite H2. cbn [In]. tauto.
Qed.
(* names are listed in the order in which they first occur *)
Lemma valid_domains_order l l' : exists t, san_domains (l ++ l') = san_domains l ++ t.
Proof.
  unfold san_domains. rewrite fold_left_app. destruct (san_fold l [] (NoDup_nil _)) as (N & _ & _).
  destruct (san_fold l' _ N) as (_ & _ & t & E). exists t. exact E.
Qed.

(* ---- common names ---- *)
Lemma alpha_iff c : is_alpha c = true <-> letter c.
Proof. unfold is_alpha, letter. rewrite orb_true_iff, !andb_true_iff. lia. Qed.
Lemma alnum_iff c : is_alnum c = true <-> letter_digit c.
Proof. unfold is_alnum, letter_digit. rewrite orb_true_iff, alpha_iff. unfold is_digit. rewrite andb_true_iff, !Z.leb_le. reflexivity. Qed.
Lemma cn_label_iff w : cn_label w = true <-> ldh_label w.
Proof.
  unfold cn_label, ldh_label. rewrite !andb_true_iff, !alnum_iff, forallb_forall, Forall_forall. split.
  - intros (((H1 & H2) & H3) & H4). split; [|split].
    + intros c I. specialize (H4 c I). rewrite orb_true_iff, alnum_iff in H4. destruct H4; [auto|right; lia].
    + destruct w as [|c r]; [discriminate|]. exists c, r. auto.
    + destruct w as [|x w]; [discriminate|]. destruct (@exists_last _ (x :: w)) as (r & c & E); [discriminate|].
      rewrite E in *. rewrite last_last in H3. exists r, c. auto.
  - intros (H4 & (c & r & -> & H2) & (r' & c' & E & H3)). split; [split; [split|]|].
    + rewrite len_cons. pose proof (len_nonneg r). destruct (1 + len r =? 0) eqn:X; [lia|reflexivity].
    + exact H2.
    + rewrite E, last_last. exact H3.
    + intros x I. rewrite orb_true_iff, alnum_iff. destruct (H4 x I); [auto|right; lia].
Qed.
Lemma cn_labels_iff l : cn_labels l = true <-> exists ls tld, l = ls ++ [tld] /\ Forall ldh_label ls /\ 2 <= len tld /\ Forall letter tld.
Proof.
  induction l as [|w l IH].
  { split; [discriminate|]. intros (ls & tld & E & _). destruct ls; discriminate. }
  destruct l as [|w' l].
  - cbn [cn_labels]. rewrite andb_true_iff, forallb_forall. split.
    + intros [H1 H2]. exists [], w. split; [reflexivity|]. split; [constructor|]. split; [lia|].
      apply Forall_forall. intros c I. apply alpha_iff, H2, I.
    + intros ([|x ls] & tld & E & _ & H1 & H2); [|destruct ls; discriminate]. injection E as ->. split; [lia|].
      intros c I. rewrite Forall_forall in H2. apply alpha_iff, H2, I.
  - change (cn_labels (w :: w' :: l)) with (cn_label w && cn_labels (w' :: l)). rewrite andb_true_iff, cn_label_iff, IH. split.
    + intros (H & ls & tld & E & F & R). exists (w :: ls), tld. rewrite E. split; [reflexivity|]. split; [constructor; assumption|exact R].
    + intros ([|x ls] & tld & E & F & R); [discriminate|]. injection E as -> E. inversion F as [|? ? F1 F2]; subst.
      split; [exact F1|]. exists ls, tld. auto.
Qed.
Lemma ldh_no_dot w : ldh_label w -> ~ In 46 w.
Proof. intros [F _] I. rewrite Forall_forall in F. specialize (F 46 I). unfold letter_digit, letter in F. lia. Qed.
Lemma tld_no_dot w : Forall letter w -> ~ In 46 w.
Proof. intros F I. rewrite Forall_forall in F. specialize (F 46 I). unfold letter in F. lia. Qed.
Lemma host_name_iff s : (2 <=? len (split_on 46 s)) && cn_labels (split_on 46 s) = true <-> host_name s.
Proof.
  rewrite andb_true_iff, cn_labels_iff. split.
  - intros (L & ls & tld & E & F & H1 & H2). exists ls, tld. split.
    + intros ->. rewrite E in L. discriminate.
    + split; [exact F|]. split; [exact H1|]. split; [exact H2|]. etransitivity; [symmetry; apply (join_split 46)|]. f_equal. exact E.
  - intros (ls & tld & N & F & H1 & H2 & ->).
    assert (S : split_on 46 (join_with 46 (ls ++ [tld])) = ls ++ [tld]).
    { apply split_join; [destruct ls; discriminate|]. apply Forall_app. split.
      - eapply Forall_impl; [|exact F]. apply ldh_no_dot.
      - constructor; [apply tld_no_dot, H2|constructor]. }
    rewrite S. split.
    + destruct ls; [congruence|]. rewrite len_app, len_cons. change (len [tld]) with 1. pose proof (len_nonneg ls). lia.
    + exists ls, tld. auto.
Qed.
Lemma host_name_head s : host_name s -> hd 0 s <> 42.
Proof.
  intros (ls & tld & N & F & _ & _ & ->). destruct ls as [|w ls]; [congruence|]. inversion F as [|? ? (F1 & (c & r & -> & C) & _) _]; subst.
  cbn [app]. assert (X : hd 0 (join_with 46 ((c :: r) :: ls ++ [tld])) = c) by (destruct (ls ++ [tld]); reflexivity).
  intros Q. assert (Y : c = 42) by (rewrite <- X; exact Q). clear X Q. unfold letter_digit, letter in C. lia.
Qed.
Lemma strip_star s : (exists r, s = 42 :: 46 :: r /\ (match s with 42 :: 46 :: r => r | _ => s end) = r) \/
  ((match s with 42 :: 46 :: r => r | _ => s end) = s /\ ~ exists r, s = 42 :: 46 :: r).
Proof.
  destruct s as [|x s]; [right; split; [reflexivity|intros (r & H); discriminate]|].
  destruct (Z.eq_dec x 42) as [->|Nx].
  2:{ right. split; [|intros (r & H); congruence]. destruct x as [|p|p]; try reflexivity. repeat (destruct p as [p|p|]; try reflexivity). congruence. }
  destruct s as [|y s]; [right; split; [reflexivity|intros (r & H); discriminate]|].
  destruct (Z.eq_dec y 46) as [->|Ny]; [left; exists s; auto|].
  right. split; [|intros (r & H); congruence]. destruct y as [|p|p]; try reflexivity. repeat (destruct p as [p|p|]; try reflexivity). congruence.
Qed.
Lemma host_pattern_iff s :
  (let t := match s with 42 :: 46 :: r => r | _ => s end in (2 <=? len (split_on 46 t)) && cn_labels (split_on 46 t)) = true <-> host_pattern s.
Proof.
  cbv zeta. rewrite host_name_iff. unfold host_pattern. destruct (strip_star s) as [(r & E & Q)|[-> N]]; [rewrite Q; clear Q; subst s|].
  - split; [intros H; right; eauto|]. intros [H|(r' & [= <-] & H)]; [|exact H]. apply host_name_head in H. cbn in H. congruence.
  - split; [auto|]. intros [H|(r & E & _)]; [exact H|]. exfalso. eauto.
Qed.
Lemma host_name_last s : host_name s -> last s 0 <> 10.
Proof.
  intros (ls & tld & _ & _ & H1 & H2 & ->).
  destruct (@exists_last _ tld) as (t & c & ->); [intros ->; unfold len in H1; cbn in H1; lia|].
  assert (X : exists p, join_with 46 (ls ++ [t ++ [c]]) = p ++ [c]).
  { clear. induction ls as [|w ls (p & IH)]; [exists t; reflexivity|]. cbn [app].
    rewrite join_cons by (destruct ls; discriminate). exists (w ++ 46 :: p). rewrite IH, <- app_assoc. reflexivity. }
  destruct X as (p & ->). rewrite last_last. apply Forall_app in H2. destruct H2 as [_ H2]. inversion H2 as [|? ? C _]; subst.
  unfold letter in C. lia.
Qed.
Lemma host_pattern_last s : host_pattern s -> last s 0 <> 10.
Proof.
  intros [H|(r & -> & H)]; [apply host_name_last, H|]. apply host_name_last in H. destruct r as [|x r]; [cbn; lia|].
  exact H.
Qed.
Lemma cn_pattern_iff s : cn_pattern s = true <-> host_pattern s \/ exists r, s = r ++ [10] /\ host_pattern r.
Proof.
  unfold cn_pattern. rewrite host_pattern_iff. destruct (chomp_spec s) as [(r & -> & ->)|[-> N]].
  - split; [intros H; right; eauto|]. intros [H|(r' & E & H)].
    + apply host_pattern_last in H. rewrite last_last in H. congruence.
    + apply app_inj_tail in E. destruct E as [-> _]. exact H.
  - split; [auto|]. intros [H|(r & E & _)]; [exact H|]. exfalso. eauto.
Qed.
Definition common_names (l : list attr) : list text :=
  flat_map (fun x => if eqb_text (a_type x) (tx "common_name") then match a_value x with RText s => [s] | _ => [] end else []) l.
Lemma cn_domains_ok l : (forall x, In x l -> a_type x = tx "common_name" -> exists s, a_value x = RText s) ->
  exists ds, cn_domains l = Ok ds /\ forall s, In s ds <-> (exists x, In x l /\ a_type x = tx "common_name" /\ a_value x = RText s) /\ cn_pattern s = true.
Proof.
  induction l as [|x l IH]; intros H; cbn [cn_domains].
  { exists []. split; [reflexivity|]. intros s. split; [intros []|]. intros ((x & [] & _) & _). }
  destruct IH as (ds & E & I); [intros y J; apply H; right; exact J|].
  destruct (eqb_text (a_type x) (tx "common_name")) eqn:T.
  - apply eqb_text_spec in T. destruct (H x (or_introl eq_refl) T) as (s & V). rewrite V, E. cbn [bind]. eexists. split; [reflexivity|].
    intros t. assert (K : In t (if cn_pattern s then s :: ds else ds) <-> (t = s /\ cn_pattern s = true) \/ In t ds).
    { destruct (cn_pattern s); cbn [In]; intuition congruence. }
    rewrite K, I. split.
    + intros [[-> P]|((y & J & R) & P)]; (split; [|exact P]); [exists x; cbn [In]; auto|exists y; cbn [In]; tauto].
    + intros ((y & [<-|J] & Ty & Vy) & P); [left; rewrite V in Vy; injection Vy as ->; auto|]. right. split; [eauto|exact P].
  - apply eqb_text_false in T. exists ds. split; [exact E|]. intros s. rewrite I. split.
    + intros ((y & J & R) & P). split; [exists y; cbn [In]; tauto|exact P].
    + intros ((y & [<-|J] & R) & P); [destruct R; contradiction|]. split; [eauto|exact P].
Qed.
Lemma valid_domains_cn c : c_san c = None ->
  (forall x, In x (concat (c_subject c)) -> a_type x = tx "common_name" -> exists s, a_value x = RText s) ->
  exists ds, valid_domains c = Ok ds /\ forall s, In s ds <->
    (exists x, In x (concat (c_subject c)) /\ a_type x = tx "common_name" /\ a_value x = RText s) /\
    (host_pattern s \/ exists r, s = r ++ [10] /\ host_pattern r).
Proof.
  intros S H. unfold valid_domains. rewrite S. destruct (cn_domains_ok _ H) as (ds & E & I). exists ds. split; [exact E|].
  intros s. rewrite I, cn_pattern_iff. reflexivity.
Qed.

(* ---- more statements used in PropertiesDomain.v ---- *)
Lemma listed_match idna pton ntop c s e ds : idna s = Ok e -> ~ address_like (map lower_char e) ->
  valid_domains c = Ok ds -> Forall (fun v => exists e', idna v = Ok e' /\ plain_name e') ds ->
  ~ In 10 (hd [] (labels_of e)) ->
  (exists v e', In v ds /\ idna v = Ok e' /\ map lower_char e' = map lower_char e) ->
  is_valid_domain_ip idna pton ntop c s = Ok true.
Proof.
  intros E N D F L (v & e' & I & E' & Q). destruct (name_exact idna pton ntop c s e ds E N L D F) as (r & R & J). rewrite R. f_equal.
  apply J. exists v, e'. split; [exact I|]. split; [exact E'|]. left. unfold labels_of. rewrite Q. reflexivity.
Qed.
Lemma no_names idna pton ntop c s e : idna s = Ok e -> ~ address_like (map lower_char e) ->
  valid_domains c = Ok [] -> is_valid_domain_ip idna pton ntop c s = Ok false.
Proof. intros E N D. rewrite (check_name idna pton ntop c s e E N), D. reflexivity. Qed.
Lemma only_ips idna pton ntop c c' s e : idna s = Ok e -> address_like (map lower_char e) ->
  valid_ips ntop c = valid_ips ntop c' ->
  is_valid_domain_ip idna pton ntop c s = is_valid_domain_ip idna pton ntop c' s.
Proof.
  intros E A V. unfold is_valid_domain_ip. rewrite E. cbn [bind]. change (map lower_char e) with (lower_ascii e) in A.
  apply address_like_spec in A.
  assert (Z0 : negb (has 58 (lower_ascii e)) && negb (negb (has 58 (lower_ascii e)) && looks_ipv4 (lower_ascii e)) = false)
    by (destruct (has 58 (lower_ascii e)), (looks_ipv4 (lower_ascii e)); try reflexivity; discriminate).
  rewrite Z0, V. reflexivity.
Qed.
Lemma no_addresses idna pton ntop c s e : idna s = Ok e -> address_like (map lower_char e) ->
  (forall l o, c_san c = Some l -> ~ In (GIp o) l) -> is_valid_domain_ip idna pton ntop c s = Ok false.
Proof.
  intros E A H. unfold is_valid_domain_ip. rewrite E. cbn [bind]. change (map lower_char e) with (lower_ascii e) in *.
  apply address_like_spec in A.
  assert (Z0 : negb (has 58 (lower_ascii e)) && negb (negb (has 58 (lower_ascii e)) && looks_ipv4 (lower_ascii e)) = false)
    by (destruct (has 58 (lower_ascii e)), (looks_ipv4 (lower_ascii e)); try reflexivity; discriminate).
  rewrite Z0. assert (V : valid_ips ntop c = Ok []); [|rewrite V; reflexivity].
  unfold valid_ips. destruct (c_san c) as [l|]; [|reflexivity]. specialize (H l).
  induction l as [|g l IH]; [reflexivity|]. destruct g as [d|o|]; cbn [san_ips].
  - apply IH. intros o _ I. exact (H o eq_refl (or_intror I)).
  - exfalso. exact (H o eq_refl (or_introl eq_refl)).
  - apply IH. intros o _ I. exact (H o eq_refl (or_intror I)).
Qed.
