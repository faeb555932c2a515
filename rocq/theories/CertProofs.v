(* Proofs about CertModel. *)
Require Import Verif.Base Verif.BaseFacts Verif.Text Verif.DomainModel Verif.NameModel Verif.NameSpec Verif.NameProofs Verif.AddrModel Verif.AddrSpec Verif.AddrProofs
  Verif.UriModel Verif.UriSpec Verif.UriEqual Verif.CertModel Verif.CertSpec.

(* ---- names ---- *)
Lemma rdns_total L a : forall b, comparable L a -> comparable L b -> exists r, eq_rdns L a b = Ok r.
Proof.
  induction a as [|x a IH]; intros [|y b] A B; cbn [eq_rdns]; eauto. inversion A; subst. inversion B; subst.
  destruct (eq_rdn_cases L y x) as [[H E]|[[H E]|(e & H & E)]]; rewrite H; cbn [bind]; eauto.
  exfalso. destruct E as (_ & _ & E). tauto.
Qed.
Lemma name_total L a b : comparable L a -> comparable L b -> exists r, eq_name L a b = Ok r.
Proof. intros A B. unfold eq_name. destruct (len a =? len b); cbn [negb]; eauto using rdns_total. Qed.

Section General.
  Variable L : prep_lib.
  Variable to : text -> res bytes.
  Variable from : bytes -> res text.
  Variable low : text -> text.
  Variable ipv6 nfkc : text -> bool.
  Notation geq := (general_eq L to from low ipv6 nfkc).
  Lemma geq_unsupported a b : not_compared a \/ not_compared b -> snd (geq a b) = Err ValueError.
  Proof.
    intros [H|H]; destruct H as [->|[->| ->]]; try reflexivity; unfold general_eq; cbn [alternative];
      destruct (in_list (alternative a) unsupported); reflexivity.
  Qed.
  Lemma geq_kinds a b : ~ not_compared a -> ~ not_compared b -> ~ same_kind a b -> geq a b = (a, b, Ok false).
  Proof.
    unfold not_compared. intros A B K. destruct a, b; try reflexivity; try tauto; exfalso; cbn in K; tauto.
  Qed.
  Lemma geq_same a b : same_kind a b -> geq a b = chosen_eq L to from low ipv6 nfkc a b.
  Proof. destruct a, b; cbn; try contradiction; reflexivity. Qed.
  Lemma kinds a : not_compared a \/ same_kind a a.
  Proof. unfold not_compared. destruct a; cbn; auto. Qed.
End General.

(* ---- URLs ---- *)
Lemma starts_iff w s : starts w s = true <-> exists r, s = w ++ r.
Proof.
  revert s. induction w as [|a w IH]; intros [|b s]; cbn [starts app].
  - split; [exists []; reflexivity|reflexivity].
  - split; [eexists; reflexivity|reflexivity].
  - split; [discriminate|intros [r H]; discriminate].
  - rewrite andb_true_iff, Z.eqb_eq, IH. split.
    + intros [-> [r ->]]. eexists. reflexivity.
    + intros [r H]. injection H as -> ->. eauto.
Qed.
Lemma same_lower_char c d : lower_char c = d -> ~ 65 <= d <= 90 -> same_letter c d.
Proof.
  unfold lower_char. destruct ((65 <=? c) && (c <=? 90)) eqn:E; intros <- D; [|constructor].
  constructor. lia.
Qed.
Lemma lower_same_char c d : same_letter c d -> ~ 65 <= d <= 90 -> lower_char c = d.
Proof. intros [x|x R|x R] D; unfold lower_char; destruct ((65 <=? _) && _) eqn:E; lia. Qed.
(* what the prefixes are made of *)
Definition letters (w : text) : Prop := forall c, In c w -> In c (tx "htpsldap:/").
Lemma letters_small c : In c (tx "htpsldap:/") -> ~ 65 <= c <= 90 /\ 0 <= c < 128.
Proof. cbn. lia. Qed.
Lemma lettersb w : forallb (fun c => existsb (Z.eqb c) (tx "htpsldap:/")) w = true -> letters w.
Proof.
  intros H c I. rewrite forallb_forall in H. specialize (H c I). apply existsb_exists in H. destruct H as (x & X & E). apply Z.eqb_eq in E. now subst.
Qed.
Lemma lower_concat low s : letterwise low -> exists ws, lower low s = concat ws /\
  Forall2 (fun c w => if c <? 128 then w = [lower_char c] else exists x r, w = x :: r /\ ~ In x (tx "htpsldap:/")) s ws.
Proof.
  intro H. unfold lower. destruct (is_ascii s) eqn:A; [|apply H].
  exists (map (fun c => [lower_char c]) s). split; [unfold lower_ascii; induction s; cbn; [reflexivity|now rewrite <- IHs by (cbn in A; now apply andb_true_iff in A)]|].
  unfold is_ascii in A. rewrite forallb_forall in A. induction s as [|c s IH]; [constructor|]. cbn [map]. constructor; [|apply IH; intros x X; apply A; now right].
  specialize (A c (or_introl eq_refl)). replace (c <? 128) with true by lia. reflexivity.
Qed.
Lemma starts_lower low w s : letterwise low -> letters w ->
  (starts w (lower low s) = true <-> exists h r, s = h ++ r /\ AddrSpec.same_name h w).
Proof.
  intros H. destruct (lower_concat low s H) as (ws & -> & F). clear H. revert w.
  induction F as [|c w0 s ws H F IH]; intros w W.
  - destruct w as [|d w]; cbn.
    + split; [exists [], []; split; [reflexivity|constructor]|reflexivity].
    + split; [discriminate|]. intros (h & r & E & S). destruct h; [|discriminate]. inversion S.
  - destruct w as [|d w]; [cbn; split; [exists [], (c :: s); split; [reflexivity|constructor]|reflexivity]|].
    destruct (letters_small d (W d (or_introl eq_refl))) as [D1 D2].
    assert (W' : letters w) by (intros x X; apply W; now right).
    destruct (c <? 128) eqn:C.
    + subst w0. cbn [concat app starts]. rewrite andb_true_iff, Z.eqb_eq, (IH w W'). split.
      * intros [E (h & r & -> & S)]. exists (c :: h), r. split; [reflexivity|]. constructor; [|exact S]. symmetry in E. now apply same_lower_char.
      * intros (h & r & E & S). destruct h as [|x h]; [inversion S|]. injection E as -> ->. inversion S; subst. split.
        { symmetry. now apply lower_same_char. } exists h, r. auto.
    + destruct H as (x & r0 & -> & X). cbn [concat app starts]. split.
      * rewrite andb_true_iff, Z.eqb_eq. intros [-> _]. exfalso. apply X, W. now left.
      * intros (h & r & E & S). destruct h as [|y h]; [inversion S|]. injection E as -> ->. inversion S as [|? ? ? ? S1 S2]; subst. exfalso.
        inversion S1; subst; lia.
Qed.
Lemma existsb_begins low ws s : letterwise low -> Forall letters ws ->
  (existsb (fun w => starts w (lower low s)) ws = true <-> begins ws s).
Proof.
  intros H F. rewrite existsb_exists. unfold begins. rewrite Forall_forall in F. split.
  - intros (w & I & S). apply starts_lower in S; [|exact H|now apply F]. destruct S as (h & r & E & S). exists w, h, r. auto.
  - intros (w & h & r & I & E & S). exists w. split; [exact I|]. apply starts_lower; [exact H|now apply F|]. exists h, r. auto.
Qed.
Lemma prefixes_letters : Forall letters url_prefixes.
Proof. repeat (constructor; [apply lettersb; vm_compute; reflexivity|]). constructor. Qed.
Lemma wanted_iff low s : letterwise low -> (wanted low s = true <-> begins url_prefixes s).
Proof. intro H. apply existsb_begins; [exact H|apply prefixes_letters]. Qed.
Lemma http_iff low s : letterwise low -> (starts (tx "http://") (lower low s) = true <-> begins http_prefix s).
Proof.
  intro H. rewrite <- (existsb_begins low http_prefix s H) by (constructor; [apply lettersb; vm_compute; reflexivity|constructor]).
  cbn [http_prefix existsb]. now rewrite orb_false_r.
Qed.

Section Urls.
  Context {N : Type}.
  Variable low : text -> text.
  Hypothesis H : letterwise low.
  Notation want := (begins url_prefixes).
  Lemma wanted_not s : wanted low s = false <-> ~ want s.
  Proof. rewrite <- (wanted_iff low s H). now rewrite not_true_iff_false. Qed.
  Lemma first_url_ok (l : list (@gen N)) v : first_url low l = Ok v <-> first_of want l v.
  Proof.
    induction l as [|g l IH]; cbn [first_url].
    - split.
      + intros [= <-]. intros t [].
      + destruct v as [s|]; [|reflexivity]. intros (a & b & E & _). destruct a; discriminate.
    - assert (S : (forall t, g <> Url t) -> first_of want (g :: l) v <-> first_of want l v).
      { intro G. destruct v as [s|]; cbn [first_of].
        - split.
          + intros (a & b & E & P & F). destruct a as [|x a]; [injection E as E _; exfalso; now apply (G (Ok s))|]. injection E as -> ->. exists a, b. split; [reflexivity|].
            split; [exact P|]. intros t T. apply F. now right.
          + intros (a & b & -> & P & F). exists (g :: a), b. split; [reflexivity|]. split; [exact P|]. intros t [T|T]; [exfalso; now apply (G t)|now apply F].
        - split; intros F t T; apply F; [now right|]. destruct T as [T|T]; [exfalso; now apply (G t)|exact T]. }
      destruct g as [t|n r|r]; [|rewrite S by discriminate; exact IH|rewrite S by discriminate; exact IH].
      destruct t as [w|e]; cbn [bind].
      + destruct (wanted low w) eqn:W.
        * apply (wanted_iff low w H) in W. split.
          -- intros [= <-]. exists [], l. split; [reflexivity|]. split; [exact W|]. intros t [].
          -- destruct v as [s|].
             ++ intros (a & b & E & P & F). destruct a as [|x a]; [injection E as -> _; reflexivity|]. injection E as <- _.
                destruct (F (Ok w) (or_introl eq_refl)) as (w' & [= <-] & W'). contradiction.
             ++ intros F. destruct (F (Ok w) (or_introl eq_refl)) as (w' & [= <-] & W'). contradiction.
        * apply wanted_not in W. rewrite IH. destruct v as [s|]; cbn [first_of].
          -- split.
             ++ intros (a & b & -> & P & F). exists (Url (Ok w) :: a), b. split; [reflexivity|]. split; [exact P|].
                intros t [[= <-]|T]; [eauto|now apply F].
             ++ intros (a & b & E & P & F). destruct a as [|x a]; [injection E as -> _; contradiction|]. injection E as <- ->. exists a, b.
                split; [reflexivity|]. split; [exact P|]. intros t T. apply F. now right.
          -- split; [intros F t [[= <-]|T]; [eauto|now apply F]|intros F t T; apply F; now right].
      + split; [discriminate|]. destruct v as [s|].
        * intros (a & b & E & P & F). destruct a as [|x a]; [discriminate|]. injection E as <- _.
          destruct (F (Err e) (or_introl eq_refl)) as (w' & [=] & _).
        * intros F. destruct (F (Err e) (or_introl eq_refl)) as (w' & [=] & _).
  Qed.
  Lemma first_url_bad (l : list (@gen N)) e : first_bad want l e -> first_url low l = Err e.
  Proof.
    intros (a & b & -> & F). induction a as [|g a IH]; [reflexivity|]. cbn [app first_url].
    destruct g as [t|n r|r]; [|apply IH; intros t T; apply F; now right..].
    destruct (F t (or_introl eq_refl)) as (w & -> & W). cbn [bind]. apply wanted_not in W. rewrite W. apply IH. intros t T. apply F. now right.
  Qed.
  (* the reading is kept *)
  Lemma url_reads p n : let c := Nat.iter n (fun c => fst (read_url (N := N) low p c)) None in
    match p with
    | Some (Full l) => match first_url low l with
                       | Ok v => snd (read_url low p c) = Ok v
                       | Err e => snd (read_url low p c) = if (n =? 0)%nat then Err e else Ok None
                       end
    | Some Relative => snd (read_url low p c) = if (n =? 0)%nat then Err ValueError else Ok None
    | None => snd (read_url low p c) = if (n =? 0)%nat then Err AttributeError else Ok None
    end.
  Proof.
    intro c. destruct n as [|n].
    - destruct p as [[l|]|]; cbn; [|reflexivity..]. destruct (first_url low l); reflexivity.
    - assert (E : c = fst (read_url low p None)).
      { unfold c. clear c. set (f := fun c => fst (read_url low p c)) in *. induction n as [|n IH]; [reflexivity|].
        change (Nat.iter (S (S n)) f None) with (f (Nat.iter (S n) f None)). rewrite IH. unfold f.
        destruct p as [[l|]|]; cbn; [|reflexivity..]. destruct (first_url low l); reflexivity. }
      rewrite E. destruct p as [[l|]|]; cbn; [|reflexivity..]. destruct (first_url low l); reflexivity.
  Qed.

  Lemma per_url_map (p : @point N) l : per_url p l = map (fun _ => p) (flat_map (fun g => match g with Url v => [v] | _ => [] end) l).
  Proof. induction l as [|[v|n v|v] l IH]; cbn; [reflexivity|now rewrite IH|exact IH|exact IH]. Qed.
  Lemma url_points_once (l : list (@point N)) : url_points l = once_per_uri l.
  Proof.
    induction l as [|[[g|]|] l IH]; cbn [url_points]; [reflexivity| |exact IH|exact IH].
    unfold once_per_uri. cbn [flat_map]. fold (once_per_uri l). rewrite <- IH, per_url_map. reflexivity.
  Qed.
  Lemma crl_points_once (l : list (@point N)) : ~ In None l -> crl_points l = (once_per_uri l, Ok tt).
  Proof.
    induction l as [|[[g|]|] l IH]; intro A; cbn [crl_points]; [reflexivity| | |exfalso; apply A; now left].
    - rewrite IH by (intro; apply A; now right). rewrite per_url_map. reflexivity.
    - apply IH. intro; apply A; now right.
  Qed.
  Lemma crl_points_bad (a b : list (@point N)) : ~ In None a -> crl_points (a ++ None :: b) = (once_per_uri a, Err AttributeError).
  Proof.
    induction a as [|[[g|]|] a IH]; intro A; cbn [app crl_points]; [reflexivity| | |exfalso; apply A; now left].
    - rewrite IH by (intro; apply A; now right). rewrite per_url_map. reflexivity.
    - apply IH. intro; apply A; now right.
  Qed.

  Lemma listed_ocsp (l : list (text * @gen N)) o : ocsp_loop low l = Ok o <-> listed (tx "ocsp") want l o.
  Proof.
    revert o. induction l as [|[m g] l IH]; intro o.
    - cbn. split; [intros [= <-]; constructor|intro X; inversion X; reflexivity].
    - destruct (eqb_text m (tx "ocsp")) eqn:M; [apply eqb_text_spec in M; subst m|].
      + destruct g as [v|n v|v]; cbn [ocsp_loop].
        * replace (eqb_text (tx "ocsp") (tx "ocsp")) with true by reflexivity. destruct v as [s|e]; cbn [bind].
          -- destruct (wanted low s) eqn:W.
             ++ apply (wanted_iff low s H) in W. split.
                ** intro X. apply bind_ok in X. destruct X as (o' & X & [= <-]). apply IH in X. now constructor.
                ** intro X. inversion X; subst; try contradiction; try (exfalso; eauto; fail).
                   --- match goal with K : listed _ _ l ?o' |- _ => apply IH in K; rewrite K end. reflexivity.
                   --- exfalso. match goal with K : forall v, Url _ <> Url v |- _ => now apply (K (Ok s)) end.
             ++ apply wanted_not in W. split.
                ** intro X. apply bind_ok in X. destruct X as (o' & X & [= <-]). apply IH in X. now apply listed_scheme.
                ** intro X. inversion X; subst; try contradiction.
                   --- exfalso. match goal with K : forall v, Url _ <> Url v |- _ => now apply (K (Ok s)) end.
                   --- match goal with K : listed _ _ l ?o' |- _ => apply IH in K; rewrite K end. reflexivity.
          -- split; [discriminate|]. intro X. inversion X; subst; try contradiction.
             exfalso. match goal with K : forall v, Url _ <> Url v |- _ => now apply (K (Err e)) end.
        * rewrite IH. split; [intro X; apply listed_kind; [discriminate|exact X]|]. intro X; inversion X; subst; try contradiction; assumption.
        * rewrite IH. split; [intro X; apply listed_kind; [discriminate|exact X]|]. intro X; inversion X; subst; try contradiction; assumption.
      + assert (M' : m <> tx "ocsp") by (intros ->; now rewrite (proj2 (eqb_text_spec _ _) eq_refl) in M).
        assert (E : ocsp_loop low ((m, g) :: l) = ocsp_loop low l) by (destruct g; cbn [ocsp_loop]; rewrite ?M; reflexivity).
        rewrite E, IH. split; [intro X; now apply listed_method|]. intro X. inversion X; subst; try contradiction; assumption.
  Qed.
  Lemma listed_ca (l : list (text * @gen N)) o : ca_loop low l = (o, Ok tt) <-> listed (tx "ca_issuers") (begins http_prefix) l o.
  Proof.
    revert o. induction l as [|[m g] l IH]; intro o.
    - cbn. split; [intros [= <-]; constructor|intro X; inversion X; reflexivity].
    - destruct (eqb_text m (tx "ca_issuers")) eqn:M; [apply eqb_text_spec in M; subst m|].
      + destruct g as [v|n v|v]; cbn [ca_loop].
        * replace (eqb_text (tx "ca_issuers") (tx "ca_issuers")) with true by reflexivity. destruct v as [s|e].
          -- destruct (ca_loop low l) as [o' r'] eqn:K. destruct (starts (tx "http://") (lower low s)) eqn:W.
             ++ apply (http_iff low s H) in W. split.
                ** intros [= <- ->]. constructor; [exact W|]. now apply IH.
                ** intro X. inversion X; subst; try contradiction.
                   --- match goal with Q : listed _ _ l ?o' |- _ => apply IH in Q; injection Q as -> -> end. reflexivity.
                   --- exfalso. match goal with Q : forall v, Url _ <> Url v |- _ => now apply (Q (Ok s)) end.
             ++ assert (W' : ~ begins http_prefix s) by (rewrite <- (http_iff low s H); now rewrite W). split.
                ** intros [= <- ->]. apply listed_scheme; [exact W'|]. now apply IH.
                ** intro X. inversion X; subst; try contradiction.
                   --- exfalso. match goal with Q : forall v, Url _ <> Url v |- _ => now apply (Q (Ok s)) end.
                   --- match goal with Q : listed _ _ l ?o' |- _ => apply IH in Q; injection Q as -> -> end. reflexivity.
          -- split; [discriminate|]. intro X. inversion X; subst; try contradiction.
             exfalso. match goal with Q : forall v, Url _ <> Url v |- _ => now apply (Q (Err e)) end.
        * rewrite IH. split; [intro X; apply listed_kind; [discriminate|exact X]|]. intro X; inversion X; subst; try contradiction; assumption.
        * rewrite IH. split; [intro X; apply listed_kind; [discriminate|exact X]|]. intro X; inversion X; subst; try contradiction; assumption.
      + assert (M' : m <> tx "ca_issuers") by (intros ->; now rewrite (proj2 (eqb_text_spec _ _) eq_refl) in M).
        assert (E : ca_loop low ((m, g) :: l) = ca_loop low l) by (destruct g; cbn [ca_loop]; rewrite ?M; reflexivity).
        rewrite E, IH. split; [intro X; now apply listed_method|]. intro X. inversion X; subst; try contradiction; assumption.
  Qed.
End Urls.

(* ---- certificates ---- *)
Section Cert.
  Context {N : Type}.
  Variable name_eq : N -> N -> res bool.
  Variable name_dump : N -> bytes.
  Variable sha256 : bytes -> bytes.
  Variable low : text -> text.
  Notation read := (read name_eq name_dump sha256 low).
  Notation reads := (reads name_eq name_dump sha256 low).
  Notation new := (@new_caches N).
  (* what is kept is what would be read *)
  Record kept (c : cert) (k : caches) : Prop := Kept {
    kept_serial : forall v, c_serial k = Some v -> snd (issuer_serial name_dump sha256 c new) = Ok (Some v);
    kept_authority : forall v, c_authority k = Some v -> snd (authority_issuer_serial name_dump sha256 c new) = Ok v;
    kept_points : forall v, c_points k = Some v -> snd (crl_distribution_points c new) = Ok v;
    kept_fresh : forall v, c_fresh k = Some v -> snd (delta_crl_distribution_points c new) = Ok v;
    kept_issued : forall v, c_issued k = Some v -> snd (self_issued name_eq c new) = Ok v
  }.
  Lemma kept_new c : kept c new.
  Proof. split; discriminate. Qed.
  Lemma kept_serial_step c k : kept c k -> kept c (fst (issuer_serial name_dump sha256 c k)) /\
    snd (issuer_serial name_dump sha256 c k) = snd (issuer_serial name_dump sha256 c new) /\ c_signed (fst (issuer_serial name_dump sha256 c k)) = c_signed k.
  Proof.
    intro K. unfold issuer_serial at 1 2 4. destruct (c_serial k) as [v|] eqn:E; cbn [fst snd].
    - split; [exact K|]. split; [symmetry; now apply (kept_serial _ _ K)|reflexivity].
    - split; [|split; reflexivity]. destruct K. split; cbn; auto. intros v [= <-]. reflexivity.
  Qed.
  Lemma kept_authority_step c k : kept c k -> kept c (fst (authority_issuer_serial name_dump sha256 c k)) /\
    snd (authority_issuer_serial name_dump sha256 c k) = snd (authority_issuer_serial name_dump sha256 c new) /\ c_signed (fst (authority_issuer_serial name_dump sha256 c k)) = c_signed k.
  Proof.
    intro K. destruct (c_authority k) as [v|] eqn:E.
    - unfold authority_issuer_serial at 1 2 4. rewrite E. split; [exact K|]. split; [symmetry; now apply (kept_authority _ _ K)|reflexivity].
    - unfold authority_issuer_serial at 1 2 4. rewrite E. unfold authority_issuer_serial. cbn [c_authority new].
      destruct (do x <- ct_exts c; authority_value name_dump sha256 x) as [v|e] eqn:A; cbn [fst snd]; (split; [|split; reflexivity]); [|exact K].
      destruct K. split; cbn; auto. intros w [= <-]. unfold authority_issuer_serial. cbn [c_authority new]. now rewrite A.
  Qed.
  Lemma kept_points_step c k : kept c k -> kept c (fst (crl_distribution_points c k)) /\
    snd (crl_distribution_points c k) = snd (crl_distribution_points c new) /\ c_signed (fst (crl_distribution_points c k)) = c_signed k.
  Proof.
    intro K. destruct (c_points k) as [v|] eqn:E.
    - unfold crl_distribution_points at 1 2 4. rewrite E. split; [exact K|]. split; [symmetry; now apply (kept_points _ _ K)|reflexivity].
    - unfold crl_distribution_points at 1 2 4. rewrite E. unfold crl_distribution_points. cbn [c_points new].
      destruct (ct_exts c) as [x|e] eqn:A; cbn [fst snd]; (split; [|split; reflexivity]); [|exact K].
      destruct K. split; cbn; auto. intros w [= <-]. unfold crl_distribution_points. cbn [c_points new]. now rewrite A.
  Qed.
  Lemma kept_fresh_step c k : kept c k -> kept c (fst (delta_crl_distribution_points c k)) /\
    snd (delta_crl_distribution_points c k) = snd (delta_crl_distribution_points c new) /\ c_signed (fst (delta_crl_distribution_points c k)) = c_signed k.
  Proof.
    intro K. destruct (c_fresh k) as [v|] eqn:E.
    - unfold delta_crl_distribution_points at 1 2 4. rewrite E. split; [exact K|]. split; [symmetry; now apply (kept_fresh _ _ K)|reflexivity].
    - unfold delta_crl_distribution_points at 1 2 4. rewrite E. unfold delta_crl_distribution_points. cbn [c_fresh new].
      destruct (ct_exts c) as [x|e] eqn:A; cbn [fst snd]; (split; [|split; reflexivity]); [|exact K].
      destruct K. split; cbn; auto. intros w [= <-]. unfold delta_crl_distribution_points. cbn [c_fresh new]. now rewrite A.
  Qed.
  Lemma kept_issued_step c k : kept c k -> kept c (fst (self_issued name_eq c k)) /\
    snd (self_issued name_eq c k) = snd (self_issued name_eq c new) /\ c_signed (fst (self_issued name_eq c k)) = c_signed k.
  Proof.
    intro K. destruct (c_issued k) as [v|] eqn:E.
    - unfold self_issued at 1 2 4. rewrite E. split; [exact K|]. split; [symmetry; now apply (kept_issued _ _ K)|reflexivity].
    - unfold self_issued at 1 2 4. rewrite E. unfold self_issued. cbn [c_issued new].
      destruct (name_eq (ct_subject c) (ct_issuer c)) as [v|e] eqn:A; cbn [fst snd]; (split; [|split; reflexivity]); [|exact K].
      destruct K. split; cbn; auto. intros w [= <-]. unfold self_issued. cbn [c_issued new]. now rewrite A.
  Qed.
  Lemma kept_signed c k v : kept c k -> kept c (keep_signed k v).
  Proof. intros []. split; auto. Qed.
  (* self_signed, when nothing is kept *)
  Definition signed_value (c : @cert N) : res bool :=
    do i <- name_eq (ct_subject c) (ct_issuer c); if i then keys_agree c else Ok false.
  Lemma self_signed_fresh c k : kept c k -> c_signed k = None ->
    kept c (fst (self_signed name_eq c k)) /\ snd (self_signed name_eq c k) = signed_value c /\
    c_signed (fst (self_signed name_eq c k)) = Some (match signed_value c with Ok v => v | Err _ => false end).
  Proof.
    intros K E. unfold self_signed. rewrite E. pose proof (kept_issued_step c (keep_signed k false) (kept_signed c k false K)) as (K' & S & G).
    assert (SI : snd (self_issued name_eq c new) = name_eq (ct_subject c) (ct_issuer c)).
    { unfold self_issued. cbn [c_issued new]. destruct (name_eq (ct_subject c) (ct_issuer c)); reflexivity. }
    rewrite SI in S. unfold signed_value. destruct (self_issued name_eq c (keep_signed k false)) as [k' r]. cbn [fst snd] in *. subst r.
    destruct (name_eq (ct_subject c) (ct_issuer c)) as [[|]|e]; cbn [bind].
    - destruct (keys_agree c) as [v|e]; cbn [fst snd]; split; auto using kept_signed.
    - auto.
    - auto.
  Qed.
  Definition signed_kept (c : @cert N) (k : @caches N) : Prop :=
    forall v, c_signed k = Some v -> v = match signed_value c with Ok v => v | Err _ => false end.
  Lemma self_signed_step c k : kept c k -> signed_kept c k ->
    kept c (fst (self_signed name_eq c k)) /\ signed_kept c (fst (self_signed name_eq c k)).
  Proof.
    intros K S. destruct (c_signed k) as [v|] eqn:E.
    - unfold self_signed. rewrite E. auto.
    - destruct (self_signed_fresh c k K E) as (K' & _ & G). split; [exact K'|]. intros v V. congruence.
  Qed.
  Lemma read_step c k a : kept c k -> signed_kept c k -> kept c (fst (read c k a)) /\ signed_kept c (fst (read c k a)).
  Proof.
    intros K S. destruct a; cbn [CertModel.read]; unfold into.
    - auto.
    - auto.
    - destruct (kept_serial_step c k K) as (A & _ & C). destruct (issuer_serial name_dump sha256 c k). split; [exact A|]. intros w W. apply S. cbn in *. congruence.
    - destruct (kept_authority_step c k K) as (A & _ & C). destruct (authority_issuer_serial name_dump sha256 c k). split; [exact A|]. intros w W. apply S. cbn in *. congruence.
    - destruct (kept_points_step c k K) as (A & _ & C). destruct (crl_distribution_points c k). split; [exact A|]. intros w W. apply S. cbn in *. congruence.
    - destruct (kept_fresh_step c k K) as (A & _ & C). destruct (delta_crl_distribution_points c k). split; [exact A|]. intros w W. apply S. cbn in *. congruence.
    - auto.
    - auto.
    - auto.
    - destruct (kept_issued_step c k K) as (A & _ & C). destruct (self_issued name_eq c k). split; [exact A|]. intros w W. apply S. cbn in *. congruence.
    - destruct (self_signed_step c k K S) as (A & B). destruct (self_signed name_eq c k). auto.
  Qed.
  Lemma reads_kept c l : kept c (reads c l) /\ signed_kept c (reads c l).
  Proof.
    unfold CertModel.reads. assert (G : kept c new /\ signed_kept c new) by (split; [apply kept_new|discriminate]). revert G. generalize new.
    induction l as [|a l IH]; intros k [K S]; [auto|]. cbn [fold_left]. apply IH. now apply read_step.
  Qed.
  (* whether self_signed was read *)
  Lemma read_signed c k a : a <> SelfSigned -> kept c k -> c_signed (fst (read c k a)) = c_signed k.
  Proof.
    intros A K. destruct a; cbn [CertModel.read]; unfold into; try reflexivity; try contradiction.
    - destruct (kept_serial_step c k K) as (_ & _ & C). destruct (issuer_serial name_dump sha256 c k). exact C.
    - destruct (kept_authority_step c k K) as (_ & _ & C). destruct (authority_issuer_serial name_dump sha256 c k). exact C.
    - destruct (kept_points_step c k K) as (_ & _ & C). destruct (crl_distribution_points c k). exact C.
    - destruct (kept_fresh_step c k K) as (_ & _ & C). destruct (delta_crl_distribution_points c k). exact C.
    - destruct (kept_issued_step c k K) as (_ & _ & C). destruct (self_issued name_eq c k). exact C.
  Qed.
  Lemma reads_unsigned c l : ~ In SelfSigned l -> c_signed (reads c l) = None.
  Proof.
    unfold CertModel.reads. assert (G : kept c new /\ c_signed (N := N) new = None) by (split; [apply kept_new|reflexivity]). revert G. generalize new.
    induction l as [|a l IH]; intros k [K S] A; [exact S|]. cbn [fold_left]. apply IH; [|intro; apply A; now right]. split.
    - destruct (c_signed k) eqn:E; [discriminate|]. apply (read_step c k a K). intros v V. congruence.
    - rewrite read_signed; [exact S| |exact K]. intros ->. apply A. now left.
  Qed.
  Lemma other_reads c l a : a <> SelfSigned -> snd (read c (reads c l) a) = snd (read c new a).
  Proof.
    intro A. destruct (reads_kept c l) as [K _]. revert K. generalize (reads c l). intros k K. destruct a; cbn [CertModel.read]; unfold into; try reflexivity; try contradiction.
    - destruct (kept_serial_step c k K) as (_ & B & _). destruct (issuer_serial name_dump sha256 c k), (issuer_serial name_dump sha256 c new). cbn in *. now subst.
    - destruct (kept_authority_step c k K) as (_ & B & _). destruct (authority_issuer_serial name_dump sha256 c k), (authority_issuer_serial name_dump sha256 c new). cbn in *. now subst.
    - destruct (kept_points_step c k K) as (_ & B & _). destruct (crl_distribution_points c k), (crl_distribution_points c new). cbn in *. now subst.
    - destruct (kept_fresh_step c k K) as (_ & B & _). destruct (delta_crl_distribution_points c k), (delta_crl_distribution_points c new). cbn in *. now subst.
    - destruct (kept_issued_step c k K) as (_ & B & _). destruct (self_issued name_eq c k), (self_issued name_eq c new). cbn in *. now subst.
  Qed.
  Lemma signed_reads c l : let f := fun b : bool => AText (N := N) (if b then tx "maybe" else tx "no") in
    snd (read c (reads c l) SelfSigned) =
    match c_signed (reads c l) with Some _ => Ok (f (match signed_value c with Ok v => v | Err _ => false end)) | None => do v <- signed_value c; Ok (f v) end.
  Proof.
    intro f. destruct (reads_kept c l) as [K S]. revert K S. generalize (reads c l). intros k K S. cbn [CertModel.read].
    destruct (c_signed k) as [v|] eqn:E.
    - unfold self_signed. rewrite E. cbn. rewrite (S v E). reflexivity.
    - destruct (self_signed_fresh c k K E) as (_ & B & _). destruct (self_signed name_eq c k). cbn in *. now subst.
  Qed.
  Lemma filled_iff b : filled b = true <-> exists x r, b = Some (x :: r).
  Proof. destruct b as [[|x r]|]; cbn; split; try discriminate; eauto; intros (y & s & [=]). Qed.
End Cert.
(* the two halves of a serial can be told apart *)
Lemma hash_split (a b : bytes) c d : len a = len b -> a ++ 58 :: c = b ++ 58 :: d -> a = b /\ c = d.
Proof.
  unfold len. intros E H. apply app_inv_len in H; [|lia]. destruct H as [-> [= ->]]. auto.
Qed.
