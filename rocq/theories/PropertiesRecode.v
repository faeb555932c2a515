(* C96: dump(force=True) of what was read turns BER into DER for the structures of the library. *)
Require Import Verif.Base Verif.BaseFacts Verif.Text Verif.ParserModel Verif.ParserSpec Verif.ParserProofs Verif.TagSpec Verif.CodecModel Verif.BitModel Verif.PrimModel Verif.PrimSpec
  Verif.ContModel Verif.ContSpec Verif.ContBase Verif.PrimLoad Verif.PrimDump Verif.ChunkSpec Verif.ChunkProofs Verif.BerSpec Verif.OidSpec Verif.GenModel Verif.GenSpec Verif.ReadModel Verif.ReadSpec Verif.ReadProofs Verif.LibModel Verif.LibRead Verif.LibReadProofs
  Verif.RecodeModel Verif.RecodeSpec Verif.RecodeProofs Verif.LibRecode Verif.PropertiesRead.
Require Import Verif.LibProofs.
Require Verif.Tables Verif.ShapeModel.
Require Coq.Strings.String.
Require Import Coq.Bool.Bool.
Import Coq.Strings.String.StringSyntax.
Ltac calc := vm_compute; reflexivity.

(* the only class without fields whose encoding is kept as it is has no fields *)
Lemma bare (texts : string -> bytes -> res (option text)) (pad : bool) (r : ref) (k : rclass) (fs : list rfield) (sel : option selector) :
  lib_env texts pad r = Some k -> r_def k = DSeq fs sel -> lib_untouched r = true -> fs = [].
Proof.
  intros E D U. destruct r as [n|n j]; cbn [lib_untouched] in U; [|discriminate]. apply String.eqb_eq in U. subst n.
  unfold lib_env in E. destruct (lookup pad (CName "core.Sequence")) as [e|] eqn:L; [|discriminate]. cbn [option_map] in E. injection E as <-. cbn [r_def] in D.
  assert (S : match lookup pad (CName "core.Sequence") with Some (_, DSeq fs _, _) => fs = [] | _ => False end) by (destruct pad; calc).
  rewrite L in S. destruct e as [[c d] o]. cbn [fst snd] in D. subst d. exact S.
Qed.

(* load with any class of the table, then dump(force=True): if the octets are an encoding in BER of a value under the class,
   those written are the encoding in DER of the value *)
Theorem C96_forced (texts : string -> bytes -> res (option text)) (retext : string -> bytes -> res bytes) (pad : bool)
  (n m : nat) (r : ref) (a : aval) (i : info) (d : bytes) (strict : bool) (rest : bytes) :
  (n <= m)%nat -> ber_info max_budget i ->
  recoded (lib_env texts pad) pad (lib_redo retext) lib_default lib_untouched n r no_params None a i d -> (strict = true -> rest = []) ->
  lib_recode texts retext pad m r (encoding_of i ++ rest) strict = Ok d.
Proof.
  exact (recode_ok (lib_env texts pad) pad (lib_redo retext) lib_default lib_untouched (lib_env_ok texts pad) (bare texts pad) n m r a i d strict rest).
Qed.
Print Assumptions C96_forced.

(* the value is the one that is read *)
Theorem C96_same_value (texts : string -> bytes -> res (option text)) (retext : string -> bytes -> res bytes) (pad : bool)
  (n m : nat) (r : ref) (a : aval) (i : info) (d : bytes) :
  (n <= m)%nat -> ber_info max_budget i ->
  recoded (lib_env texts pad) pad (lib_redo retext) lib_default lib_untouched n r no_params None a i d ->
  exists a', read_from (lib_env texts pad) pad m r (encoding_of i) true = Ok a' /\ alike a a'.
Proof.
  intros L B H. pose proof (recoded_stands (lib_env texts pad) pad (lib_redo retext) lib_default lib_untouched n r no_params None a i d B H) as S.
  destruct (C95_reads texts pad n m r i a true [] L B S (fun _ => eq_refl)) as (a' & E & A). rewrite app_nil_r in E. eauto.
Qed.
Print Assumptions C96_same_value.

(* and there is one encoding in DER for an encoding in BER *)
Theorem C96_one_encoding (texts : string -> bytes -> res (option text)) (retext : string -> bytes -> res bytes) (pad : bool)
  (n m : nat) (r : ref) (a b : aval) (i : info) (d e : bytes) : ber_info max_budget i ->
  recoded (lib_env texts pad) pad (lib_redo retext) lib_default lib_untouched n r no_params None a i d ->
  recoded (lib_env texts pad) pad (lib_redo retext) lib_default lib_untouched m r no_params None b i e -> d = e.
Proof.
  intros B H K. pose proof (C96_forced texts retext pad n (Nat.max n m) r a i d false [] (Nat.le_max_l n m) B H ltac:(discriminate)) as E.
  pose proof (C96_forced texts retext pad m (Nat.max n m) r b i e false [] (Nat.le_max_r n m) B K ltac:(discriminate)) as F. congruence.
Qed.
Print Assumptions C96_one_encoding.

(* an extension in BER: indefinite lengths, the default of critical written, the octets of the value in two pieces, TRUE
   written as 5 *)
Definition ber_ext : bytes := [48; 128; 6; 3; 85; 29; 19; 1; 1; 0; 36; 128; 4; 2; 48; 3; 4; 3; 1; 1; 5; 0; 0; 0; 0].
Definition der_ext : bytes := [48; 12; 6; 3; 85; 29; 19; 4; 5; 48; 3; 1; 1; 255].
Definition ber_ext_value : aval :=
  ADict [(tx "extn_id", APrim (NText (tx "basic_constraints"))); (tx "critical", APrim (NBool false));
         (tx "extn_value", ADict [(tx "ca", APrim (NBool true)); (tx "path_len_constraint", ANone)])].
Section Example.
  Variable texts : string -> bytes -> res (option text).
  Variable retext : string -> bytes -> res bytes.
  Notation rc := (recoded (lib_env texts true) true (lib_redo retext) lib_default lib_untouched).

  Lemma plain_fine t : 0 <= t -> tagging_ok (tags_of (Cls 0 t [] []) no_params).
  Proof. intros H. unfold tagging_ok. cbn. repeat split; try lia. constructor. Qed.
  Lemma rc_seq m n t fs sel i a z d : lookup true (CName n) = Some (Cls 0 t [] [], DSeq fs sel, OSame) -> 0 <= t ->
    i_class i = 0 -> i_method i = 1 -> i_tag i = t -> lib_untouched (CName n) = false ->
    fields_recoded lib_default (rc m) fs sel a (i_contents i) z -> d = cbytes (tags_of (Cls 0 t [] []) no_params) z -> len d < 2 ^ 1008 -> rc (S m) (CName n) no_params None a i d.
  Proof.
    intros L T H1 H2 H3 U H -> Hl. cbn [recoded]. unfold lib_env at 1. rewrite L. cbn [option_map fst snd r_def r_cls r_out apply_out].
    exists a. split; [reflexivity|]. exists z. split; [|split; [apply bytes_der_constructed; [now apply plain_fine|exact Hl]|now rewrite U]]. cbn. repeat split; auto.
  Qed.
  Lemma rc_prim m n t k i v x d : lookup true (CName n) = Some (Cls 0 t [] [], DPrim k, OSame) -> lib_redo retext (CName n) = None -> 0 <= t -> k <> KNull -> v <> NNone ->
    i_class i = 0 -> i_method i = 0 -> i_tag i = t -> holds k None v -> ber_value k v (i_contents i) -> der_contents k v x ->
    d = object_bytes (tags_of (Cls 0 t [] []) no_params) x -> len d < 2 ^ 1008 -> rc (S m) (CName n) no_params None (APrim v) i d.
  Proof.
    intros L R T Nk Nv H1 H2 H3 Hv H D -> Hl. cbn [recoded]. unfold lib_env at 1. rewrite L. cbn [option_map fst snd r_def r_cls r_out apply_out].
    exists (APrim v). split; [reflexivity|]. exists v, x. rewrite R. split; [|split; [now destruct v|split; [apply object_bytes_der; [now apply plain_fine|exact Hl]|exact D]]].
    assert (B : ber_prim k (Cls 0 t [] []) (tags_of (Cls 0 t [] []) no_params) v i) by (exact (conj H1 (conj H3 (or_introl (conj H2 H))))).
    destruct k; try contradiction; cbn [ber_of]; repeat split; auto.
  Qed.
  Lemma rc_inside m n r j i a w x d : lookup true (CName n) = Some (Cls 0 4 [] [], DParse false, OSame) ->
    i_class i = 0 -> i_method i = 1 -> i_tag i = 4 -> i_trailer i = [0; 0] -> ber_info max_budget j -> rc m r no_params None a j w ->
    segments 0 (own_tag (Cls 0 4 [] [])) true 1 (i_contents i) x -> concat x = encoding_of j ->
    d = object_bytes (tags_of (Cls 0 4 [] []) no_params) w -> len d < 2 ^ 1008 -> rc (S m) (CName n) no_params (Some r) a i d.
  Proof.
    intros L H1 H2 H3 H4 B H Hs E -> Hl. cbn [recoded]. unfold lib_env at 1. rewrite L. cbn [option_map fst snd r_def r_cls r_out apply_out].
    exists a. split; [reflexivity|]. exists j, w. split; auto. split; auto. split; [|apply object_bytes_der; [now apply plain_fine|exact Hl]].
    cbn [t_explicit tags_of no_params rev within p_explicit app]. cbn. split; auto. split; auto. right. split; auto. split; auto. exists 1%nat, x. rewrite map_id. repeat split; auto; try lia.
  Qed.
  Lemma rc_bool m b c i d : i_class i = 0 -> i_method i = 0 -> i_tag i = 1 -> i_contents i = [c] -> byte_ok c -> (b = true <-> c <> 0) ->
    d = [1; 1; if b then 255 else 0] -> rc (S m) (CName "core.Boolean") no_params None (APrim (NBool b)) i d.
  Proof.
    intros H1 H2 H3 H C E ->. eapply (rc_prim m "core.Boolean" 1 KBool i (NBool b) [if b then 255 else 0]); try calc; auto; try discriminate; try lia; try exact Logic.I.
    - rewrite H. split; [constructor; [exact C|constructor]|]. right. destruct b; cbn; exists c; split; auto; tauto.
  Qed.
  Lemma rc_constraints m i d : i_class i = 0 -> i_method i = 1 -> i_tag i = 16 -> i_contents i = [1; 1; 5] -> d = [48; 3; 1; 1; 255] ->
    rc (S (S m)) (CName "x509.BasicConstraints") no_params None (ADict [(tx "ca", APrim (NBool true)); (tx "path_len_constraint", ANone)]) i d.
  Proof.
    intros H1 H2 H3 H ->. apply (rc_seq (S m) "x509.BasicConstraints" 16 (fields_at "x509.BasicConstraints") None i _ [1; 1; 255] _ ltac:(calc) ltac:(lia) H1 H2 H3 eq_refl); [|calc|reflexivity].
    rewrite H. exists [(tx "ca", APrim (NBool true)); (tx "path_len_constraint", ANone)], (map (fun g => (g, Keep)) (fields_at "x509.BasicConstraints")), [([1; 1; 5], [1; 1; 255]); ([], [])].
    split; [reflexivity|]. split; [reflexivity|]. split; [reflexivity|]. split; [reflexivity|].
    change (fields_at "x509.BasicConstraints") with
      [RField (tx "ca") (Some (CName "core.Boolean")) no_params (GDef (APrim (NBool false)));
       RField (tx "path_len_constraint") (Some (CName "core.Integer")) no_params GOpt].
    cbn [map all3]. split; [|split; [|exact Logic.I]].
    - split; [reflexivity|]. right. destruct (cut [1; 1; 5] (mkInfo 0 0 1 [1; 1] [5] []) ltac:(octets) ltac:(calc)) as [B E].
      exists (mkInfo 0 0 1 [1; 1] [5] []), [1; 1; 255]. split; [exact B|]. split; [reflexivity|]. split.
      + apply (rc_bool m true 5); try reflexivity; [unfold byte_ok; lia|]. split; [lia|reflexivity].
      + right. split; [|reflexivity]. vm_compute. discriminate.
    - split; [reflexivity|]. left. split; reflexivity.
  Qed.
  Lemma rc_basic m i d : i_class i = 0 -> i_method i = 0 -> i_tag i = 6 -> i_contents i = [85; 29; 19] -> d = [6; 3; 85; 29; 19] ->
    rc (S m) (CName "x509.ExtensionId") no_params None (APrim (NText (tx "basic_constraints"))) i d.
  Proof.
    intros H1 H2 H3 H ->.
    assert (L : lookup true (CName "x509.ExtensionId") = Some (Cls 0 6 [] [], DPrim (KOid ext_ids), OSame)) by calc.
    assert (A : legal_oid [2; 5; 29; 19]) by (cbn; repeat split; try lia; repeat constructor; lia).
    assert (Im : In (dotted_text [2; 5; 29; 19], tx "basic_constraints") ext_ids) by (apply nth_error_In with (n := 6%nat); calc).
    apply (rc_prim m "x509.ExtensionId" 6 (KOid ext_ids) i (NText (tx "basic_constraints")) [85; 29; 19] _ L); auto; try discriminate; try lia; try calc.
    - left. exists [2; 5; 29; 19]. auto.
    - rewrite H. split; [octets|]. left. exists [2; 5; 29; 19]. split; [exact A|]. split; [exact basic_octets|]. left. exact Im.
    - exists [2; 5; 29; 19]. split; [exact A|]. split; [exact basic_octets|]. left.
      exists (firstn 6 ext_ids), (skipn 7 ext_ids). split; [calc|].
      intros J. assert (F : existsb (eqb_text (tx "basic_constraints")) (map snd (skipn 7 ext_ids)) = false) by calc.
      rewrite <- not_true_iff_false in F. apply F. apply existsb_exists. exists (tx "basic_constraints"). split; [exact J|calc].
  Qed.
  Lemma pieces : segments 0 (own_tag (Cls 0 4 [] [])) true 1 [4; 2; 48; 3; 4; 3; 1; 1; 5] [[48; 3]; [1; 1; 5]].
  Proof.
    apply (seg_prim 0 _ true 1 4 [4] [2] [48; 3] [4; 3; 1; 1; 5] [[1; 1; 5]]).
    5: apply (seg_prim 0 _ true 1 4 [4] [3] [1; 1; 5] [] []).
    all: try discriminate; try reflexivity; try constructor; try (cbn; lia); try reflexivity.
  Qed.
  Lemma rc_ext i d : i_class i = 0 -> i_method i = 1 -> i_tag i = 16 -> i_contents i = firstn 21 (skipn 2 ber_ext) -> d = der_ext ->
    rc 4 (CName "x509.Extension") no_params None ber_ext_value i d.
  Proof.
    intros H1 H2 H3 H ->. apply (rc_seq 3 "x509.Extension" 16 (fields_at "x509.Extension") (sel_at "x509.Extension") i _ (skipn 2 der_ext) _ ltac:(calc) ltac:(lia) H1 H2 H3 eq_refl);
      [|calc|reflexivity]. rewrite H.
    exists (match ber_ext_value with ADict l => l | _ => [] end), (typed 2 (Inside (CName "x509.BasicConstraints")) (fields_at "x509.Extension")),
      [([6; 3; 85; 29; 19], [6; 3; 85; 29; 19]); ([1; 1; 0], []); ([36; 128; 4; 2; 48; 3; 4; 3; 1; 1; 5; 0; 0], [4; 5; 48; 3; 1; 1; 255])].
    split; [reflexivity|]. split; [reflexivity|]. split; [reflexivity|]. split.
    - change (sel_at "x509.Extension") with (Some (match sel_at "x509.Extension" with Some s => s | None => Sel 0 [] [] None end)).
      exists (APrim (NText (tx "basic_constraints"))), (Inside (CName "x509.BasicConstraints")).
      split; [exists (APrim (NText (tx "basic_constraints"))); split; [calc|reflexivity]|]. split; [|reflexivity].
      left. apply nth_error_In with (n := 6%nat). calc.
    - change (fields_at "x509.Extension") with
        [RField (tx "extn_id") (Some (CName "x509.ExtensionId")) no_params GReq;
         RField (tx "critical") (Some (CName "core.Boolean")) no_params (GDef (APrim (NBool false)));
         RField (tx "extn_value") (Some (CName "core.ParsableOctetString")) no_params GReq].
      cbn [typed map all3 ber_ext_value]. split; [|split; [|split; [|exact Logic.I]]].
      + split; [reflexivity|]. right. destruct (cut [6; 3; 85; 29; 19] (mkInfo 0 0 6 [6; 3] [85; 29; 19] []) ltac:(octets) ltac:(calc)) as [B E].
        exists (mkInfo 0 0 6 [6; 3] [85; 29; 19] []), [6; 3; 85; 29; 19]. split; [exact B|]. split; [reflexivity|]. split; [now apply rc_basic|].
        right. split; [|reflexivity]. vm_compute. discriminate.
      + split; [reflexivity|]. right. destruct (cut [1; 1; 0] (mkInfo 0 0 1 [1; 1] [0] []) ltac:(octets) ltac:(calc)) as [B E].
        exists (mkInfo 0 0 1 [1; 1] [0] []), [1; 1; 0]. split; [exact B|]. split; [reflexivity|]. split.
        * apply (rc_bool 2 false 0); try reflexivity; [unfold byte_ok; lia|]. split; [discriminate|congruence].
        * left. split; [calc|reflexivity].
      + split; [reflexivity|]. right.
        destruct (cut [36; 128; 4; 2; 48; 3; 4; 3; 1; 1; 5; 0; 0] (mkInfo 0 1 4 [36; 128] [4; 2; 48; 3; 4; 3; 1; 1; 5] [0; 0]) ltac:(octets) ltac:(calc)) as [B E].
        exists (mkInfo 0 1 4 [36; 128] [4; 2; 48; 3; 4; 3; 1; 1; 5] [0; 0]), [4; 5; 48; 3; 1; 1; 255]. split; [exact B|]. split; [reflexivity|]. split.
        * destruct (cut [48; 3; 1; 1; 5] (mkInfo 0 1 16 [48; 3] [1; 1; 5] []) ltac:(octets) ltac:(calc)) as [B' E'].
          apply (rc_inside 2 "core.ParsableOctetString" (CName "x509.BasicConstraints") (mkInfo 0 1 16 [48; 3] [1; 1; 5] [])
            (mkInfo 0 1 4 [36; 128] [4; 2; 48; 3; 4; 3; 1; 1; 5] [0; 0]) _ [48; 3; 1; 1; 255] [[48; 3]; [1; 1; 5]] _ ltac:(calc) eq_refl eq_refl eq_refl eq_refl B'); try reflexivity.
          -- now apply rc_constraints.
          -- exact pieces.
        * right. split; [|reflexivity]. vm_compute. discriminate.
  Qed.
End Example.
Example C96_forced_ex (texts : string -> bytes -> res (option text)) (retext : string -> bytes -> res bytes) :
  exists i, ber_info max_budget i /\ encoding_of i = ber_ext /\
    recoded (lib_env texts true) true (lib_redo retext) lib_default lib_untouched 4 (CName "x509.Extension") no_params None ber_ext_value i der_ext /\
    lib_recode texts retext true 4 (CName "x509.Extension") ber_ext true = Ok der_ext.
Proof.
  destruct (cut ber_ext (mkInfo 0 1 16 [48; 128] (firstn 21 (skipn 2 ber_ext)) [0; 0]) ltac:(octets) ltac:(vm_compute; reflexivity)) as [B E].
  eexists. split; [exact B|]. split; [now rewrite <- E|]. split; [now apply rc_ext|calc].
Qed.

(* ---- identifiers: the two classes with several identifiers for a name list which one is written, for every name ---- *)
Local Open Scope string_scope.
Theorem C96_identifiers (pad : bool) (k : string) (names : list (string * string)) (d s : string) :
  In (k, names) Tables.reverse_maps -> In (d, s) (named_map Tables.oid_maps [k]) ->
  exists c m e, lookup pad (CName k) = Some (c, DPrim (KOid m), OSame) /\ In (s, e) names /\ preferred m (tx e) (tx s).
Proof.
  intros I J.
  pose (last_is := fun (m : list (text * text)) (e s : text) => match find (fun p => eqb_text (snd p) s) (List.rev m) with Some p => eqb_text (fst p) e && eqb_text (snd p) s | None => false end).
  assert (H : forallb (fun k => match lookup pad (CName (fst k)) with
      | Some (_, DPrim (KOid m), OSame) => forallb (fun p => match find (fun q => String.eqb (fst q) (snd p)) (snd k) with
          | Some q => last_is m (tx (snd q)) (tx (snd p)) | None => false end) (named_map Tables.oid_maps [fst k])
      | _ => false end) Tables.reverse_maps = true) by (unfold last_is; clear; destruct pad; calc).
  rewrite forallb_forall in H. specialize (H _ I). cbn [fst snd] in H.
  destruct (lookup pad (CName k)) as [[[c [kd| | | | |]] o]|]; try discriminate H. destruct kd as [|?|?|?| | | | | |m|?| |?| ]; try discriminate H. destruct o; try discriminate H.
  rewrite forallb_forall in H. specialize (H _ J). cbn [fst snd] in H. destruct (find _ names) as [q|] eqn:F; [|discriminate]. apply find_some in F as [F G]. apply String.eqb_eq in G.
  exists c, m, (snd q). split; [reflexivity|]. split; [rewrite <- G; now destruct q|].
  unfold last_is in H. destruct (find _ (List.rev m)) as [p|] eqn:E; [|discriminate].
  apply andb_true_iff in H as [H1 H2]. apply eqb_text_iff in H1, H2.
  clear - E H1 H2. revert E. assert (L : forall l, find (fun p => eqb_text (snd p) (tx s)) l = Some p -> exists a b, (l = a ++ p :: b)%list /\ ~ In (tx s) (map snd a)).
  { induction l as [|x l IH]; cbn [find]; [discriminate|]. destruct (eqb_text (snd x) (tx s)) eqn:T.
    - intros K. injection K as ->. exists [], l. split; [reflexivity|]. intros [].
    - intros K. destruct (IH K) as (a & b & -> & N). exists (x :: a)%list, b. split; [reflexivity|]. cbn [map]. intros [K'|K']; [|contradiction].
      now rewrite (proj2 (eqb_text_iff _ _) K') in T. }
  intros E. destruct (L _ E) as (a & b & R & N). exists (List.rev b), (List.rev a). split.
  - rewrite <- (rev_involutive m), R, rev_app_distr. cbn [List.rev]. rewrite <- app_assoc. cbn [app]. rewrite <- H1, <- H2. now destruct p.
  - rewrite map_rev, <- in_rev. exact N.
Qed.
Print Assumptions C96_identifiers.
Example C96_identifiers_ex : In ("algos.SignedDigestAlgorithmId", Tables.rev_algos_SignedDigestAlgorithmId) Tables.reverse_maps /\
  In ("1.3.14.3.2.29", "sha1_rsa") (named_map Tables.oid_maps ["algos.SignedDigestAlgorithmId"]) /\ In ("sha1_rsa", "1.2.840.113549.1.1.5") Tables.rev_algos_SignedDigestAlgorithmId.
Proof.
  split; [left; reflexivity|]. split.
  - assert (H : existsb (fun p => String.eqb (fst p) "1.3.14.3.2.29" && String.eqb (snd p) "sha1_rsa") (named_map Tables.oid_maps ["algos.SignedDigestAlgorithmId"]) = true) by calc.
    apply existsb_exists in H as ([a b] & I & E). apply andb_true_iff in E as [E F]. apply String.eqb_eq in E, F. cbn [fst snd] in E, F. now subst.
  - apply nth_error_In with (n := 8%nat). calc.
Qed.

(* ---- defaults: the values that are left out are those the standards give as the defaults ---- *)
Definition sha1_id : bytes := [48; 9; 6; 5; 43; 14; 3; 2; 26; 5; 0].
Definition mgf1_sha1 : bytes := ([48; 22; 6; 9; 42; 134; 72; 134; 247; 13; 1; 1; 8] ++ sha1_id)%list.
Definition false_ : bytes := [1; 1; 0].
Definition standard_defaults : list (string * string * bytes) :=
  [(* RFC 8017 A.2.1, A.2.3; sha1Identifier has NULL as parameters *)
   ("algos.RSASSAPSSParams", "hash_algorithm", (160 :: 11 :: sha1_id)%list); ("algos.RSASSAPSSParams", "mask_gen_algorithm", (161 :: 24 :: mgf1_sha1)%list);
   ("algos.RSASSAPSSParams", "salt_length", [162; 3; 2; 1; 20]); ("algos.RSASSAPSSParams", "trailer_field", [163; 3; 2; 1; 1]);
   ("algos.RSAESOAEPParams", "hash_algorithm", (160 :: 11 :: sha1_id)%list); ("algos.RSAESOAEPParams", "mask_gen_algorithm", (161 :: 24 :: mgf1_sha1)%list);
   ("algos.RSAESOAEPParams", "p_source_algorithm", [162; 15; 48; 13; 6; 9; 42; 134; 72; 134; 247; 13; 1; 1; 9; 4; 0]);
   (* RFC 8018 A.2: algid-hmacWithSHA1 is { id-hmacWithSHA1, NULL } *)
   ("algos.Pbkdf2Params", "prf", [48; 12; 6; 8; 42; 134; 72; 134; 247; 13; 2; 7; 5; 0]);
   (* RFC 5755 4.1, 4.4.6 *)
   ("cms.AttributeCertificateInfoV1", "version", [2; 1; 0]); ("cms.Clearance", "class_list", [3; 2; 6; 64]);
   (* RFC 5280 *)
   ("x509.Extension", "critical", false_); ("crl.TBSCertListExtension", "critical", false_); ("crl.CRLEntryExtension", "critical", false_);
   ("x509.TbsCertificate", "version", [160; 3; 2; 1; 0]); ("x509.BasicConstraints", "ca", false_); ("x509.GeneralSubtree", "minimum", [128; 1; 0]);
   ("crl.IssuingDistributionPoint", "only_contains_user_certs", [129; 1; 0]); ("crl.IssuingDistributionPoint", "only_contains_ca_certs", [130; 1; 0]);
   ("crl.IssuingDistributionPoint", "indirect_crl", [132; 1; 0]); ("crl.IssuingDistributionPoint", "only_contains_attribute_certs", [133; 1; 0]);
   (* RFC 6960 *)
   ("ocsp.TBSRequest", "version", [160; 3; 2; 1; 0]); ("ocsp.ResponseData", "version", [160; 3; 2; 1; 0]);
   ("ocsp.RequestExtension", "critical", false_); ("ocsp.TBSRequestExtension", "critical", false_);
   ("ocsp.SingleResponseExtension", "critical", false_); ("ocsp.ResponseDataExtension", "critical", false_);
   (* RFC 7292, RFC 3161, RFC 5035 (the default is { id-sha256 } without parameters) *)
   ("pkcs12.MacData", "iterations", [2; 1; 1]); ("tsp.TSTInfo", "ordering", false_); ("tsp.TimeStampReq", "cert_req", false_); ("tsp.Extension", "critical", false_);
   ("tsp.ESSCertIDv2", "hash_algorithm", [48; 11; 6; 9; 96; 134; 72; 1; 101; 3; 4; 2; 1]);
   (* TCG credential profile; PDF signatures *)
   ("x509.TPMSecurityAssertions", "version", [2; 1; 0]); ("x509.TPMSecurityAssertions", "field_upgradable", false_);
   ("x509.TPMSecurityAssertions", "iso_9000_certified", [133; 1; 0]); ("x509.CommonCriteriaMeasures", "plus", false_); ("x509.FIPSLevel", "plus", false_);
   ("pdf.AdobeTimestamp", "requires_auth", false_)].
Definition other_default : list (string * string) := [("algos.Pbkdf2Params", "prf"); ("tsp.ESSCertIDv2", "hash_algorithm")].
Definition standard_default (n : string) (f : text) : option bytes :=
  option_map snd (find (fun p => String.eqb (fst (fst p)) n && eqb_text (tx (snd (fst p))) f) standard_defaults).
Definition other (n : string) (f : text) : bool := existsb (fun p => String.eqb (fst p) n && eqb_text (tx (snd p)) f) other_default.
Theorem C96_defaults_partial (pad : bool) (n : string) (c : pcls) (fs : list rfield) (sel : option selector) (o : out) (f : rfield) (a : aval) :
  lookup pad (CName n) = Some (c, DSeq fs sel, o) -> In f fs -> g_pres f = GDef a -> other n (g_name f) = false ->
  exists w, standard_default n (g_name f) = Some w /\ lib_default f = Some w.
Proof.
  intros L I G O.
  assert (H : forallb (forallb (fun e => match e with
      | (CName n, (_, DSeq fs _, _)) => forallb (fun f => match g_pres f with
          | GDef _ => other n (g_name f) || match standard_default n (g_name f), lib_default f with Some w, Some v => eqb_bytes w v | _, _ => false end
          | _ => true end) fs
      | _ => true end)) (table pad) = true) by (clear; destruct pad; calc).
  unfold lookup in L. destruct (find _ _) as [e|] eqn:F; [|discriminate]. cbn [option_map] in L. injection L as L. apply find_some in F as [F E].
  rewrite forallb_forall in H. destruct (nth_in_or_default (String.length (ref_name (CName n))) (table pad) []) as [J|J]; [|rewrite J in F; contradiction].
  specialize (H _ J). rewrite forallb_forall in H. specialize (H _ F). destruct e as [r x]. cbn [fst snd] in *. subst x. destruct r as [n'|]; [|discriminate].
  cbn [ref_eqb] in E. apply String.eqb_eq in E. subst n'. rewrite forallb_forall in H. specialize (H _ I). cbv beta in H. rewrite G, O in H. cbn [orb] in H.
  destruct (standard_default n (g_name f)) as [w|]; [|discriminate]. destruct (lib_default f) as [v|]; [|discriminate].
  apply eqb_bytes_spec in H. subst v. eauto.
Qed.
Print Assumptions C96_defaults_partial.
Example C96_defaults_ex : exists f, In f (fields_at "algos.RSASSAPSSParams") /\ g_pres f <> GReq /\ other "algos.RSASSAPSSParams" (g_name f) = false /\
  lib_default f = Some (161 :: 24 :: mgf1_sha1)%list.
Proof. eexists. split; [apply nth_error_In with (n := 1%nat); calc|]. split; [discriminate|]. split; calc. Qed.

(* ---- refuted ---- *)
(* PBKDF2 with hmacWithSHA1, NULL, which is the default, written: it stays, though DER leaves it out; with hmacWithSHA1 without parameters, which is
   not the default, it is left out *)
Definition pbkdf2_null : bytes := [48; 20; 4; 1; 7; 2; 1; 1; 48; 12; 6; 8; 42; 134; 72; 134; 247; 13; 2; 7; 5; 0].
Definition pbkdf2_none : bytes := [48; 18; 4; 1; 7; 2; 1; 1; 48; 10; 6; 8; 42; 134; 72; 134; 247; 13; 2; 7].
Theorem C96_pbkdf2_default_refuted : exists d e f, forall texts retext pad,
  lib_recode texts retext pad 10 (CName "algos.Pbkdf2Params") d true = Ok d /\ lib_recode texts retext pad 10 (CName "algos.Pbkdf2Params") e true = Ok f /\ (len f < len e)%Z.
Proof. exists pbkdf2_null, pbkdf2_none, [48; 6; 4; 1; 7; 2; 1; 1]. intros texts retext pad. destruct pad; (split; [calc|split; [calc|reflexivity]]). Qed.
Print Assumptions C96_pbkdf2_default_refuted.
(* an identifier of the hash of a signing certificate { sha256, NULL }: left out as if it were the default *)
Theorem C96_signing_hash_default_refuted : exists d e, forall texts retext pad,
  lib_recode texts retext pad 10 (CName "tsp.ESSCertIDv2") d true = Ok e /\ (len e < len d)%Z.
Proof.
  exists [48; 18; 48; 13; 6; 9; 96; 134; 72; 1; 101; 3; 4; 2; 1; 5; 0; 4; 1; 7], [48; 3; 4; 1; 7]. intros texts retext pad. destruct pad; (split; [calc|reflexivity]).
Qed.
Print Assumptions C96_signing_hash_default_refuted.
(* the identifier 1.3.14.3.2.29 of sha1_rsa, in DER, is replaced by another one for the algorithm *)
Theorem C96_alias_refuted : exists d e, forall texts retext pad,
  lib_recode texts retext pad 10 (CName "algos.SignedDigestAlgorithm") d true = Ok e /\ d <> e.
Proof.
  exists [48; 9; 6; 5; 43; 14; 3; 2; 29; 5; 0], [48; 13; 6; 9; 42; 134; 72; 134; 247; 13; 1; 1; 5; 5; 0]. intros texts retext pad. destruct pad; (split; [calc|discriminate]).
Qed.
Print Assumptions C96_alias_refuted.
(* an AnyAlgorithmIdentifier that was read cannot be written again: TypeError *)
Theorem C96_any_algorithm_refuted : exists d, forall texts retext pad,
  (exists a, read_from (lib_env texts pad) pad 10 (CName "algos.AnyAlgorithmIdentifier") d true = Ok a) /\
  lib_recode texts retext pad 10 (CName "algos.AnyAlgorithmIdentifier") d true = Err TypeError.
Proof. exists [48; 9; 6; 5; 43; 14; 3; 2; 26; 5; 0]. intros texts retext pad. destruct pad; (split; [eexists; calc|calc]). Qed.
Print Assumptions C96_any_algorithm_refuted.
(* what is in an Any stays in BER (here TRUE as 1), and so does NULL with a long length *)
Theorem C96_open_refuted : exists d e, forall texts retext pad,
  lib_recode texts retext pad 10 (CName "algos.DigestAlgorithm") d true = Ok d /\ lib_recode texts retext pad 10 (CName "core.Null") e true = Ok e /\ d = [48; 10; 6; 3; 42; 3; 4; 48; 3; 1; 1; 1] /\ e = [5; 129; 0].
Proof. exists [48; 10; 6; 3; 42; 3; 4; 48; 3; 1; 1; 1], [5; 129; 0]. intros texts retext pad. destruct pad; (split; [calc|split; [calc|split; reflexivity]]). Qed.
Print Assumptions C96_open_refuted.
(* elements after the last field are read and left out *)
Theorem C96_extra_refuted : exists d e, forall texts retext pad,
  (exists a b, read_from (lib_env texts pad) pad 10 (CName "x509.BasicConstraints") d true = Ok (ADict [a; b; (tx "2", APrim (NBool true))])) /\
  lib_recode texts retext pad 10 (CName "x509.BasicConstraints") d true = Ok e /\ (len e < len d)%Z.
Proof.
  exists [48; 9; 1; 1; 255; 2; 1; 3; 1; 1; 255], [48; 6; 1; 1; 255; 2; 1; 3]. intros texts retext pad.
  destruct pad; (split; [do 2 eexists; calc|split; [calc|reflexivity]]).
Qed.
Print Assumptions C96_extra_refuted.
(* a name with a dollar sign in a TeletexString is read as Windows-1252 and written in T.61: the octets change; with an accented
   letter it cannot be written *)
Theorem C96_teletex_refuted : exists d e f, forall texts retext pad,
  lib_recode texts retext pad 10 (CName "x509.DirectoryString") d true = Ok e /\ d <> e /\
  lib_recode texts retext pad 10 (CName "x509.DirectoryString") f true = Err UnicodeError.
Proof. exists [20; 1; 36], [20; 1; 164], [20; 1; 233]. intros texts retext pad. destruct pad; (split; [calc|split; [discriminate|calc]]). Qed.
Print Assumptions C96_teletex_refuted.
