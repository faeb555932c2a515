(* C95: the structures of the library are read as their encodings say. *)
Require Import Verif.Base Verif.BaseFacts Verif.Text Verif.ParserModel Verif.ParserSpec Verif.ParserProofs Verif.TagSpec Verif.CodecModel Verif.BitModel Verif.PrimModel Verif.PrimSpec
  Verif.ContModel Verif.ContSpec Verif.BerSpec Verif.OidSpec Verif.GenModel Verif.GenSpec Verif.ReadModel Verif.ReadSpec Verif.ReadProofs Verif.LibModel Verif.LibRead Verif.LibReadProofs Verif.TypeSpec Verif.TypeProofs Verif.LibProofs.
Require Verif.ShapeModel Verif.ShapeSpec Verif.ShapeProofs Verif.Shapes Verif.PropertiesShape Verif.Tables.
Require Coq.Strings.String.
Require Import Coq.Bool.Bool.
Import Coq.Strings.String.StringSyntax.
Ltac calc := vm_compute; reflexivity.

(* load with any class of the table, then native: if the octets are an encoding in BER that
   stands for a under the class, the native is a - up to the order of sets and the time zone in
   which a time is given *)
Theorem C95_reads (texts : string -> bytes -> res (option text)) (pad : bool) (n m : nat) (r : ref) (i : info) (a : aval) (strict : bool) (rest : bytes) :
  (n <= m)%nat -> ber_info max_budget i -> stands (lib_env texts pad) pad n r no_params None i a -> (strict = true -> rest = []) ->
  exists a', read_from (lib_env texts pad) pad m r (encoding_of i ++ rest) strict = Ok a' /\ alike a a'.
Proof. exact (read_from_ok (lib_env texts pad) pad (lib_env_ok texts pad) n m r i a strict rest). Qed.
Print Assumptions C95_reads.

(* so an encoding does not stand for two natives *)
Theorem C95_one_native (texts : string -> bytes -> res (option text)) (pad : bool) (n m : nat) (r : ref) (i : info) (a b : aval) :
  ber_info max_budget i -> stands (lib_env texts pad) pad n r no_params None i a -> stands (lib_env texts pad) pad m r no_params None i b ->
  exists x, alike a x /\ alike b x.
Proof.
  intros B Ha Hb. pose proof (Nat.le_max_l n m) as L1. pose proof (Nat.le_max_r n m) as L2.
  destruct (C95_reads texts pad n (Nat.max n m) r i a false [] L1 B Ha ltac:(discriminate)) as (x & E & A).
  destruct (C95_reads texts pad m (Nat.max n m) r i b false [] L2 B Hb ltac:(discriminate)) as (y & F & C).
  rewrite E in F. injection F as <-. eauto.
Qed.
Print Assumptions C95_one_native.

(* an extension with a type found by its identifier, inside octets:
   { basic_constraints, TRUE, OCTET STRING { TRUE } } *)
Definition ext_octets : bytes := [48; 15; 6; 3; 85; 29; 19; 1; 1; 255; 4; 5; 48; 3; 1; 1; 255].
Definition ext_value : aval :=
  ADict [(tx "extn_id", APrim (NText (tx "basic_constraints"))); (tx "critical", APrim (NBool true));
         (tx "extn_value", ADict [(tx "ca", APrim (NBool true)); (tx "path_len_constraint", ANone)])].
Lemma cut d i : bytes_ok d -> parse_ d (len d) 0 = Ok (i, len d) -> ber_info max_budget i /\ d = encoding_of i.
Proof.
  intros B H. destruct (parse_sound [] d i (len d) B H) as (K & (rest & E) & L). split; auto.
  rewrite E at 1. change (len ([] : bytes)) with 0 in L. rewrite Z.add_0_l in L. rewrite E, len_app in L at 1.
  assert (Z : len rest = 0) by lia. destruct rest; [now rewrite app_nil_r|]. rewrite len_cons in Z. pose proof (len_nonneg rest). lia.
Qed.
Ltac octets := repeat (constructor; [unfold byte_ok; lia|]); constructor.
Ltac cut_it := match goal with |- one_of _ ?d => let r := eval vm_compute in (parse_ d (len d) 0) in
  match r with Ok (?i, _) => exists i; destruct (cut d i ltac:(octets) ltac:(vm_compute; reflexivity)) as [HB HE]; split; [exact HB|split; [exact HE|clear HB HE]] end end.

Section Example.
  Variable texts : string -> bytes -> res (option text).
  Notation st := (stands (lib_env texts true) true).
  Definition class_at (n : string) : pcls * rdef * out := match lookup true (CName n) with Some k => k | None => (Cls 0 0 [] [], DAny, OSame) end.
  Definition fields_at (n : string) : list rfield := match snd (fst (class_at n)) with DSeq fs _ => fs | _ => [] end.
  Definition sel_at (n : string) : option selector := match snd (fst (class_at n)) with DSeq _ s => s | _ => None end.

  Lemma st_seq m n t fs sel p i a : lookup true (CName n) = Some (Cls 0 t [] [], DSeq fs sel, OSame) -> p = no_params ->
    i_class i = 0 -> i_method i = 1 -> i_tag i = t -> fields_stand (st m) fs sel a (i_contents i) -> st (S m) (CName n) p None i a.
  Proof.
    intros L -> H1 H2 H3 H. cbn [stands]. unfold lib_env at 1. rewrite L. cbn [option_map fst snd r_def r_cls r_out apply_out].
    exists a. split; [reflexivity|]. cbn. repeat split; auto.
  Qed.
  Lemma st_prim m n t k p i v : lookup true (CName n) = Some (Cls 0 t [] [], DPrim k, OSame) -> p = no_params -> k <> KNull -> v <> NNone ->
    i_class i = 0 -> i_method i = 0 -> i_tag i = t -> holds k None v -> ber_value k v (i_contents i) -> st (S m) (CName n) p None i (APrim v).
  Proof.
    intros L -> Nk Nv H1 H2 H3 Hv H. cbn [stands]. unfold lib_env at 1. rewrite L. cbn [option_map fst snd r_def r_cls r_out apply_out].
    exists (APrim v). split; [reflexivity|]. exists v. split; [|now destruct v].
    assert (B : ber_prim k (Cls 0 t [] []) (tags_of (Cls 0 t [] []) no_params) v i) by (exact (conj H1 (conj H3 (or_introl (conj H2 H))))).
    destruct k; try contradiction; cbn [ber_of]; repeat split; auto.
  Qed.
  Lemma st_inside m n p r j i a : lookup true (CName n) = Some (Cls 0 4 [] [], DParse false, OSame) -> p = no_params ->
    i_class i = 0 -> i_method i = 0 -> i_tag i = 4 -> ber_info max_budget j -> i_contents i = encoding_of j -> st m r no_params None j a ->
    st (S m) (CName n) p (Some r) i a.
  Proof.
    intros L -> H1 H2 H3 B E H. cbn [stands]. unfold lib_env at 1. rewrite L. cbn [option_map fst snd r_def r_cls r_out apply_out].
    exists a. split; [reflexivity|]. exists j. split; auto. split; auto. cbn. repeat split; auto.
  Qed.

  Lemma st_true m i : i_class i = 0 -> i_method i = 0 -> i_tag i = 1 -> i_contents i = [255] -> st (S m) (CName "core.Boolean") no_params None i (APrim (NBool true)).
  Proof.
    intros H1 H2 H3 H. apply (st_prim m "core.Boolean" 1 KBool no_params i (NBool true)); auto; try calc; try discriminate; try exact Logic.I.
    rewrite H. split; [octets|]. left. reflexivity.
  Qed.
  Lemma st_constraints m i : i_class i = 0 -> i_method i = 1 -> i_tag i = 16 -> i_contents i = [1; 1; 255] ->
    st (S (S m)) (CName "x509.BasicConstraints") no_params None i (ADict [(tx "ca", APrim (NBool true)); (tx "path_len_constraint", ANone)]).
  Proof.
    intros H1 H2 H3 H. apply (st_seq (S m) "x509.BasicConstraints" 16 (fields_at "x509.BasicConstraints") None no_params i _ ltac:(calc) eq_refl H1 H2 H3). rewrite H.
    exists [(tx "ca", APrim (NBool true)); (tx "path_len_constraint", ANone)], (map (fun g => (g, Keep)) (fields_at "x509.BasicConstraints")), [[1; 1; 255]; []].
    split; [reflexivity|]. split; [reflexivity|]. split; [reflexivity|].
    change (fields_at "x509.BasicConstraints") with
      [RField (tx "ca") (Some (CName "core.Boolean")) no_params (GDef (APrim (NBool false)));
       RField (tx "path_len_constraint") (Some (CName "core.Integer")) no_params GOpt].
    cbn [map all3]. split; [|split; [|exact Logic.I]].
    - split; [reflexivity|]. right. cut_it. now apply st_true.
    - split; [reflexivity|]. left. split; reflexivity.
  Qed.
  Lemma small_b128 z : 0 <= z < 128 -> b128_octets z [z].
  Proof. intros H. exists [], z. split; [reflexivity|]. split; [now constructor|]. split; [exact Logic.I|]. cbn [app b128_value]. change (128 ^ len []) with 1. lia. Qed.
  Lemma st_oid m n ids i arcs name : lookup true (CName n) = Some (Cls 0 6 [] [], DPrim (KOid ids), OSame) ->
    i_class i = 0 -> i_method i = 0 -> i_tag i = 6 -> bytes_ok (i_contents i) -> legal_oid arcs -> oid_octets (subidentifiers arcs) (i_contents i) ->
    In (dotted_text arcs, name) ids -> st (S m) (CName n) no_params None i (APrim (NText name)).
  Proof.
    intros L H1 H2 H3 B A O I. apply (st_prim m n 6 (KOid ids) no_params i (NText name) L eq_refl); auto; try discriminate.
    - left. exists arcs. auto.
    - split; auto. left. exists arcs. auto.
  Qed.
  Lemma basic_octets : oid_octets (subidentifiers [2; 5; 29; 19]) [85; 29; 19].
  Proof.
    cbn [subidentifiers]. change (40 * 2 + 5) with 85. apply (oid_cons 85 [85] [29; 19] [29; 19]); [now apply small_b128|].
    apply (oid_cons 29 [29] [19] [19]); [now apply small_b128|]. apply (oid_cons 19 [19] [] []); [now apply small_b128|constructor].
  Qed.
  Definition ext_ids : list (text * text) := match snd (fst (class_at "x509.ExtensionId")) with DPrim (KOid m) => m | _ => [] end.
  Lemma st_basic m i : i_class i = 0 -> i_method i = 0 -> i_tag i = 6 -> i_contents i = [85; 29; 19] ->
    st (S m) (CName "x509.ExtensionId") no_params None i (APrim (NText (tx "basic_constraints"))).
  Proof.
    intros H1 H2 H3 H.
    assert (L : lookup true (CName "x509.ExtensionId") = Some (Cls 0 6 [] [], DPrim (KOid ext_ids), OSame)) by calc.
    assert (Im : In (dotted_text [2; 5; 29; 19], tx "basic_constraints") ext_ids) by (apply nth_error_In with (n := 6%nat); calc).
    apply (st_oid m "x509.ExtensionId" ext_ids i [2; 5; 29; 19] (tx "basic_constraints") L H1 H2 H3).
    - rewrite H. octets.
    - cbn. repeat split; try lia. repeat constructor; lia.
    - rewrite H. exact basic_octets.
    - exact Im.
  Qed.
  Lemma ext_stands i : i_class i = 0 -> i_method i = 1 -> i_tag i = 16 -> i_contents i = skipn 2 ext_octets ->
    st 4 (CName "x509.Extension") no_params None i ext_value.
  Proof.
    intros H1 H2 H3 H. apply (st_seq 3 "x509.Extension" 16 (fields_at "x509.Extension") (sel_at "x509.Extension") no_params i _ ltac:(calc) eq_refl H1 H2 H3). rewrite H.
    exists (match ext_value with ADict l => l | _ => [] end), (typed 2 (Inside (CName "x509.BasicConstraints")) (fields_at "x509.Extension")),
      [[6; 3; 85; 29; 19]; [1; 1; 255]; [4; 5; 48; 3; 1; 1; 255]].
    split; [reflexivity|]. split; [reflexivity|]. split.
    - change (sel_at "x509.Extension") with (Some (match sel_at "x509.Extension" with Some s => s | None => Sel 0 [] [] None end)).
      exists (APrim (NText (tx "basic_constraints"))), (Inside (CName "x509.BasicConstraints")).
      split; [exists (APrim (NText (tx "basic_constraints"))); split; [calc|reflexivity]|]. split; [|reflexivity].
      left. apply nth_error_In with (n := 6%nat). calc.
    - change (fields_at "x509.Extension") with
        [RField (tx "extn_id") (Some (CName "x509.ExtensionId")) no_params GReq;
         RField (tx "critical") (Some (CName "core.Boolean")) no_params (GDef (APrim (NBool false)));
         RField (tx "extn_value") (Some (CName "core.ParsableOctetString")) no_params GReq].
      cbn [typed map all3 ext_value]. split; [|split; [|split; [|exact Logic.I]]].
      + split; [reflexivity|]. right. cut_it. cbn [element_of snd g_class g_params fst].
        apply st_basic; reflexivity.
      + split; [reflexivity|]. right. cut_it. now apply st_true.
      + split; [reflexivity|]. right. cut_it. cbn [element_of snd g_class g_params fst].
        destruct (cut [48; 3; 1; 1; 255] (mkInfo 0 1 16 [48; 3] [1; 1; 255] []) ltac:(octets) ltac:(vm_compute; reflexivity)) as [B E].
        apply (st_inside 2 "core.ParsableOctetString" no_params (CName "x509.BasicConstraints") (mkInfo 0 1 16 [48; 3] [1; 1; 255] [])
          (mkInfo 0 0 4 [4; 5] [48; 3; 1; 1; 255] []) _ ltac:(calc) eq_refl eq_refl eq_refl eq_refl B E).
        now apply st_constraints.
  Qed.
End Example.
Example C95_reads_ex (texts : string -> bytes -> res (option text)) :
  exists i, ber_info max_budget i /\ encoding_of i = ext_octets /\ stands (lib_env texts true) true 4 (CName "x509.Extension") no_params None i ext_value /\
    read_from (lib_env texts true) true 4 (CName "x509.Extension") ext_octets true = Ok ext_value.
Proof.
  destruct (cut ext_octets (mkInfo 0 1 16 [48; 15] (skipn 2 ext_octets) []) ltac:(octets) ltac:(vm_compute; reflexivity)) as [B E].
  eexists. split; [exact B|]. split; [now rewrite <- E|]. split; [now apply ext_stands|calc].
Qed.

(* the table has every class but the abstract ones of core.py, Real and other types that cannot be read at all,
   sets with named members, choices with a tag of their own and the three ambiguous ones *)
Local Open Scope string_scope.
Definition not_read : list string :=
  ["core.Asn1Value"; "core.ValueMap"; "core.Castable"; "core.Constructable"; "core.Void"; "core.Choice"; "core.Concat"; "core.Primitive";
   "core.AbstractString"; "core._IntegerBitString"; "core.ObjectDescriptor"; "core.InstanceOf"; "core.Real"; "core.Set"; "core.AbstractTime";
   "core.GraphicString"; "core.CharacterString"; "algos._ForceNullParameters"; "keys._ECPoint"; "x509.CountryName"; "x509.AdministrationDomainName";
   "x509.PersonalName"; "x509.TeletexPersonalName"; "x509.PDSParameter"; "x509.UnformattedPostalAddress"; "x509.TrustedCertificate";
   "x509.BuiltInStandardAttributes"; "x509.ORAddress"; "x509.EDIPartyName"].
Theorem C95_classes (pad : bool) (k : ShapeModel.sclass) : In k lib -> ~ In (ShapeModel.c_name k) not_read -> lookup pad (CName (ShapeModel.c_name k)) <> None.
Proof.
  assert (H : forallb (fun k => mem (ShapeModel.c_name k) not_read ||
      match lookup pad (CName (ShapeModel.c_name k)) with Some _ => true | None => false end) lib = true) by (destruct pad; calc).
  intros I N. rewrite forallb_forall in H. specialize (H k I). cbv beta in H. apply orb_true_iff in H as [H|H]; [|now destruct (lookup pad _)].
  unfold mem in H. apply existsb_exists in H as (x & J & E). apply String.eqb_eq in E. subst x. contradiction.
Qed.
Print Assumptions C95_classes.
Example C95_classes_ex : In Shapes.class_x509_Certificate lib /\ ~ In (ShapeModel.c_name Shapes.class_x509_Certificate) not_read.
Proof.
  split; [|intros H; vm_compute in H; repeat (destruct H as [H|H]; [discriminate|]); contradiction].
  apply nth_error_In with (n := 226%nat). calc.
Qed.

(* what a class is read as is the ASN.1 type its definition makes, which C93 compares to the standards *)
Theorem C95_types (pad : bool) (n : string) (c : pcls) (d : rdef) (o : out) : lookup pad (CName n) = Some (c, d, o) ->
  class_is lib n (match o with OText _ => true | _ => false end) c d.
Proof.
  intros L.
  assert (H : forallb (forallb (fun e => match e with
      | (CName n, (c, d, o)) => classb lib n (match o with OText _ => true | _ => false end) c d | _ => true end)) (table pad) = true) by (clear; destruct pad; calc).
  unfold lookup in L. destruct (find _ _) as [e|] eqn:F; [|discriminate]. cbn [option_map] in L. injection L as L. apply find_some in F as [F E].
  rewrite forallb_forall in H. destruct (nth_in_or_default (String.length (ref_name (CName n))) (table pad) []) as [J|J]; [|rewrite J in F; contradiction].
  specialize (H _ J). rewrite forallb_forall in H. specialize (H _ F). destruct e as [r x]. cbn [fst snd] in *. subst x. destruct r as [n'|]; [|discriminate].
  cbn [ref_eqb] in E. apply String.eqb_eq in E. subst n'. now apply classb_sound.
Qed.
Print Assumptions C95_types.
Example C95_types_ex : exists c d, lookup true (CName "core.ParsableOctetBitString") = Some (c, d, OSame) /\ d = DParse true.
Proof. eexists _, _. split; [calc|reflexivity]. Qed.

(* identifiers are read with the names in the map of their class *)
Theorem C95_identifier_names (pad : bool) (n : string) (c : pcls) (m : list (text * text)) (o : out) : lookup pad (CName n) = Some (c, DPrim (KOid m), o) ->
  ~ In "algos.AnyAlgorithmId" (ancestors n) -> forall p, In p m <-> In p (dotted (named_map Tables.oid_maps (ancestors n))).
Proof.
  intros L N.
  pose (within_ := fun a b : list (text * text) => forallb (fun p => existsb (fun q => eqb_text (fst p) (fst q) && eqb_text (snd p) (snd q)) b) a).
  assert (H : forallb (forallb (fun e => match e with
      | (CName n, (_, DPrim (KOid m), _)) => mem "algos.AnyAlgorithmId" (ancestors n) ||
          let t := dotted (named_map Tables.oid_maps (ancestors n)) in within_ m t && within_ t m
      | _ => true end)) (table pad) = true) by (unfold within_; clear; destruct pad; calc).
  assert (W : forall a b, within_ a b = true -> forall p, In p a -> In p b).
  { intros a b K p I. unfold within_ in K. rewrite forallb_forall in K. specialize (K _ I). cbv beta in K. apply existsb_exists in K as (q & J & E).
    apply andb_true_iff in E as [E F]. apply eqb_text_iff in E, F. destruct p, q. cbn [fst snd] in *. now subst. }
  unfold lookup in L. destruct (find _ _) as [e|] eqn:F; [|discriminate]. cbn [option_map] in L. injection L as L. apply find_some in F as [F E].
  rewrite forallb_forall in H. destruct (nth_in_or_default (String.length (ref_name (CName n))) (table pad) []) as [J|J]; [|rewrite J in F; contradiction].
  specialize (H _ J). rewrite forallb_forall in H. specialize (H _ F). destruct e as [r x]. cbn [fst snd] in *. subst x. destruct r as [n'|]; [|discriminate].
  cbn [ref_eqb] in E. apply String.eqb_eq in E. subst n'. apply orb_true_iff in H as [H|H].
  - exfalso. apply N. unfold mem in H. apply existsb_exists in H as (x & I & E). apply String.eqb_eq in E. now subst x.
  - apply andb_true_iff in H as [H K]. intros p. split; apply W; assumption.
Qed.
Print Assumptions C95_identifier_names.
Example C95_identifier_names_ex : exists c m, lookup true (CName "x509.ExtensionId") = Some (c, DPrim (KOid m), OSame) /\ m = ext_ids /\
  ~ In "algos.AnyAlgorithmId" (ancestors "x509.ExtensionId").
Proof.
  exists (Cls 0 6 [] []), ext_ids. split; [calc|]. split; [reflexivity|].
  intros H. vm_compute in H. repeat (destruct H as [H|H]; [discriminate|]). contradiction.
Qed.

(* integers, enumerations and bits are read with the names in the map of their class; without a map, integers stay
   numbers and bits stay bits, while enumerations cannot be read *)
Definition number_names (n : string) (k : kind) : Prop :=
  let m t := numbers (named_map t (ancestors n)) in
  let some t x := match x with Some l => l = m t /\ l <> [] | None => m t = [] end in
  match k with KInt l => l = m Tables.int_maps | KEnum x => some Tables.enum_maps x | KBits x => some Tables.bit_maps x | _ => True end.
Theorem C95_number_names (pad : bool) (n : string) (c : pcls) (k : kind) (o : out) : lookup pad (CName n) = Some (c, DPrim k, o) -> number_names n k.
Proof.
  intros L.
  pose (same := fix same (a b : list (Z * text)) := match a, b with [], [] => true | x :: a, y :: b => Z.eqb (fst x) (fst y) && eqb_text (snd x) (snd y) && same a b | _, _ => false end).
  pose (sameo := fun x b => match x with Some a => match a with [] => false | _ => same a b end | None => match b with [] => true | _ => false end end).
  assert (H : forallb (forallb (fun e => match e with
      | (CName n, (_, DPrim k, _)) => let m t := numbers (named_map t (ancestors n)) in
          match k with KInt l => same l (m Tables.int_maps) | KEnum x => sameo x (m Tables.enum_maps) | KBits x => sameo x (m Tables.bit_maps) | _ => true end
      | _ => true end)) (table pad) = true) by (unfold sameo, same; clear; destruct pad; calc).
  assert (S : forall a b, same a b = true -> a = b).
  { induction a as [|[x t] a IH]; intros [|[y u] b] E; try discriminate E; [reflexivity|]. cbn in E. apply andb_true_iff in E as [E F]. apply andb_true_iff in E as [E1 E2].
    apply Z.eqb_eq in E1. apply eqb_text_iff in E2. now rewrite E1, E2, (IH _ F). }
  unfold lookup in L. destruct (find _ _) as [e|] eqn:F; [|discriminate]. cbn [option_map] in L. injection L as L. apply find_some in F as [F E].
  rewrite forallb_forall in H. destruct (nth_in_or_default (String.length (ref_name (CName n))) (table pad) []) as [J|J]; [|rewrite J in F; contradiction].
  specialize (H _ J). rewrite forallb_forall in H. specialize (H _ F). destruct e as [r x]. cbn [fst snd] in *. subst x. destruct r as [n'|]; [|discriminate].
  cbn [ref_eqb] in E. apply String.eqb_eq in E. subst n'. unfold number_names.
  destruct k as [|l|x|x| | | | | | | | | |]; try exact Logic.I; [now apply S| |];
    (destruct x as [[|p l]|]; cbn [sameo] in H; [discriminate|split; [now apply S|discriminate]|]);
    (match type of H with match ?b with _ => _ end = true => destruct b; [reflexivity|discriminate] end).
Qed.
Print Assumptions C95_number_names.
Example C95_number_names_ex : exists c m, lookup true (CName "ocsp.OCSPResponseStatus") = Some (c, DPrim (KEnum (Some m)), OSame) /\ In (6, tx "unauthorized") m.
Proof. eexists _, _. split; [calc|]. cbn [In]. tauto. Qed.
(* the status of a response from an OCSP server *)
Example C95_enumerated_ex (texts : string -> bytes -> res (option text)) :
  read_from (lib_env texts true) true 4 (CName "ocsp.OCSPResponse") [48; 3; 10; 1; 6] true =
    Ok (ADict [(tx "response_status", APrim (NText (tx "unauthorized"))); (tx "response_bytes", ANone)]).
Proof. calc. Qed.

(* where a standard binds a type to an identifier, the field with the value is read with a class of that type, the
   value being the element itself if the field may be of any type, and inside the octets of strings; the
   identifier is an object identifier, or in x509.ExtensionAttribute a number, in an earlier field.
   The differences are those of C93 *)
Definition element_class (pad : bool) (f : rfield) (pk : pick) : option string :=
  let class := match g_class f with Some r => option_map (fun k => snd (fst k)) (lookup pad r) | None => Some DAny end in
  match pk, class with
  | As (CName c), Some DAny => Some c
  | Inside (CName c), Some (DParse _) => Some c
  | _, _ => None
  end.
Definition key_kind (pad : bool) (fs : list rfield) (s : selector) : option kind :=
  match s_key s with
  | [n] => match find (fun f => eqb_text (g_name f) n) (firstn (s_field s) fs) with
           | Some f => match g_class f with
                       | Some r => match lookup pad r with Some (_, DPrim k, _) => Some k | _ => None end
                       | None => None
                       end
           | None => None
           end
  | _ => None
  end.
Definition read_with (pad : bool) (k i : string) : option string :=
  match lookup pad (CName k) with
  | Some (_, DSeq fs (Some s), _) =>
      match nth_error fs (s_field s), table_get (s_table s) (tx i), key_kind pad fs s with
      | Some f, Some pk, Some (KOid _ | KInt (_ :: _)) => element_class pad f pk
      | _, _, _ => None
      end
  | _ => None
  end.
Theorem C95_identifiers_partial (pad : bool) (k i : string) : In (k, i) PropertiesShape.all_bound ->
  exists t c, PropertiesShape.binding ShapeSpec.bound k i = Some t /\ read_with pad k i = Some c /\
    (ShapeSpec.is_of ShapeSpec.standards Shapes.library t c <-> ~ In (k, i) PropertiesShape.differing_bindings).
Proof.
  assert (H : forallb (fun p => match PropertiesShape.binding Shapes.bindings (fst p) (snd p), read_with pad (fst p) (snd p) with
      | Some c, Some d => String.eqb c d | _, _ => false end) PropertiesShape.all_bound = true) by (destruct pad; calc).
  intro I. destruct (PropertiesShape.C93_bound_partial k i I) as (t & c & B & C & D). rewrite forallb_forall in H. specialize (H _ I). cbn [fst snd] in H.
  rewrite C in H. destruct (read_with pad k i) as [d|]; [|discriminate]. apply String.eqb_eq in H. subst d. exists t, c. auto.
Qed.
Print Assumptions C95_identifiers_partial.
Example C95_identifiers_ex : read_with true "x509.Extension" "key_usage" = Some "x509.KeyUsage" /\ read_with true "cms.CMSAttribute" "signing_time" = Some "cms.SetOfTime"
  /\ In ("cms.CMSAttribute", "signing_time") PropertiesShape.all_bound.
Proof. split; [calc|]. split; [calc|]. rewrite <- PropertiesShape.is_in_iff. calc. Qed.

(* keys: RFC 3279, 5480, 8410 say what the bit string of a public key holds, RFC 8017, 5915, 8410 and PKCS #11 the
   octets of a private key: the encoding of a value of a type, or (None) nothing but octets *)
Definition public_keys : list (string * option ShapeSpec.sty) :=
  [("rsa", Some (ShapeSpec.T "RSAPublicKey")); ("rsassa_pss", Some (ShapeSpec.T "RSAPublicKey")); ("rsaes_oaep", Some (ShapeSpec.T "RSAPublicKey"));
   ("dsa", Some ShapeSpec.INTEGER); ("dh", Some ShapeSpec.INTEGER); ("ec", None); ("x25519", None); ("x448", None); ("ed25519", None); ("ed448", None)].
Definition private_keys : list (string * option ShapeSpec.sty) :=
  [("rsa", Some (ShapeSpec.T "RSAPrivateKey")); ("rsassa_pss", Some (ShapeSpec.T "RSAPrivateKey")); ("dsa", Some ShapeSpec.INTEGER);
   ("ec", Some (ShapeSpec.T "ECPrivateKey")); ("x25519", Some ShapeSpec.OCTET_STRING); ("x448", Some ShapeSpec.OCTET_STRING);
   ("ed25519", Some ShapeSpec.OCTET_STRING); ("ed448", Some ShapeSpec.OCTET_STRING)].
(* the class found in the field f for the algorithm *)
Definition key_pick (pad : bool) (k f a : string) : option pick :=
  match lookup pad (CName k) with
  | Some (_, DSeq fs (Some s), _) =>
      match nth_error fs (s_field s) with Some g => if eqb_text (g_name g) (tx f) then table_get (s_table s) (tx a) else None | None => None end
  | _ => None
  end.
Definition key_as (pad bits : bool) (k f : string) (x : string * option ShapeSpec.sty) : Prop :=
  match key_pick pad k f (fst x), snd x with
  | Some (Inside (CName c)), Some t => ShapeSpec.is_of ShapeSpec.standards Shapes.library t c
  | Some (As (CName c)), None => exists cl, lookup pad (CName c) = Some (cl, DPrim (if bits then KOctetBits else KOctets), OSame)
  | _, _ => False
  end.
Theorem C95_keys (pad : bool) :
  Forall (key_as pad true "keys.PublicKeyInfo" "public_key") public_keys /\ Forall (key_as pad false "keys.PrivateKeyInfo" "private_key") private_keys.
Proof.
  pose (check := fun bits k f (x : string * option ShapeSpec.sty) => match key_pick pad k f (fst x), snd x with
    | Some (Inside (CName c)), Some t => ShapeProofs.is_ofb ShapeSpec.standards Shapes.library t c
    | Some (As (CName c)), None => match lookup pad (CName c) with
        | Some (_, DPrim KOctetBits, OSame) => bits | Some (_, DPrim KOctets, OSame) => negb bits | _ => false end
    | _, _ => false end).
  assert (S : forall bits k f x, check bits k f x = true -> key_as pad bits k f x).
  { intros bits k f x H. unfold check in H. unfold key_as. destruct (key_pick pad k f (fst x)) as [[|[c|]|[c|]]|]; try discriminate; destruct (snd x); try discriminate.
    - destruct (lookup pad (CName c)) as [[[cl [kd| | | | |]] o]|]; try discriminate. destruct kd; try discriminate; destruct o; try discriminate;
        destruct bits; try discriminate; eauto.
    - now apply ShapeProofs.is_ofb_iff. }
  split; apply Forall_forall; intros x I; apply S.
  - assert (H : forallb (check true "keys.PublicKeyInfo" "public_key") public_keys = true) by (unfold check; clear; destruct pad; calc).
    rewrite forallb_forall in H. now apply H.
  - assert (H : forallb (check false "keys.PrivateKeyInfo" "private_key") private_keys = true) by (unfold check; clear; destruct pad; calc).
    rewrite forallb_forall in H. now apply H.
Qed.
Print Assumptions C95_keys.
Example C95_keys_ex : key_pick true "keys.PublicKeyInfo" "public_key" "rsa" = Some (Inside (CName "keys.RSAPublicKey")) /\ In ("rsa", Some (ShapeSpec.T "RSAPublicKey")) public_keys.
Proof. split; [calc|]. left. reflexivity. Qed.

(* names: a dict with the types in the order they first appear; a type that appears once has its value, one that
   appears several times the list of its values in their order *)
Theorem C95_names (texts : string -> bytes -> res (option text)) (l : list (list (text * aval))) : Forall no_list (map snd (concat l)) ->
  exists d, apply_out texts OName (name_value l) = Ok (ADict d) /\ map fst d = first_seen [] (map fst (concat l)) /\
    forall t, dict_get d t = shown (values_of t (concat l)).
Proof.
  intros N. unfold name_value. cbn [apply_out]. rewrite all_fold. cbn [bind]. eexists. split; [reflexivity|].
  destruct (fold_shown (concat l) [] [] N) as [A B]; [split; [intros t; reflexivity|reflexivity]|]. split; [exact B|exact A].
Qed.
Print Assumptions C95_names.
Definition some_name : list (list (text * aval)) :=
  let v s := APrim (NText (tx s)) in
  [[(tx "organization_name", v "a")]; [(tx "common_name", v "b"); (tx "organization_name", v "c")]; [(tx "organization_name", v "d")]].
Example C95_names_ex (texts : string -> bytes -> res (option text)) : Forall no_list (map snd (concat some_name)) /\
  apply_out texts OName (name_value some_name) =
    Ok (ADict [(tx "organization_name", AList [APrim (NText (tx "a")); APrim (NText (tx "c")); APrim (NText (tx "d"))]); (tx "common_name", APrim (NText (tx "b")))])
  /\ exists k, lookup true (CName "x509.Name") = Some k /\ snd k = OName.
Proof. split; [cbn; repeat (constructor; [exact Logic.I|]); constructor|]. split; [calc|]. eexists. split; vm_compute; reflexivity. Qed.

(* ---- refuted ---- *)
(* a public key of an algorithm the library has no name for - the algorithm 1.2.3 without parameters and the bits 01 -
   cannot be read: KeyError, where any value may be in the bit string.  So whole certificates with such a key are refused *)
Definition unknown_key : bytes := [48; 10; 48; 4; 6; 2; 42; 3; 3; 2; 0; 1].
Theorem C95_unknown_algorithm_refuted : exists d, forall texts pad,
  read_from (lib_env texts pad) pad 10 (CName "keys.PublicKeyInfo") d true = Err KeyError /\
  read_from (lib_env texts pad) pad 10 (CName "core.Sequence") d true =
    Ok (ADict [(tx "0", ADict [(tx "0", APrim (NText (tx "1.2.3")))]); (tx "1", APrim (NBits [false; false; false; false; false; false; false; true]))]).
Proof. exists unknown_key. intros texts pad. destruct pad; split; calc. Qed.
Print Assumptions C95_unknown_algorithm_refuted.

(* CertificateChoices looks at the first element of an attribute certificate of version 1 for the version, which in
   DER is not there, as v1 is the default: such certificates are refused, though their class reads them *)
Definition v1_certificate : bytes := [48; 93; 48; 72; 161; 7; 48; 5; 136; 3; 85; 4; 3; 48; 5; 136; 3; 85; 4; 3; 48; 13; 6; 9; 42; 134; 72; 134; 247; 13; 1; 1; 11; 5; 0; 2; 1; 1; 48; 34; 24; 15; 50; 48; 50; 48; 48; 49; 48; 49; 48; 48; 48; 48; 48; 48; 90; 24; 15; 50; 48; 51; 48; 48; 49; 48; 49; 48; 48; 48; 48; 48; 48; 90; 48; 0; 48; 13; 6; 9; 42; 134; 72; 134; 247; 13; 1; 1; 11; 5; 0; 3; 2; 0; 1].
Theorem C95_v1_attribute_certificate_refuted : exists h d, forall texts pad,
  (exists l, read_from (lib_env texts pad) pad 20 (CName "cms.AttributeCertificateV1") (48 :: h :: d) true = Ok (ADict l)) /\
  read_from (lib_env texts pad) pad 20 (CName "cms.CertificateChoices") (161 :: h :: d) true = Err ValueError.
Proof.
  exists 93, (skipn 2 v1_certificate). intros texts pad. split; [eexists; destruct pad|destruct pad]; calc.
Qed.
Print Assumptions C95_v1_attribute_certificate_refuted.
