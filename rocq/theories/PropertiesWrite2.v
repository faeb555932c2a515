(* C97, continued: what the constructors refuse, and the states of a certificate. *)
Require Import Verif.Base Verif.BaseFacts Verif.Text Verif.PrimModel Verif.ContModel Verif.GenModel Verif.ReadModel Verif.LibModel Verif.LibRead
  Verif.RecodeModel Verif.LibRecode Verif.WriteModel Verif.LibWrite Verif.LibWriteProofs.
Require Coq.Strings.String.
Import Coq.Strings.String.StringSyntax.
Ltac calc := vm_compute; reflexivity.

Lemma missing_part env default_of wr (f : rfield) pk li : g_pres f = GReq -> dict_get li (g_name f) = None ->
  forall fs at_, In f fs -> exists e, parts_written env default_of wr fs at_ pk li = Err e.
Proof.
  intros P D. induction fs as [|g fs IH]; intros at_ H; [easy|]. cbn [parts_written].
  destruct H as [->|H].
  - rewrite D. unfold part_written. rewrite P. cbn. eauto.
  - match goal with |- context [part_written ?a ?b ?c ?d ?e ?f] => destruct (part_written a b c d e f) end; cbn [bind]; [|eauto].
    destruct (IH (match at_ with Some (S n) => Some n | _ => None end) H) as [e ->]. cbn. eauto.
Qed.
Lemma fill_other r li name : name <> tx "parameters" -> dict_get li name = None -> dict_get (lib_fill r li) name = None.
Proof.
  intros N D. unfold lib_fill. destruct r as [n|]; auto. destruct (mem _ _); auto.
  destruct (dict_get li (tx "parameters")); auto. destruct (dict_get li (tx "algorithm")) as [x|]; auto.
  destruct (bare x); auto. match goal with v : native |- _ => destruct v; auto end.
  match goal with |- context [null_algo ?a ?b] => destruct (null_algo a b); auto end.
  clear - N D. induction li as [|[k v] li IH]; cbn [app dict_get] in *.
  - destruct (eqb_text (tx "parameters") name) eqn:E; auto. apply eqb_text_spec in E. congruence.
  - destruct (eqb_text k name); auto.
Qed.

(* a structure that lacks a field it must have is not written.  (parameters may be
   filled in, and are optional where they are) *)
Theorem C97_missing (texts : string -> bytes -> res (option text)) (settext : string -> text -> res bytes) (pad : bool)
  (m : nat) (r : ref) (k : rclass) (fs : list rfield) (sel : option selector) (f : rfield) (li : list (text * aval)) :
  lib_env texts pad r = Some k -> r_def k = DSeq fs sel -> In f fs -> g_pres f = GReq -> g_name f <> tx "parameters" ->
  dict_get li (g_name f) = None -> exists e, lib_write texts settext pad m r (ADict li) = Err e.
Proof.
  intros E D I P N G. unfold lib_write. destruct m as [|m]; [cbn; eauto|]. cbn [write]. rewrite E, D.
  destruct (lib_special r); [eauto|]. destruct li as [|e0 li]; [eauto|]. unfold seq_written.
  destruct (forallb _ _); [|cbn; eauto].
  destruct (missing_part (lib_env texts pad) lib_default
    (write (lib_env texts pad) (lib_own settext) lib_default lib_fill lib_special m) f Keep (lib_fill r (e0 :: li)) P (fill_other r _ _ N G) fs None I) as [x _].
  match goal with |- context [bind ?a _] => match a with context [match sel with None => ?u | Some s => @?v s end] => destruct (match sel with None => u | Some s => v s end) as [pk|] end end;
    cbn [bind]; [|eauto].
  destruct (missing_part (lib_env texts pad) lib_default
    (write (lib_env texts pad) (lib_own settext) lib_default lib_fill lib_special m) f pk (lib_fill r (e0 :: li)) P (fill_other r _ _ N G) fs (option_map s_field sel) I) as [x' ->].
  cbn. eauto.
Qed.
Print Assumptions C97_missing.

(* nor is one that is given a name which is not a field *)
Theorem C97_unknown (texts : string -> bytes -> res (option text)) (settext : string -> text -> res bytes) (pad : bool)
  (m : nat) (r : ref) (k : rclass) (fs : list rfield) (sel : option selector) (name : text) (x : aval) (li : list (text * aval)) :
  lib_env texts pad r = Some k -> r_def k = DSeq fs sel -> In (name, x) li -> ~ In name (map (fun f => g_name f) fs) ->
  exists e, lib_write texts settext pad m r (ADict li) = Err e.
Proof.
  intros E D I N. unfold lib_write. destruct m as [|m]; [cbn; eauto|]. cbn [write]. rewrite E, D.
  destruct (lib_special r); [eauto|]. destruct li as [|e0 li]; [easy|]. unfold seq_written.
  destruct (forallb _ _) eqn:F; [|cbn; eauto]. exfalso. rewrite forallb_forall in F. specialize (F _ I). cbn [fst] in F.
  apply existsb_exists in F as (g & Hg & Q). apply eqb_text_spec in Q. apply N. rewrite <- Q. apply in_map_iff. eauto.
Qed.
Print Assumptions C97_unknown.

Section Ex.
  Variable texts : string -> bytes -> res (option text).
  Variable settext : string -> text -> res bytes.
  Definition half_extension : list (text * aval) := [(tx "extn_value", APrim (NBytes [5; 0]))].
  Example C97_missing_ex : exists k fs sel f, lib_env texts true (CName "x509.Extension") = Some k /\ r_def k = DSeq fs sel /\ In f fs /\
    g_pres f = GReq /\ g_name f <> tx "parameters" /\ dict_get half_extension (g_name f) = None.
  Proof. eexists _, _, _, _. split; [calc|]. split; [calc|]. split; [now left|]. split; [calc|]. split; [discriminate|calc]. Qed.
  Example C97_unknown_ex : exists k fs sel, lib_env texts true (CName "x509.Extension") = Some k /\ r_def k = DSeq fs sel /\
    ~ In (tx "extn") (map (fun f => g_name f) fs).
  Proof. eexists _, _, _. split; [calc|]. split; [calc|]. vm_compute. intuition discriminate. Qed.
End Ex.

(* the states of a certificate without details are written as RFC 6960 says (good is
   [0] IMPLICIT NULL, unknown [2] IMPLICIT NULL), and given by their names only *)
Theorem C97_status (texts : string -> bytes -> res (option text)) (settext : string -> text -> res bytes) (pad : bool) (m : nat) (t : text) :
  lib_write texts settext pad (S (S m)) (CName "ocsp.CertStatus") (AChoice (tx "good") (APrim (NText t))) =
    (if eqb_text t (tx "good") then Ok [128; 0] else Err ValueError) /\
  lib_write texts settext pad (S (S m)) (CName "ocsp.CertStatus") (AChoice (tx "unknown") (APrim (NText t))) =
    (if eqb_text t (tx "unknown") then Ok [130; 0] else Err ValueError).
Proof.
  assert (W : forall n name num,
    (n, name, num) = ("ocsp.StatusGood"%string, "good"%string, 0) \/ (n, name, num) = ("ocsp.StatusUnknown"%string, "unknown"%string, 2) ->
    lib_write texts settext pad (S (S m)) (CName "ocsp.CertStatus") (AChoice (tx name) (APrim (NText t))) =
    do w <- (do x <- (if eqb_text t (tx name) then Ok [] else Err ValueError);
    do g <- match lib_env texts pad (CName n) with Some k => init_tagging (r_cls k) (Params [] (Some (2, num)) false) | None => Err OutOfFuel end; Ok (full_header g 0 x ++ x)); Ok w).
  { intros n name num [E|E]; injection E as -> -> ->; vm_compute; reflexivity. }
  rewrite (W _ _ _ (or_introl eq_refl)), (W _ _ _ (or_intror eq_refl)).
  destruct (eqb_text t (tx "good")), (eqb_text t (tx "unknown")); split; calc.
Qed.
Print Assumptions C97_status.
Example C97_status_ex (texts : string -> bytes -> res (option text)) (settext : string -> text -> res bytes) :
  lib_write texts settext true 2 (CName "ocsp.CertStatus") (AChoice (tx "good") (APrim (NText (tx "good")))) = Ok [128; 0].
Proof. calc. Qed.
