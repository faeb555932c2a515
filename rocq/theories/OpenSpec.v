(* What a sequence with a field of open type stands for.  When its object identifier has an
   entry in the table, it is the sequence whose field has the class of that entry; values,
   encodings and operations are those of ContSpec and ContHistSpec. *)
Require Import Verif.Base Verif.TagSpec Verif.Text Verif.PrimModel Verif.PrimSpec Verif.ContModel Verif.ContSpec Verif.ContPath
  Verif.ContHistSpec Verif.CopySpec Verif.OpenModel.

(* the sequence with class s for field j *)
Definition closed (c : pcls) (fs : list (fld * spec)) (j : nat) (s : spec) : spec :=
  SSeq c (match nth_error fs j with Some f => update fs j (fst f, s) | None => fs end).

(* field i is a required object identifier with names m, field j has no default and is the
   last one unless required *)
Definition open_pair (fs : list (fld * spec)) (i j : nat) (m : list (text * text)) : Prop :=
  (i < j)%nat /\
  (exists f c, nth_error fs i = Some f /\ snd f = SPrim (KOid m) c /\ fpres f = Required) /\
  (exists f, nth_error fs j = Some f /\ (fpres f = Required \/ (fpres f = Optional /\ S j = length fs))).

(* the table has class s for the object identifier *)
Definition entry_for (tbl : list (text * spec)) (o : text) (s : spec) : Prop :=
  NoDup (map fst tbl) /\ In (o, s) tbl.

(* the value of field i *)
Definition names_oid (i : nat) (o : text) (a : aval) : Prop :=
  exists l n, a = ADict l /\ nth_error l i = Some (n, APrim (NText o)).

(* an operation that does not change field i *)
Definition spares (i : nat) (d : deed) : Prop :=
  match d with
  | ([], ASet n _) | ([], ADel n) => n <> i
  | (n :: _, x) => n = i -> reading x = true
  | _ => True
  end.

Section Follows.
  Variable any : ops.
  Variable fs : list (fld * spec).
  Variables i j : nat.
  Variable tbl : list (text * spec).
  Let act_on := open_through any fs i j tbl.
  Let after_all := open_after any fs i j tbl.

  (* follows_from of ContHistSpec for such objects, s being the sequence they stand for;
     natives are promised or not *)
  Definition open_tracks (natives : bool) (q : trust) (s : spec) (t : tagging) (a : aval) (o : oobj) : Prop :=
    forall h, safe s h a -> Forall (spares i) h -> exists b, leads s h a b /\
      (forall p x, reading x = false -> spares i (p, x) -> (exists c, becomes p x s b c) -> snd (act_on p x (after_all h o)) = Ok RNone) /\
      forall p s' t' c, sits p s t b s' t' c ->
        (exists x, snd (act_on p ARead (after_all h o)) = Ok (RNat x) /\ (natives = true -> stores_below h = false -> shows s' c x)) /\
        (forall f, exists d, snd (act_on p (ADump f) (after_all h o)) = Ok (RDump d) /\
           (f = true \/ trusted s h q <> Lost -> len d < 2 ^ 1008 -> der s' t' c d)) /\
        match c with
        | AList l => snd (act_on p ALen (after_all h o)) = Ok (RLen (len l))
        | ADict l => snd (act_on p ALen (after_all h o)) = Ok (RLen (len l))
        | _ => True
        end /\
        (forall e l x, list_class s' e -> c = AList l -> past x (length l) -> snd (act_on p x (after_all h o)) = Err IndexError).
  Definition open_follows : trust -> spec -> tagging -> aval -> oobj -> Prop := open_tracks true.

  (* copies_from of CopySpec *)
  Variable c : pcls.
  Definition open_copies (q : trust) (s : spec) (t : tagging) (a : aval) (o : oobj) : Prop :=
    forall h, safe s h a -> Forall (spares i) h -> trusted s h q <> Lost -> exists b, leads s h a b /\ forall d, der s t b d ->
      (exists w e, open_copy any fs j tbl (after_all h o) = Ok w /\ sim s b e /\ open_tracks (unread s h) Clean s t e w) /\
      (forall p, taggable s p -> exists w e, open_retag any c fs j tbl p (after_all h o) = Ok w /\ sim s b e /\ open_tracks (unread s h) Clean s (stags s p) e w).
End Follows.
