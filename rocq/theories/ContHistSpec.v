(* What a program's operations on a structured object mean for the value it stands for,
   without reference to how the library stores it; and for which sequences of operations
   the stored contents can be relied upon. *)
Require Import Verif.Base Verif.TagSpec Verif.PrimModel Verif.PrimSpec Verif.ContModel Verif.ContSpec Verif.ContPath.

Definition reading (x : act) : bool :=
  match x with ARead | ADump _ | AContents | ALen | AGet _ => true | _ => false end.

(* b is what the field holds after x was assigned to it, or after it was cleared *)
Definition cleared (f : fld * spec) (b : aval) : Prop :=
  match fpres f with
  | Required => False
  | Optional => b = ANone
  | Default d => exists a, denotes (snd f) d a /\ sim (snd f) a b
  end.
Definition accepted (s : spec) (direct : bool) (x b : aval) : Prop :=
  exists a, given s direct (denotes s) x a /\ fits s a /\ sim s a b.
Definition assigned (f : fld * spec) (x b : aval) : Prop :=
  match x, fpres f with
  | ANone, Required => accepted (snd f) true x b
  | ANone, _ => cleared f b
  | _, _ => accepted (snd f) true x b
  end.

Definition list_class (s : spec) (s' : spec) : Prop := exists c, s = SSeqOf c s' \/ s = SSetOf c s'.

(* a successful change of the object itself *)
Inductive changes : spec -> act -> aval -> aval -> Prop :=
  | C_set c fs f x l n b b' r : nth_error fs (length l) = Some f -> assigned f x b' ->
      changes (SSeq c fs) (ASet (length l) x) (ADict (l ++ (n, b) :: r)) (ADict (l ++ (n, b') :: r))
  | C_del c fs f l n b b' r : nth_error fs (length l) = Some f -> cleared f b' ->
      changes (SSeq c fs) (ADel (length l)) (ADict (l ++ (n, b) :: r)) (ADict (l ++ (n, b') :: r))
  | C_elt s s' x l b b' r : list_class s s' -> accepted s' (negb (is_choice s')) x b' ->
      changes s (ASet (length l) x) (AList (l ++ b :: r)) (AList (l ++ b' :: r))
  | C_next s s' x l b' : list_class s s' -> accepted s' (negb (is_choice s')) x b' ->
      changes s (ASet (length l) x) (AList l) (AList (l ++ [b']))
  | C_append s s' x l b' : list_class s s' -> accepted s' (negb (is_choice s')) x b' ->
      changes s (AAppend x) (AList l) (AList (l ++ [b']))
  | C_remove s s' l b r : list_class s s' ->
      changes s (ADel (length l)) (AList (l ++ b :: r)) (AList (l ++ r))
  | C_store k c v u : holds k None v -> changes (SPrim k c) (AStore v) (APrim u) (APrim v).

(* the value at a path, its class and tags *)
Inductive sits : list nat -> spec -> tagging -> aval -> spec -> tagging -> aval -> Prop :=
  | S_here s t a : sits [] s t a s t a
  | S_field c fs t f p l n b r s' t' b' : nth_error fs (length l) = Some f -> b <> ANone -> sits p (snd f) (ftags f) b s' t' b' ->
      sits (length l :: p) (SSeq c fs) t (ADict (l ++ (n, b) :: r)) s' t' b'
  | S_elt s t e p l b r s' t' b' : list_class s e -> sits p e (stags e no_params) b s' t' b' ->
      sits (length l :: p) s t (AList (l ++ b :: r)) s' t' b'
  | S_alt ex alts t f i p n b s' t' b' : In f alts -> fname f = n -> sits p (snd f) (ftags f) b s' t' b' ->
      sits (i :: p) (SChoice ex alts) t (AChoice n b) s' t' b'.

(* one operation: what the value can be afterwards *)
Inductive becomes : list nat -> act -> spec -> aval -> aval -> Prop :=
  | B_read p x s a : reading x = true -> becomes p x s a a
  | B_here s x a a' : changes s x a a' -> becomes [] x s a a'
  | B_field c fs f p x l n b b' r : nth_error fs (length l) = Some f -> reading x = false -> becomes p x (snd f) b b' ->
      becomes (length l :: p) x (SSeq c fs) (ADict (l ++ (n, b) :: r)) (ADict (l ++ (n, b') :: r))
  | B_elt s e p x l b b' r : list_class s e -> reading x = false -> becomes p x e b b' ->
      becomes (length l :: p) x s (AList (l ++ b :: r)) (AList (l ++ b' :: r))
  | B_alt ex alts f i p x n b b' : In f alts -> fname f = n -> reading x = false -> becomes p x (snd f) b b' ->
      becomes (i :: p) x (SChoice ex alts) (AChoice n b) (AChoice n b').

(* several operations; [safe]: each of them is possible, whatever the ones before did *)
Inductive leads (s : spec) : list deed -> aval -> aval -> Prop :=
  | L_done a : leads s [] a a
  | L_step p x h a b c : becomes p x s a b -> leads s h b c -> leads s ((p, x) :: h) a c.
Fixpoint safe (s : spec) (h : list deed) (a : aval) : Prop :=
  match h with
  | [] => True
  | (p, x) :: r => (exists b, becomes p x s a b) /\ forall b, becomes p x s a b -> safe s r b
  end.

(* ---- when dump() without force can be relied upon ---- *)
(* a change made on the path is noticed by the object: choices do not pass it on, nor do
   primitive objects tell of changes *)
Fixpoint visible (s : spec) (p : list nat) : bool :=
  match p with
  | [] => true
  | i :: r =>
      match s with
      | SSeq _ fs => match nth_error fs i with Some f => visible (snd f) r | None => true end
      | SSeqOf _ s' | SSetOf _ s' => visible s' r
      | SChoice _ _ => false
      | _ => true
      end
  end.
(* Lost: the object may hand out outdated contents.  Pending: inner objects were changed
   and not yet encoded.  Clean: anything can be done next. *)
Inductive trust := Lost | Pending | Clean.
Definition store_below (d : deed) : bool := match d with (_ :: _, AStore _) => true | _ => false end.
Definition next (s : spec) (d : deed) (q : trust) : trust :=
  let '(p, x) := d in
  match p, x with
  | [], ADump true => Clean
  | [], ADump false | [], ARead => match q with Lost => Lost | _ => Clean end
  | [], _ => q
  | _ :: _, _ =>
      if reading x then match q with Clean => Clean | _ => Lost end
      else if store_below d then Lost
      else if visible s p then match q with Lost => Lost | _ => Pending end else Lost
  end.
Fixpoint trusted (s : spec) (h : list deed) (q : trust) : trust :=
  match h with [] => q | d :: r => trusted s r (next s d q) end.
Definition stores_below (h : list deed) : bool := existsb store_below h.

(* an access by index that a list of this length does not have *)
Definition past (x : act) (n : nat) : Prop :=
  match x with AGet i | ADel i => (n <= i)%nat | _ => False end.

(* the object v with tags t follows the value a: whatever the program does next, if it can
   be done, is done, and what is read anywhere afterwards agrees with the value it leads
   to.  Natives are only right without set() of primitives inside the object, and dump()
   without force only as long as it can be relied upon; q says whether it can be at the
   start, which after loading from an encoding other than DER it cannot. *)
Definition follows_from (q : trust) (s : spec) (t : tagging) (a : aval) (v : value) : Prop :=
  forall h, safe s h a -> exists b, leads s h a b /\
    (forall p x, reading x = false -> (exists c, becomes p x s b c) -> snd (through p x s (after s h v)) = Ok RNone) /\
    forall p s' t' c, sits p s t b s' t' c ->
      (exists x, snd (through p ARead s (after s h v)) = Ok (RNat x) /\ (stores_below h = false -> shows s' c x)) /\
      (forall f, exists d, snd (through p (ADump f) s (after s h v)) = Ok (RDump d) /\
         (f = true \/ trusted s h q <> Lost -> len d < 2 ^ 1008 -> der s' t' c d)) /\
      match c with
      | AList l => snd (through p ALen s (after s h v)) = Ok (RLen (len l))
      | ADict l => snd (through p ALen s (after s h v)) = Ok (RLen (len l))
      | _ => True
      end /\
      (forall e l x, list_class s' e -> c = AList l -> past x (length l) -> snd (through p x s (after s h v)) = Err IndexError).
Definition follows : spec -> tagging -> aval -> value -> Prop := follows_from Clean.

(* ---- a Python list of constructor arguments ---- *)
(* what an operation does to it; None: IndexError, the list stays as it is *)
Definition plain (x : act) (l : list aval) : option (list aval) :=
  match x with
  | ASet i a =>
      if Nat.ltb i (length l) then Some (firstn i l ++ a :: skipn (S i) l)
      else if Nat.eqb i (length l) then Some (l ++ [a]) else None
  | ADel i => if Nat.ltb i (length l) then Some (firstn i l ++ skipn (S i) l) else None
  | AGet i => if Nat.ltb i (length l) then Some l else None
  | AAppend a => Some (l ++ [a])
  | _ => Some l
  end.
Fixpoint plains (h : list deed) (l : list aval) : list aval :=
  match h with
  | [] => l
  | ([], x) :: r => plains r (match plain x l with Some l' => l' | None => l end)
  | _ :: r => plains r l
  end.
(* an argument that can become an element *)
Definition welcome (s : spec) (x : aval) : Prop := exists a, given s (negb (is_choice s)) (denotes s) x a /\ fits s a.
(* the operations of a list itself, with such arguments, and reads of anything in it *)
Definition list_deed (s : spec) (d : deed) : Prop :=
  match d with
  | ([], ASet _ x) | ([], AAppend x) => welcome s x
  | ([], AStore _) => False
  | ([], _) => True
  | (_ :: _, x) => reading x = true
  end.
