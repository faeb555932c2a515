(* What structured values are and how they are encoded in DER (X.690 8.9-8.14, 10, 11),
   stated without reference to how the library computes them.  Schemas are the [spec]s of
   ContModel; values are complete [aval]s: every field of a sequence is listed, an absent
   one as ANone; a choice names its alternative; the value of Null is APrim NNone. *)
Require Import Verif.Base Verif.ParserSpec Verif.TagSpec Verif.Text Verif.PrimModel Verif.PrimSpec Verif.ContModel.
Require Import Sorting.Permutation Sorting.Sorted.

(* relations between lists of the same length, and some element of a list *)
Section Lists.
  Variables A B C : Type.
  Variable R1 : A -> Prop.
  Variable R2 : A -> B -> Prop.
  Variable R3 : A -> B -> C -> Prop.
  Fixpoint all1 (l : list A) : Prop := match l with [] => True | x :: l' => R1 x /\ all1 l' end.
  Fixpoint some (l : list A) : Prop := match l with [] => False | x :: l' => R1 x \/ some l' end.
  Fixpoint all2 (l : list A) (m : list B) : Prop :=
    match l, m with
    | [], [] => True
    | x :: l', y :: m' => R2 x y /\ all2 l' m'
    | _, _ => False
    end.
  Fixpoint all3 (l : list A) (m : list B) (n : list C) : Prop :=
    match l, m, n with
    | [], [], [] => True
    | x :: l', y :: m', z :: n' => R3 x y z /\ all3 l' m' n'
    | _, _, _ => False
    end.
  (* the element at a position *)
  Fixpoint at_nth (l : list A) (k : nat) : Prop :=
    match l, k with
    | x :: _, O => R1 x
    | _ :: l', S k' => at_nth l' k'
    | [], _ => False
    end.
End Lists.
Arguments all1 {A}. Arguments some {A}. Arguments all2 {A B}. Arguments all3 {A B C}. Arguments at_nth {A}.

(* the tags of a class under field params *)
Definition tags_of (c : pcls) (p : params) : tagging :=
  match p_explicit p, p_implicit p with
  | [], Some (cl, tg) => Tagging cl tg true (k_explicit c)
  | ex, _ => Tagging (k_class c) (k_tag c) false (k_explicit c ++ ex)
  end.
Definition stags (s : spec) (p : params) : tagging :=
  match s with
  | SPrim _ c | SSeq c _ | SSet c _ | SSeqOf c _ | SSetOf c _ => tags_of c p
  | SChoice ex _ => Tagging 0 0 false (ex ++ p_explicit p)
  end.
Definition ftags (f : fld * spec) : tagging := stags (snd f) (f_params (fst f)).
Definition fname (f : fld * spec) : text := f_name (fst f).
Definition fpres (f : fld * spec) : presence := f_pres (fst f).
Definition is_choice (s : spec) : bool := match s with SChoice _ _ => true | _ => false end.

(* a constructed encoding in its explicit wrappers *)
Definition der_constructed (t : tagging) (x d : bytes) : Prop :=
  exists inner, der_tlv (t_class t) 1 (t_tag t) x inner /\ der_wrapped (t_explicit t) inner d.

(* X.690 11.6: order of byte strings *)
Fixpoint bytes_le (a b : bytes) : Prop :=
  match a, b with
  | [], _ => True
  | _ :: _, [] => False
  | x :: a', y :: b' => x < y \/ (x = y /\ bytes_le a' b')
  end.

Definition tags_valid (l : list (Z * Z)) : Prop := Forall (fun ct => 0 <= fst ct <= 3 /\ 0 <= snd ct) l.
(* params of a tagged field *)
Definition params_ok (p : params) : Prop :=
  p_no_explicit p = false /\ tags_valid (p_explicit p) /\ (length (p_explicit p) <= 1)%nat /\
  match p_implicit p with
  | Some (c, t) => 0 <= c <= 3 /\ 0 <= t /\ p_explicit p = []
  | None => True
  end.
(* a class with explicit tags of its own cannot be tagged implicitly, nor can a choice;
   of the explicit tags of a choice there is at most one *)
Definition taggable (s : spec) (p : params) : Prop :=
  params_ok p /\ (p_implicit p = None \/ (class_explicit s = [] /\ is_choice s = false)) /\
  (is_choice s = true -> (length (class_explicit s ++ p_explicit p) <= 1)%nat).

(* ---- what an argument of a constructor stands for ---- *)
(* [i] given where a value of the class is expected: a plain value, or an object of the
   class, made under any tagging *)
Definition given (s : spec) (direct : bool) (D : aval -> aval -> Prop) (i a : aval) : Prop :=
  match i with
  | AObj p b => taggable s p /\ D b a
  | _ => direct = true /\ D i a
  end.

Fixpoint denotes (s : spec) (i a : aval) {struct s} : Prop :=
  match s with
  | SPrim k c =>
      match i, a with
      | APrim v, APrim v' => v = v' /\ v <> NNone /\ holds k None v
      | ANone, APrim NNone => k = KNull
      | _, _ => False
      end
  | SSeq c fs =>
      match i, a with
      | ADict li, ADict la =>
          li <> [] /\ (forall n x, In (n, x) li -> In n (map fname fs)) /\
          all2 (fun f na =>
                  fst na = fname f /\
                  match dict_get li (fname f), fpres f with
                  | None, Optional | Some ANone, Optional => snd na = ANone
                  | None, Default d | Some ANone, Default d => denotes (snd f) d (snd na)
                  | None, Required => False
                  | Some x, _ => given (snd f) true (denotes (snd f)) x (snd na)
                  end) fs la
      | _, _ => False
      end
  | SSeqOf c s' | SSetOf c s' =>
      match i, a with
      | AList li, AList la => all2 (given s' (negb (is_choice s')) (denotes s')) li la
      | _, _ => False
      end
  | SSet c fs => False
  | SChoice ex alts =>
      match i, a with
      | AChoice n b, AChoice n' a =>
          n = n' /\ some (fun f => fname f = n /\ given (snd f) true (denotes (snd f)) b a) alts
      | _, _ => False
      end
  end.

(* ---- DER ---- *)
Fixpoint der (s : spec) (t : tagging) (a : aval) (d : bytes) {struct s} : Prop :=
  match s, a with
  | SPrim k c, APrim v => holds k None v /\ exists x, der_value k None v x /\ der_object t x d
  | SSeq c fs, ADict la =>
      exists ys, der_constructed t (concat ys) d /\
      all3 (fun f na y =>
              fst na = fname f /\
              match fpres f, snd na with
              | Optional, ANone => y = []
              | Default d, a =>
                  exists w, der (snd f) (ftags f) a w /\
                    let is_default := exists ad, denotes (snd f) d ad /\ der (snd f) (ftags f) ad w in
                    (is_default /\ y = []) \/ (~ is_default /\ y = w)
              | _, a => der (snd f) (ftags f) a y
              end) fs la ys
  | SSeqOf c s', AList l =>
      exists ds, all2 (der s' (stags s' no_params)) l ds /\ der_constructed t (concat ds) d
  | SSetOf c s', AList l =>
      exists ds es, all2 (der s' (stags s' no_params)) l ds /\ Permutation ds es /\
        StronglySorted bytes_le es /\ der_constructed t (concat es) d
  | SChoice ex alts, AChoice n a =>
      exists w, der_wrapped (t_explicit t) w d /\
        some (fun f => fname f = n /\ der (snd f) (ftags f) a w) alts
  | _, _ => False
  end.
(* the value has an encoding *)
Definition fits (s : spec) (a : aval) : Prop := exists t d, tagging_ok t /\ der s t a d.

(* ---- natives ---- *)
(* x is the native form of the value a: choices are replaced by the native form of what
   was chosen, absent fields and Null are None *)
Fixpoint shows (s : spec) (a x : aval) {struct s} : Prop :=
  match s, a with
  | SPrim k c, APrim v => exists v', same_value k v v' /\ x = native_of v'
  | SSeq c fs, ADict la =>
      exists lx, x = ADict lx /\
      all3 (fun f na nx =>
              fst na = fname f /\ fst nx = fname f /\
              match fpres f, snd na with
              | Optional, ANone => snd nx = ANone
              | _, a => shows (snd f) a (snd nx)
              end) fs la lx
  | SSeqOf c s', AList l | SSetOf c s', AList l => exists lx, x = AList lx /\ all2 (shows s') l lx
  | SChoice ex alts, AChoice n a => some (fun f => fname f = n /\ shows (snd f) a x) alts
  | _, _ => False
  end.

(* two values with the same meaning: equal but for the order of the elements of a SetOf,
   of the names of a bit string, and the time zone a time is given in *)
Fixpoint sim (s : spec) (a b : aval) {struct s} : Prop :=
  match s, a, b with
  | SPrim k c, APrim v, APrim v' => holds k None v /\ holds k None v' /\ same_value k v v'
  | SSeq c fs, ADict la, ADict lb =>
      all3 (fun f na nb =>
              fst na = fname f /\ fst nb = fname f /\
              match fpres f, snd na with
              | Optional, ANone => snd nb = ANone
              | _, a => sim (snd f) a (snd nb)
              end) fs la lb
  | SSeqOf c s', AList l, AList l' => all2 (sim s') l l'
  | SSetOf c s', AList l, AList l' => exists m, Permutation l m /\ all2 (sim s') m l'
  | SChoice ex alts, AChoice n a, AChoice n' b =>
      n = n' /\ some (fun f => fname f = n /\ sim (snd f) a b) alts
  | _, _, _ => False
  end.

(* ---- schemas that can be decoded ---- *)
(* the outermost tags an encoding of the class under these params can start with *)
Fixpoint outer_ids (s : spec) (p : params) {struct s} : list (Z * Z) :=
  match s with
  | SChoice ex alts =>
      match rev (ex ++ p_explicit p) with
      | [] => flat_map (fun fs => outer_ids (snd fs) (f_params (fst fs))) alts
      | x :: _ => [x]
      end
  | s' => let t := stags s' p in
          match rev (t_explicit t) with
          | [] => [(t_class t, t_tag t)]
          | x :: _ => [x]
          end
  end.
Definition ids (f : fld * spec) : list (Z * Z) := outer_ids (snd f) (f_params (fst f)).
Definition disjoint {A} (a b : list A) : Prop := forall x, In x a -> In x b -> False.

(* the fields that can come next when the ones before are absent *)
Fixpoint reach (fs : list (fld * spec)) : list (fld * spec) :=
  match fs with
  | [] => []
  | f :: r => match fpres f with Required => [f] | _ => f :: reach r end
  end.
Fixpoint distinct (fs : list (fld * spec)) : Prop :=
  match fs with
  | [] => True
  | f :: r => (fpres f <> Required -> Forall (fun g => disjoint (ids f) (ids g)) (reach r)) /\ distinct r
  end.

Definition cls_ok (c : pcls) : Prop := 0 <= k_class c <= 3 /\ 0 <= k_tag c /\ tags_valid (k_explicit c).

(* a default of a sequence type without explicit tag must not give values to optional
   fields: they would show up in values that lack them (see C25) *)
Definition default_ok (f : fld) (s : spec) (d : aval) : Prop :=
  match s, d with
  | SSeq _ fs, ADict l =>
      p_explicit (f_params f) <> [] \/
      (forall n x g, In (n, x) l -> In g fs -> fname g = n -> fpres g <> Optional)
  | SChoice _ _, _ => False
  | _, _ => True
  end.

Fixpoint wf (s : spec) : Prop :=
  match s with
  | SPrim k c => kind_ok k /\ cls_ok c
  | SSeq c fs =>
      cls_ok c /\ fs <> [] /\ NoDup (map fname fs) /\ distinct fs /\
      all1 (fun f =>
              wf (snd f) /\ taggable (snd f) (f_params (fst f)) /\
              match fpres f with
              | Required => True
              | Optional => class_explicit (snd f) = []
              | Default d => class_explicit (snd f) = [] /\ default_ok (fst f) (snd f) d /\
                             exists ad w, denotes (snd f) d ad /\ der (snd f) (ftags f) ad w /\ len w < 2 ^ 1008
              end) fs
  | SSet c fs => False
  | SSeqOf c s' | SSetOf c s' => cls_ok c /\ wf s' /\ taggable s' no_params /\ class_explicit s' = []
  | SChoice ex alts =>
      tags_valid ex /\ NoDup (map fname alts) /\ NoDup (flat_map ids alts) /\
      all1 (fun f => wf (snd f) /\ taggable (snd f) (f_params (fst f)) /\
                     is_choice (snd f) = false /\ class_explicit (snd f) = []) alts
  end.
