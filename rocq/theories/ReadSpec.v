(* What the encodings of structured values say, for types that refer to one another and where
   object identifiers name the type of a field: relation [stands], between an encoding in BER
   and the native Python value for it, stated without reference to how the library reads.
   BerSpec.v says what encodings of primitive types are, GenSpec.v what those of unknown type are. *)
Require Import Verif.Base Verif.ParserModel Verif.ParserSpec Verif.ParserProofs Verif.Text Verif.TagSpec Verif.ChunkSpec Verif.ChunkProofs
  Verif.PrimModel Verif.PrimSpec Verif.ContModel Verif.ContSpec Verif.BerSpec Verif.GenModel Verif.GenSpec Verif.ReadModel.

(* two natives are alike: the same but for the order of sets and the time zone of times *)
Fixpoint alike (a b : aval) {struct a} : Prop :=
  match a, b with
  | ANone, ANone => True
  | APrim v, APrim w => exists k, same_value k v w
  | ADict l, ADict m => all2 (fun x y => fst x = fst y /\ alike (snd x) (snd y)) l m
  | AList l, AList m => all2 alike l m
  | _, _ => False
  end.

(* None for the value of Null *)
Definition prim_value (v : native) : aval := match v with NNone => ANone | _ => APrim v end.
(* values of unknown type: sequences are dicts with the positions as keys *)
Fixpoint open_value (u : uval) : aval :=
  match u with
  | USimple _ _ v => prim_value v
  | USeq l => ADict ((fix go n l := match l with [] => [] | u :: r => (dec n, open_value u) :: go (n + 1) r end) 0 l)
  end.

(* octets, given as a string of octets or a string of bits, in one piece or in segments *)
Definition string_of (bits : bool) (c : pcls) (t : tagging) (b : bytes) (i : info) : Prop :=
  let piece x := (if bits then [0] else []) ++ x in
  i_class i = t_class t /\ i_tag i = t_tag t /\
  ((i_method i = 0 /\ i_contents i = piece b) \/
   (i_method i = 1 /\ i_trailer i = [0; 0] /\
    exists n xs, segments (k_class c) (own_tag c) (negb bits) n (i_contents i) (map piece xs) /\ (n < 10)%nat /\
      (bits = true -> xs <> []) /\ b = concat xs)).

(* the value a path leads to *)
Fixpoint leads (a : aval) (path : list text) (b : aval) : Prop :=
  match path, a with
  | [], _ => a = b
  | n :: r, ADict l => exists x, dict_get l n = Some x /\ leads x r b
  | _, _ => False
  end.
(* the type that the value of another field names *)
Definition names_type (s : selector) (a : aval) (pk : pick) : Prop :=
  let listed t := exists x, In (t, x) (s_table s) in
  match a with
  | APrim (NText t) => In (t, pk) (s_table s) \/ (~ listed t /\ s_else s = Some pk)
  | _ => s_else s = Some pk
  end.
(* fields with their types; pk is the type at position n *)
Fixpoint typed (n : nat) (pk : pick) (fs : list rfield) : list (rfield * pick) :=
  match fs with
  | [] => []
  | f :: r => match n with O => (f, pk) :: map (fun g => (g, Keep)) r | S m => (f, Keep) :: typed m pk r end
  end.
Definition field_types (sel : option selector) (fs : list rfield) (l : list (text * aval)) (ts : list (rfield * pick)) : Prop :=
  match sel with
  | None => ts = map (fun g => (g, Keep)) fs
  | Some s => exists a pk, leads (ADict l) (s_key s) a /\ names_type s a pk /\ ts = typed (s_field s) pk fs
  end.

Section Stands.
Variable env : ref -> option rclass.
Variable pad : bool.

Section One.
  Variable st : ref -> params -> option ref -> info -> aval -> Prop.

  (* an element of a field *)
  Definition element_of (f : rfield) (pk : pick) (i : info) (a : aval) : Prop :=
    match pk, g_class f with
    | Keep, Some r => st r (g_params f) None i a
    | As r, _ => st r (g_params f) None i a
    | Inside r, Some k => st k (g_params f) (Some r) i a
    | _, None => False
    end.
  Definition field_stands (ft : rfield * pick) (na : text * aval) (y : bytes) : Prop :=
    let f := fst ft in
    fst na = g_name f /\
    ((y = [] /\ match g_pres f with GReq => False | GOpt => snd na = ANone | GDef d => snd na = d end) \/
     one_of (fun i => element_of f (snd ft) i (snd na)) y).
  Definition fields_stand (fs : list rfield) (sel : option selector) (a : aval) (x : bytes) : Prop :=
    exists l ts ys, a = ADict l /\ x = concat ys /\ field_types sel fs l ts /\ all3 field_stands ts l ys.
  Definition items_stand (item : option ref) (a : aval) (x : bytes) : Prop :=
    exists l ys, a = AList l /\ x = concat ys /\
      all2 (fun b y => one_of (fun i => match item with
                                        | Some r => st r no_params None i b
                                        | None => exists u, uber pad u i /\ b = open_value u
                                        end) y) l ys.
  (* a choice cannot hold an encoding of indefinite length; nothing is said of alternative fix_at *)
  Definition alternative_stands (alts : list rfield) (fix_at : option nat) (a : aval) (i : info) : Prop :=
    i_trailer i = [] /\ exists n f, nth_error alts n = Some f /\ fix_at <> Some n /\ element_of f Keep i a.
End One.

(* the encoding i, under this class and tagging, stands for a; the number bounds the nesting of
   types.  inside: the type of the value encoded in the octets *)
Fixpoint stands (n : nat) (r : ref) (p : params) (inside : option ref) (i : info) (a : aval) : Prop :=
  match n with
  | O => False
  | S m =>
      match env r with
      | None => False
      | Some k =>
          let c := r_cls k in
          let t := tags_of c p in
          exists b, r_out k b = Ok a /\
            match r_def k, inside with
            | DPrim kd, None => exists v, ber_of (SPrim kd c) t (APrim v) i /\ b = prim_value v
            | DAny, None => within (rev (t_explicit t)) (fun j => exists u, uber pad u j /\ b = open_value u) i
            | DParse bits, None => exists x, within (rev (t_explicit t)) (string_of bits c t x) i /\ b = APrim (NBytes x)
            | DParse bits, Some r' => exists j, ber_info max_budget j /\ stands m r' no_params None j b /\
                within (rev (t_explicit t)) (string_of bits c t (encoding_of j)) i
            | DSeq fs sel, None => within (rev (t_explicit t)) (ber_constructed t (fields_stand (stands m) fs sel b)) i
            | DOf item, None => within (rev (t_explicit t)) (ber_constructed t (items_stand (stands m) item b)) i
            | DChoice alts fix_at, None => within (rev (t_explicit t)) (alternative_stands (stands m) alts fix_at b) i
            | _, Some _ => False
            end
      end
  end.
End Stands.
