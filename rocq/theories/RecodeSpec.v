(* When an encoding in DER is of the value that an encoding in BER stands for: relation
   [recoded], between a native Python value, a BER encoding of it and the DER encoding of it,
   stated without reference to how the library encodes.  It extends ReadSpec.stands.

   What is in an Any, or in a Sequence without fields, has to be in DER already, as it has no type
   to tell its DER encoding. *)
Require Import Verif.Base Verif.ParserModel Verif.ParserSpec Verif.ParserProofs Verif.Text Verif.TagSpec Verif.OidSpec
  Verif.PrimModel Verif.PrimSpec Verif.ContModel Verif.ContSpec Verif.BerSpec Verif.GenModel Verif.GenSpec Verif.ReadModel Verif.ReadSpec.
Require Import Sorting.Permutation Sorting.Sorted.

(* of several identifiers with one name, the one listed last stands for it *)
Definition preferred (m : list (text * text)) (d s : text) : Prop := exists pre post, m = pre ++ (d, s) :: post /\ ~ In s (map snd post).
Definition der_contents (k : kind) (v : native) (x : bytes) : Prop :=
  match k, v with
  | KOid m, NText s => exists arcs, legal_oid arcs /\ oid_octets (subidentifiers arcs) x /\
      (preferred m (dotted_text arcs) s \/ (s = dotted_text arcs /\ ~ In s (map fst m) /\ ~ In s (map snd m)))
  | _, _ => der_value k None v x
  end.

Section Recoded.
Variable env : ref -> option rclass.
Variable pad : bool.
(* classes that write octets of their own: what they write for what they read *)
Variable redo : ref -> option (bytes -> res bytes).
(* the DER encoding of the default of a field *)
Variable default_of : rfield -> option bytes.
(* types whose encodings have to be in DER already *)
Variable untouched : ref -> bool.

Section One.
  Variable rc : ref -> params -> option ref -> aval -> info -> bytes -> Prop.

  Definition element_recoded (f : rfield) (pk : pick) (a : aval) (i : info) (w : bytes) : Prop :=
    match pk, g_class f with
    | Keep, Some r => rc r (g_params f) None a i w
    | As r, _ => rc r (g_params f) None a i w
    | Inside r, Some k => rc k (g_params f) (Some r) a i w
    | _, None => False
    end.
  (* y in BER, z in DER: the default is not written *)
  Definition field_recoded (ft : rfield * pick) (na : text * aval) (yz : bytes * bytes) : Prop :=
    let f := fst ft in
    fst na = g_name f /\
    ((yz = ([], []) /\ match g_pres f with GReq => False | GOpt => snd na = ANone | GDef d => snd na = d end) \/
     exists i w, ber_info max_budget i /\ fst yz = encoding_of i /\ element_recoded f (snd ft) (snd na) i w /\
       ((default_of f = Some w /\ snd yz = []) \/ (default_of f <> Some w /\ snd yz = w))).
  Definition fields_recoded (fs : list rfield) (sel : option selector) (a : aval) (x z : bytes) : Prop :=
    exists l ts yzs, a = ADict l /\ x = concat (map fst yzs) /\ z = concat (map snd yzs) /\ field_types sel fs l ts /\ all3 field_recoded ts l yzs.
  (* the elements of a set are in ascending order in DER *)
  Definition items_recoded (set : bool) (item : option ref) (a : aval) (x z : bytes) : Prop :=
    exists l yzs zs, a = AList l /\ x = concat (map fst yzs) /\ z = concat zs /\
      (if set then Permutation (map snd yzs) zs /\ StronglySorted bytes_le zs else zs = map snd yzs) /\
      all2 (fun b yz => exists i, ber_info max_budget i /\ fst yz = encoding_of i /\
              match item with
              | Some r => rc r no_params None b i (snd yz)
              | None => snd yz = fst yz /\ exists u, uder pad u (snd yz) /\ b = open_value u
              end) l yzs.
  Definition alternative_recoded (alts : list rfield) (fix_at : option nat) (a : aval) (w : bytes) (i : info) : Prop :=
    i_trailer i = [] /\ exists n f, nth_error alts n = Some f /\ fix_at <> Some n /\ element_recoded f Keep a i w.
End One.

Fixpoint recoded (n : nat) (r : ref) (p : params) (inside : option ref) (a : aval) (i : info) (d : bytes) : Prop :=
  match n with
  | O => False
  | S m =>
      match env r with
      | None => False
      | Some k =>
          let c := r_cls k in
          let t := tags_of c p in
          let piece (bits : bool) (x : bytes) := (if bits then [0] else []) ++ x in
          let inner := within (rev (t_explicit t)) in
          exists b, r_out k b = Ok a /\
            match r_def k, inside with
            | DPrim kd, None => exists v x, ber_of (SPrim kd c) t (APrim v) i /\ b = prim_value v /\ der_object t x d /\
                match redo r with
                | None => der_contents kd v x
                | Some f => match v with NBytes y => f y = Ok x | NNone => f [] = Ok x | _ => False end
                end
            | DAny, None => exists u w, uder pad u w /\ der_wrapped (t_explicit t) w d /\ d = encoding_of i /\ b = open_value u
            | DParse bits, None => exists x, inner (string_of bits c t x) i /\ der_object t (piece bits x) d /\ b = APrim (NBytes x)
            | DParse bits, Some r' => exists j w, ber_info max_budget j /\ recoded m r' no_params None b j w /\
                inner (string_of bits c t (encoding_of j)) i /\ der_object t (piece bits w) d
            | DSeq fs sel, None => exists z, inner (ber_constructed t (fun x => fields_recoded (recoded m) fs sel b x z)) i /\ der_constructed t z d /\
                (untouched r = true -> d = encoding_of i)
            | DOf item, None => exists z, inner (ber_constructed t (fun x => items_recoded (recoded m) (k_tag c =? 17) item b x z)) i /\ der_constructed t z d
            | DChoice alts fix_at, None => exists w, inner (alternative_recoded (recoded m) alts fix_at b w) i /\ der_wrapped (t_explicit t) w d
            | _, Some _ => False
            end
      end
  end.
End Recoded.
