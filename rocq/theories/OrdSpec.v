(* Dictionaries that remember the order in which their keys were added, as lists of items. *)
Require Import Verif.Base Verif.OrdModel.

Section Spec.
  Variables K V : Type.
  Variable eqb : K -> K -> bool.

  Definition is (k : K) (x : K * V) : bool := eqb (fst x) k.
  Definition look (l : list (K * V)) (k : K) : option V := option_map snd (find (is k) l).
  (* a key that is there keeps its place, a new one comes last *)
  Definition put (l : list (K * V)) (k : K) (v : V) : list (K * V) :=
    if existsb (is k) l then map (fun x => if is k x then (fst x, v) else x) l else l ++ [(k, v)].
  Definition drop (l : list (K * V)) (k : K) : list (K * V) := filter (fun x => negb (is k x)) l.
  Definition puts (l : list (K * V)) (m : list (K * V)) : list (K * V) := fold_left (fun l x => put l (fst x) (snd x)) m l.

  Definition wanted (l : list (K * V)) (o : op K V) : list (K * V) * res (answer K V) :=
    match o with
    | Set_ k v => (put l k v, Ok Done)
    | Del k => match look l k with Some _ => (drop l k, Ok Done) | None => (l, Err KeyError) end
    | Clear => ([], Ok Done)
    | Update m => (puts l m, Ok Done)
    | Init m => (puts l m, Ok Done)
    | Pop k => match look l k with Some v => (drop l k, Ok (Value v)) | None => (l, Err KeyError) end
    | PopDefault k v => match look l k with Some w => (drop l k, Ok (Value w)) | None => (l, Ok (Value v)) end
    | SetDefault k v => match look l k with Some w => (l, Ok (Value w)) | None => (put l k v, Ok (Value v)) end
    | PopItem true => match rev l with (k, v) :: r => (rev r, Ok (Item k v)) | [] => (l, Err KeyError) end
    | PopItem false => match l with (k, v) :: r => (r, Ok (Item k v)) | [] => (l, Err KeyError) end
    end.
  Fixpoint wanted_run (l : list (K * V)) (os : list (op K V)) : list (K * V) * list (res (answer K V)) :=
    match os with
    | [] => (l, [])
    | o :: os => let '(l1, r) := wanted l o in let '(l2, rs) := wanted_run l1 os in (l2, r :: rs)
    end.
End Spec.
