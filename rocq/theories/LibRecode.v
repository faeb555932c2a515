(* The classes of the library as parameters of RecodeModel: what dump(force=True) writes of what was read.

   The octets that DNSName, URI, EmailAddress and IPAddress write for their text
   (x509.py:95-121, 126-145, 210-237, 306-362) are given by a parameter, as a function of the octets read. *)
Require Import Verif.Base Verif.Text Verif.PrimModel Verif.ContModel Verif.GenModel Verif.ReadModel Verif.LibModel Verif.LibRead Verif.RecodeModel.
Require Coq.Strings.String.
Import Coq.Strings.String.StringSyntax.
Local Open Scope string_scope.

Section Texts.
  Variable retext : string -> bytes -> res bytes.
  Definition lib_redo (r : ref) : option (bytes -> res bytes) :=
    match r with
    | CName n =>
        (* algos.py:1317-1324: the class sets up no _reverse_map, which core.py:3109 looks into *)
        if is_a n "algos.AnyAlgorithmId" then Some (fun _ => Err TypeError)
        else match out_of n with
             | OText k =>
                 (* x509.py:459-480 *)
                 Some (if String.eqb k "x509.NotReallyTeletexString" then fun b => do t <- teletex_name_native b; teletex_name_contents t
                       else retext k)
             | _ => None
             end
    | COf _ _ => None
    end.
End Texts.

(* 4146 *)
Definition lib_untouched (r : ref) : bool := match r with CName n => String.eqb n "core.Sequence" | COf _ _ => false end.

(* dump() of the object made from a default (3698-3700), from the native of it: the fields of a dict in their order, the class
   of 'parameters' chosen by 'algorithm'; NULL where algos.py:95-104 puts it *)
Fixpoint default_octets (fuel : nat) (r : ref) (p : params) (a : aval) : option bytes :=
  match fuel with
  | O => None
  | S n =>
      match lookup false r, a with
      | Some (c, DPrim k, _), APrim v =>
          match make k c p v with Ok o => match snd (dump k c o false) with Ok d => Some d | Err _ => None end | Err _ => None end
      | Some (c, DSeq fs sel, _), ADict l =>
          let class (j : nat) (f : rfield) : option ref :=
            match sel with
            | Some s =>
                if Nat.eqb (s_field s) j then
                  match (match s_key s with [key] => dict_get l key | _ => None end) with
                  | Some (APrim (NText t)) => match table_get (s_table s) t with Some (As r') => Some r' | _ => g_class f end
                  | _ => g_class f
                  end
                else g_class f
            | None => g_class f
            end in
          let field (j : nat) (f : rfield) : option bytes :=
            match dict_get l (g_name f), class j f with
            | Some ANone, Some (CName "core.Null") => Some [5; 0]
            | Some ANone, _ => Some []
            | Some x, Some r' => default_octets n r' (g_params f) x
            | _, _ => None
            end in
          let fix all (j : nat) (fs : list rfield) : option bytes :=
            match fs with
            | [] => Some []
            | f :: fr => match field j f, all (S j) fr with Some x, Some y => Some (x ++ y)%list | _, _ => None end
            end in
          match all 0%nat fs, init_tagging c p with
          | Some x, Ok t => Some (full_header t 1 x ++ x)%list
          | _, _ => None
          end
      | _, _ => None
      end
  end.
Definition lib_default (f : rfield) : option bytes :=
  match g_pres f, g_class f with
  | GDef a, Some r => default_octets 4 r (g_params f) a
  | _, _ => None
  end.

(* cls.load(data, strict).dump(force=True) *)
Definition lib_recode (texts : string -> bytes -> res (option text)) (retext : string -> bytes -> res bytes) (pad : bool) :=
  recode (lib_env texts pad) pad (lib_redo retext) lib_default lib_untouched.
