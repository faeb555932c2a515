(* _set_extensions and the accessors built on it.  The same lines occur in seven classes:
   /repo/asn1crypto/x509.py:2202-2232 (Certificate), crl.py:177-207 (RevokedCertificate),
   crl.py:307-337 (CertificateList), ocsp.py:95-125 (Request), ocsp.py:227-257 (OCSPRequest),
   ocsp.py:449-479 (SingleResponse), ocsp.py:623-653 (OCSPResponse).

   The class is seen through the names of its attributes.  What the loop runs over is seen
   through what it reads: for every element the native form of extn_id, the native form of
   critical and the parsed extn_value; each of these may raise.  Reading the fields of the
   structure twice gives the same (C59). *)
Require Import Verif.Base Verif.Text.

Section Extn.
Variable V : Type.   (* parsed objects *)

Record extension := Ext {
  e_name : text;          (* extension['extn_id'].native *)
  e_critical : bool;      (* extension['critical'].native *)
  e_value : res V         (* extension['extn_value'].parsed *)
}.
(* self['tbs_certificate']['extensions'] and its elements; an absent optional field is a
   Void object, which iterates like an empty list (core.py:843) *)
Definition source := res (list (res extension)).

(* _processed_extensions, _critical_extensions (None before the first call) and the
   attributes set on the instance; those of the class are None *)
Record state := State { s_processed : bool; s_critical : option (list text); s_values : list (text * V) }.
Definition fresh_state : state := State false None [].

(* '_%s_value' % name *)
Definition attribute (name : text) : text := tx "_" ++ name ++ tx "_value".
Definition mem (s : text) (l : list text) : bool := existsb (eqb_text s) l.
(* set.add *)
Definition set_add (s : text) (l : list text) : list text := if mem s l then l else l ++ [s].
(* setattr, getattr *)
Fixpoint setattr (d : list (text * V)) (k : text) (v : V) : list (text * V) :=
  match d with
  | [] => [(k, v)]
  | (a, w) :: r => if eqb_text a k then (a, v) :: r else (a, w) :: setattr r k v
  end.
Fixpoint getattr (d : list (text * V)) (k : text) : option V :=
  match d with [] => None | (a, w) :: r => if eqb_text a k then Some w else getattr r k end.

Variable attrs : list text.   (* the attributes _..._value of the class *)

(* one turn of the loop *)
Definition process (crit : list text) (vals : list (text * V)) (x : extension) : res (list text * list (text * V)) :=
  do vals' <- (if mem (attribute (e_name x)) attrs
               then do v <- e_value x; Ok (setattr vals (attribute (e_name x)) v)
               else Ok vals);
  Ok (if e_critical x then set_add (e_name x) crit else crit, vals').
(* the loop; what was set before an exception stays *)
Fixpoint run (crit : list text) (vals : list (text * V)) (l : list (res extension)) : state * res unit :=
  match l with
  | [] => (State true (Some crit) vals, Ok tt)
  | Err e :: _ => (State false (Some crit) vals, Err e)
  | Ok x :: r =>
      match process crit vals x with
      | Ok (crit', vals') => run crit' vals' r
      | Err e => (State false (Some crit) vals, Err e)
      end
  end.
Definition set_extensions (src : source) (st : state) : state * res unit :=
  match src with
  | Err e => (State false (Some []) (s_values st), Err e)
  | Ok l => run [] (s_values st) l
  end.

(* "if not self._processed_extensions: self._set_extensions()" *)
Definition ensure (src : source) (st : state) : state * res unit :=
  if s_processed st then (st, Ok tt) else set_extensions src st.
Definition read_critical (src : source) (st : state) : state * res (option (list text)) :=
  let '(st', r) := ensure src st in (st', do _ <- r; Ok (s_critical st')).
(* the accessor that returns the attribute a *)
Definition read_value (a : text) (src : source) (st : state) : state * res (option V) :=
  let '(st', r) := ensure src st in (st', do _ <- r; Ok (getattr (s_values st') a)).

(* what a user may do: read, change the structure, change the set that was returned *)
Inductive action :=
| ReadCritical | ReadValue (a : text)
| Replace (src : source)
| AddToSet (s : text).
Definition step (x : source * state) (a : action) : source * state :=
  let '(src, st) := x in
  match a with
  | ReadCritical => (src, fst (read_critical src st))
  | ReadValue n => (src, fst (read_value n src st))
  | Replace src' => (src', st)
  | AddToSet s => (src, State (s_processed st) (option_map (set_add s) (s_critical st)) (s_values st))
  end.
Definition history (src : source) (l : list action) : source * state := fold_left step l (src, fresh_state).
Definition reads_only (l : list action) : Prop := forall a, In a l -> a = ReadCritical \/ exists n, a = ReadValue n.
End Extn.
Arguments Ext {V}. Arguments e_name {V}. Arguments e_critical {V}. Arguments e_value {V}.
Arguments State {V}. Arguments s_processed {V}. Arguments s_critical {V}. Arguments s_values {V}.
Arguments Replace {V}. Arguments ReadCritical {V}. Arguments ReadValue {V}. Arguments AddToSet {V}.
Arguments reads_only {V}. Arguments fresh_state {V}.
Arguments set_extensions {V}. Arguments run {V}. Arguments process {V}. Arguments ensure {V}.
Arguments read_critical {V}. Arguments read_value {V}. Arguments step {V}. Arguments history {V}.
Arguments setattr {V}. Arguments getattr {V}.

(* ocsp.py:682-701 basic_ocsp_response and response_data: self['response_bytes'] is a Void
   object when the field is absent, and has no items *)
Definition basic_ocsp_response {R} (response_bytes : option (res R)) : res R :=
  match response_bytes with None => Err TypeError | Some r => r end.
