(* C64 and part of C48: required fields of sequences and sets, unknown members of sets. *)
Require Import Verif.Base Verif.Text Verif.ParserModel Verif.PrimModel Verif.ContModel Verif.ContPath Verif.ContEx Verif.ContReq.

(* C64: whatever a program does to a loaded object and to the objects inside it, in any
   order and however often operations fail, a required field has a value whenever the
   fields of the object are known *)
Theorem C64_loaded_object_complete (s : spec) (p : params) (data : bytes) (strict : bool) (v : value) (h : list deed) :
  cload s p data strict = Ok v -> required_present s (after s h v).
Proof. exact (required_always s p data strict v h). Qed.
Print Assumptions C64_loaded_object_complete.

(* deleting a required field is refused and has no more effect than len(obj) *)
Theorem C64_delete_refused (s : spec) (i : nat) (f : fld) (s' : spec) (v : value) : needed s i f s' -> row v ->
  exists x, perform s (ADel i) v = (fst (perform s ALen v), Err x) /\ (snd (perform s ALen v) <> Err x -> x = ValueError).
Proof. exact (delete_refused s i f s' v). Qed.
Print Assumptions C64_delete_refused.

(* storing None too, unless the field is a Null *)
Theorem C64_none_refused (s : spec) (i : nat) (f : fld) (s' : spec) (v : value) : needed s i f s' -> nothing s' -> row v ->
  exists x, perform s (ASet i ANone) v = (fst (perform s ALen v), Err x).
Proof. exact (none_refused s i f s' v). Qed.
Print Assumptions C64_none_refused.

(* an object whose required field has no value is not encoded *)
Theorem C64_dump_refused (s : spec) (i : nat) (f : fld) (s' : spec) (t : tagging) (e : enc) (l : list value) (m : bool)
  (nc : option (list (text * nent))) (force : bool) (r : answer) : needed s i f s' -> nth_error l i = Some VVoid ->
  snd (perform s (ADump force) (VSeq t e (Some l) m nc)) <> Ok r.
Proof. exact (dump_refused s i f s' t e l m nc force r). Qed.
Print Assumptions C64_dump_refused.

Theorem C64_made_without_field (s : spec) (i : nat) (f : fld) (s' : spec) (p : params) (d : list (text * aval)) (v : value)
  (force : bool) (r : answer) : needed s i f s' -> dict_get d (f_name f) = None -> x_make (methods s) p None (ADict d) = Ok v ->
  snd (perform s (ADump force) v) <> Ok r.
Proof. exact (made_dump s i f s' p d v force r). Qed.
Print Assumptions C64_made_without_field.

Definition damage : list deed :=
  [([], ADel 2%nat); ([], ASet 2%nat ANone); ([2%nat], ADel 0%nat); ([], ADel 1%nat); ([], ARead); ([3%nat; 0%nat], AAppend (APrim (NBool false))); ([], ADump true)].
Definition voids (v : value) : list bool :=
  match v with VSeq _ _ (Some l) _ _ => map (fun w => match w with VVoid => true | _ => false end) l | _ => [] end.
Example C64_ex : needed REC 2 (Fld (tx "ids") no_params Required) (SSetOf c_set INTEGER) /\
  match cload REC no_params rec_der true with Ok v => voids (after REC damage v) = [false; true; false; false] | Err _ => False end.
Proof. split; [cbn; split; reflexivity|]. vm_compute. reflexivity. Qed.
Example C64_ex_missing : lastly REC [] [] ARead (cload REC no_params [48; 0] true) = Err ValueError /\
  lastly REC [] [] (ADump false) (x_make (methods REC) no_params None (ADict [(tx "version", num 1)])) = Err ValueError /\
  lastly REC [] [] (ADel 2%nat) (cload REC no_params rec_der true) = Err ValueError /\
  lastly REC [] [] (ASet 2%nat ANone) (cload REC no_params rec_der true) = Err ValueError.
Proof. vm_compute. auto. Qed.

(* C48: an element whose class and tag belong to no member is refused *)
Theorem C48_unknown_member_partial (c : pcls) (fs : list (fld * spec)) (t : tagging) (e : enc) (m : bool) (nc : option (list (text * nent)))
  (cont : bytes) (l : list info) (i : info) : e_contents e = Some cont -> elements cont 0 l -> In i l -> unknown fs i ->
  forall r, snd (perform (SSet c fs) ALen (VSeq t e None m nc)) <> Ok r.
Proof. exact (unknown_member c fs t e m nc cont l i). Qed.
Print Assumptions C48_unknown_member_partial.
Example C48_ex_unknown : lastly ST [] [] ARead (cload ST no_params [49; 6; 128; 1; 5; 130; 1; 7] true) = Err ValueError /\
  exists i j, elements [128; 1; 5; 130; 1; 7] 0 [i; j] /\ unknown [(Fld (tx "a") (implicit 0) Required, INTEGER); (Fld (tx "b") (implicit 1) Optional, INTEGER)] j.
Proof.
  split; [vm_compute; reflexivity|]. eexists. eexists. split.
  - eapply one_more; [now vm_compute|vm_compute; reflexivity|]. eapply one_more; [now vm_compute|vm_compute; reflexivity|]. apply no_more. now vm_compute.
  - intros f s [H|[H|[]]]; inversion H; subst; reflexivity.
Qed.
