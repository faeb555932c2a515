(* C88: Concat. *)
Require Import Verif.Base Verif.ParserModel Verif.Text Verif.TagSpec Verif.PrimModel Verif.PrimSpec
  Verif.ContModel Verif.ContSpec Verif.ContBase Verif.ContPrim Verif.ContPath Verif.ContHistSpec Verif.ContEx Verif.BerSpec Verif.BerFinal Verif.BerEx
  Verif.ConcatModel Verif.ConcatSpec Verif.ConcatProofs.

Ltac calc := vm_compute; reflexivity.

(* exactly which octets load, and as what *)
Theorem C88_load (cls : nat -> spec) (specs : list nat) (d : bytes) (strict : bool) (o : concat_obj) : bytes_ok d ->
  (co_load cls specs d strict = Ok o <->
   exists ps rest xs, d = concat ps ++ rest /\ cut cls specs ps xs /\ o = Some (map Some xs) /\
     ((length ps < length specs)%nat -> rest = []) /\ (strict = true -> rest = [])).
Proof. exact (load_iff cls specs d strict o). Qed.
Print Assumptions C88_load.

(* BER encodings of values, one after the other: each child stands for its value, and the
   forced dump writes the DER encodings one after the other *)
Theorem C88_values (cls : nat -> spec) (l : list (nat * aval * bytes)) (rest : bytes) (strict : bool) :
  bytes_ok (concat (map snd l)) -> (strict = true -> rest = []) ->
  Forall (fun x => let '(n, a, d) := x in wf (cls n) /\ taggable (cls n) no_params /\ ber_encodes (cls n) (stags (cls n) no_params) a d) l ->
  exists xs, co_load cls (map (fun x => fst (fst x)) l) (concat (map snd l) ++ rest) strict = Ok (Some (map Some xs)) /\
    Forall2 (fun x c => let '(n, a, d) := x in fst c = n /\ exists a', sim (cls n) a a' /\ follows_from Lost (cls n) (stags (cls n) no_params) a' (snd c)) l xs.
Proof. exact (load_values cls l rest strict). Qed.
Print Assumptions C88_values.

Theorem C88_forced (cls : nat -> spec) (l : list (nat * aval * bytes * bytes)) (rest : bytes) (strict : bool) :
  bytes_ok (concat (map (fun x => snd (fst x)) l)) -> (strict = true -> rest = []) ->
  Forall (fun x => let '(n, a, d, e) := x in wf (cls n) /\ taggable (cls n) no_params /\
            ber_encodes (cls n) (stags (cls n) no_params) a d /\ der (cls n) (stags (cls n) no_params) a e) l ->
  exists o, co_load cls (map (fun x => fst (fst (fst x))) l) (concat (map (fun x => snd (fst x)) l) ++ rest) strict = Ok o /\
    snd (co_dump cls true o) = Ok (concat (map snd l)).
Proof. exact (load_forced cls l rest strict). Qed.
Print Assumptions C88_forced.

(* under any history, each child goes through what is done at its position, and nothing else *)
Theorem C88_history (cls : nat -> spec) (specs : list nat) (h : list kdeed) (cs : list child) :
  length cs = length specs -> dumps_fine cls specs h (Some (map Some cs)) ->
  exists cs', kafter cls specs h (Some (map Some cs)) = Some (map Some cs') /\ length cs' = length specs /\
    forall k c, nth_error cs k = Some c -> nth_error cs' k = Some (share cls k h c).
Proof. exact (shares cls specs h cs). Qed.
Print Assumptions C88_history.

(* a dump is the dumps of the children one after the other *)
Theorem C88_dump (cls : nat -> spec) (f : bool) (cs : list child) (b : bytes) :
  snd (co_dump cls f (Some (map Some cs))) = Ok b <->
  exists bs, Forall2 (fun c y => snd (x_dump (methods (cls (fst c))) f (snd c)) = Ok y) cs bs /\ b = concat bs.
Proof. exact (dump_iff cls f cs b). Qed.
Print Assumptions C88_dump.

(* from objects: as many as there are classes are taken as they are; more, or something
   else than an object, are refused *)
Theorem C88_make (cls : nat -> spec) (specs : list nat) (cs : list child) (x : item) (xs : list item) (strict : bool) :
  (length cs = length specs -> co_make cls specs (Some (map IObj cs)) None strict = Ok (Some (map Some cs))) /\
  ((length cs < length specs)%nat -> co_make cls specs (Some (map IObj cs ++ IOther :: xs)) None strict = Err ValueError) /\
  (length cs = length specs -> co_make cls specs (Some (map IObj cs ++ x :: xs)) None strict = Err KeyError).
Proof.
  split; [intros L; exact (made cls specs cs L strict)|]. exact (made_refused cls specs cs x xs strict).
Qed.
Print Assumptions C88_make.

(* a copy has a copy of each child at its place, and nothing where there was nothing *)
Theorem C88_copy (cls : nat -> spec) (cs : list (option child)) : 
  (forall z, co_copy cls (Some cs) = Ok z -> exists zs, z = Some zs /\
     Forall2 (fun c d => match c, d with
                         | Some c, Some d => fst d = fst c /\ x_copy (methods (cls (fst c))) (snd c) = Ok (snd d)
                         | None, None => True
                         | _, _ => False
                         end) cs zs) /\
  co_copy cls None = Ok None.
Proof. exact (copied cls cs). Qed.
Print Assumptions C88_copy.

(* the children are found at the indices from 0 on, and there are as many as classes *)
Theorem C88_child (specs : list nat) (cs : list child) : length cs = length specs ->
  co_len (Some (map Some cs)) = Ok (len specs) /\
  (forall k c, nth_error cs k = Some c -> co_get specs (Z.of_nat k) (Some (map Some cs)) = Ok (Some c)) /\
  (forall key o, key < 0 \/ len specs <= key -> co_get specs key o = Err KeyError).
Proof. exact (child_at specs cs). Qed.
Print Assumptions C88_child.

(* a class like TrustedCertificate: a record, and a sequence of optional fields *)
Definition AUX : spec := SSeq c_seq [(Fld (tx "trust") no_params Optional, BOOLEAN); (Fld (tx "reject") (implicit 0) Optional, INTEGER)].
Definition two_cls (n : nat) : spec := match n with O => REC | 1%nat => AUX | _ => INTEGER end.
Definition then_co {A} (x : res concat_obj) (h : list kdeed) (f : concat_obj -> A) : res A := do o <- x; Ok (f (kafter two_cls [0; 1]%nat h o)).

Example C88_ex : bytes_ok (concat [rec_long; [2; 1; 5]]) /\
  Forall (fun x => let '(n, a, d, e) := x in wf (two_cls n) /\ taggable (two_cls n) no_params /\
            ber_encodes (two_cls n) (stags (two_cls n) no_params) a d /\ der (two_cls n) (stags (two_cls n) no_params) a e)
    [(0%nat, rec_value, rec_long, rec_der); (2%nat, num 5, [2; 1; 5], [2; 1; 5])] /\
  (do o <- co_load two_cls [0; 2]%nat (rec_long ++ [2; 1; 5]) true; snd (co_dump two_cls true o)) = Ok (rec_der ++ [2; 1; 5]) /\
  co_load two_cls [0; 2]%nat (rec_long ++ [2; 1; 5; 9]) true = Err ValueError.
Proof.
  split; [repeat (constructor; [unfold byte_ok; lia|]); constructor|].
  assert (D : der INTEGER (stags INTEGER no_params) (num 5) [2; 1; 5]) by (apply int_at; [apply (tags_c c_int no_params); [apply cls_small; lia|apply params_none]|lia|reflexivity|short]).
  assert (T : taggable INTEGER no_params) by (apply take_plain; [apply params_none|reflexivity|reflexivity]).
  split; [|split; calc]. constructor; [|constructor; [|constructor]].
  - split; [exact wf_rec|]. split; [exact take_rec|]. split; [exact rec_long_encodes|exact rec_encoded].
  - split; [exact wf_int|]. split; [exact T|]. split; [apply (der_is_ber INTEGER wf_int no_params); auto|exact D].
Qed.
Definition loaded_two : res concat_obj := co_load two_cls [0; 1]%nat (rec_der ++ [48; 3; 1; 1; 255]) true.
Definition two_children : list child :=
  match loaded_two with Ok (Some l) => flat_map (fun c => match c with Some c => [c] | None => [] end) l | _ => [] end.
Definition seven : value := match x_make (methods INTEGER) no_params None (num 7) with Ok v => v | Err _ => VVoid end.
Definition some_deeds : list kdeed :=
  [KOn 1 [([], ASet 0 (APrim (NBool false)))]; KDump false; KSet 0 (IObj (2%nat, seven)); KSet 2 IOther; KDump true].
Example C88_ex_history : loaded_two = Ok (Some (map Some two_children)) /\ length two_children = 2%nat /\
  dumps_fine two_cls [0; 1]%nat some_deeds (Some (map Some two_children)) /\
  then_co loaded_two some_deeds (fun o => snd (co_dump two_cls false o)) = Ok (Ok [2; 1; 7; 48; 3; 1; 1; 0]).
Proof.
  split; [calc|]. split; [calc|]. split; [|calc]. unfold some_deeds.
  intros g f r E. destruct g as [|d1 g]; [discriminate|]. injection E as <- E. destruct g as [|d2 g].
  - injection E as <- <-. exists (rec_der ++ [48; 3; 1; 1; 0]). calc.
  - injection E as <- E. destruct g as [|d3 g]; [discriminate|]. injection E as <- E. destruct g as [|d4 g]; [discriminate|]. injection E as <- E.
    destruct g as [|d5 g]; [injection E as <- <-; exists [2; 1; 7; 48; 3; 1; 1; 0]; calc|]. injection E as <- E. destruct g; discriminate.
Qed.
Example C88_ex_copy : (do o <- loaded_two; do z <- co_copy two_cls o; snd (co_dump two_cls false z)) = Ok (rec_der ++ [48; 3; 1; 1; 255]) /\
  (do o <- loaded_two; co_len o) = Ok 2 /\ (do o <- loaded_two; do _ <- co_get [0; 1]%nat (-1) o; Ok tt) = Err KeyError.
Proof. repeat split; calc. Qed.

(* octets that end before the last class are accepted, but then dump() raises; this is what
   happens to a plain certificate loaded as TrustedCertificate *)
Theorem C88_missing_part_refuted : exists d,
  (do v <- cload REC no_params d true; snd (x_dump (methods REC) false v)) = Ok d /\
  (do o <- co_load two_cls [0; 1]%nat d true; co_len o) = Ok 2 /\
  (do o <- co_load two_cls [0; 1]%nat d true; snd (co_dump two_cls false o)) = Err TypeError.
Proof. exists rec_der. repeat split; calc. Qed.
Print Assumptions C88_missing_part_refuted.

(* with fewer objects than classes, or with none, the object is made but cannot be used *)
Theorem C88_too_few_refuted :
  co_make two_cls [2; 1]%nat (Some [IObj (2%nat, seven)]) None true = Ok (Some [Some (2%nat, seven); None]) /\
  snd (co_dump two_cls false (Some [Some (2%nat, seven); None])) = Err AttributeError /\
  co_make two_cls [2; 1]%nat None None true = Ok None /\ co_len None = Err TypeError /\
  snd (co_set [2; 1]%nat 0 (IObj (2%nat, seven)) None) = Err TypeError.
Proof. repeat split; calc. Qed.
Print Assumptions C88_too_few_refuted.
