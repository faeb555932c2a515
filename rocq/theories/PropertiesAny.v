(* C89: Any. *)
Require Import Verif.Base Verif.ParserModel Verif.ParserSpec Verif.ParserProofs Verif.Text Verif.TagSpec Verif.PrimModel Verif.PrimSpec
  Verif.ContModel Verif.ContSpec Verif.ContBase Verif.ContPrim Verif.ContPath Verif.ContHistSpec Verif.ContEx Verif.BerSpec Verif.BerEx
  Verif.ParsModel Verif.AnyModel Verif.AnySpec Verif.AnyProofs.
Require Coq.Strings.String. Import Coq.Strings.String.StringSyntax.

Ltac calc := vm_compute; reflexivity.

(* an Any loaded from an encoding of a value of class n, parsed with that class, stands for
   that value, whatever is then done with the Any and with the object inside; D is what the
   explicit tags of the Any and the dict passed make together *)
Theorem C89_parse (cls : nat -> spec) (guess : option params -> bytes -> res (nat * value)) (ex : list (Z * Z)) (p : option dict) (D : dict)
  (n : nat) (a : aval) (d r : bytes) (strict : bool) :
  wf (cls n) -> put_explicit ex (match p with Some g => g | None => empty_dict end) = Ok D -> ex = [] \/ p_explicit (params_of D) = ex ->
  taggable (cls n) (params_of D) -> ber_encodes (cls n) (stags (cls n) (params_of D)) a d -> (strict = true -> r = []) ->
  exists y y1 v p' a', any_load ex (d ++ r) strict = Ok y /\ any_parse cls guess (Some n) p y = (y1, Ok (n, v), p') /\
    sim (cls n) a a' /\ any_follows cls guess Lost n (stags (cls n) (params_of D)) a' y1.
Proof. exact (any_parse_ok cls guess ex p D n a d r strict). Qed.
Print Assumptions C89_parse.

(* an implicit tag in the dict is the tag of the value; a tag number given as explicit is
   a context-specific tag around it *)
Theorem C89_implicit (cls : nat -> spec) (guess : option params -> bytes -> res (nat * value)) (im : option (Z * Z)) (n : nat) (a : aval) (d : bytes) :
  wf (cls n) -> taggable (cls n) (Params [] im false) -> ber_encodes (cls n) (stags (cls n) (Params [] im false)) a d ->
  exists y y1 v p' a', any_load [] d true = Ok y /\ any_parse cls guess (Some n) (Some (Dict GNone im)) y = (y1, Ok (n, v), p') /\
    sim (cls n) a a' /\ any_follows cls guess Lost n (stags (cls n) (Params [] im false)) a' y1.
Proof. exact (any_implicit cls guess im n a d). Qed.
Print Assumptions C89_implicit.

Theorem C89_number (cls : nat -> spec) (guess : option params -> bytes -> res (nat * value)) (k : Z) (n : nat) (a : aval) (d : bytes) :
  wf (cls n) -> taggable (cls n) (Params [(2, k)] None false) -> ber_encodes (cls n) (stags (cls n) (Params [(2, k)] None false)) a d ->
  exists y y1 v p' a', any_load [] d true = Ok y /\ any_parse cls guess (Some n) (Some (Dict (GTag k) None)) y = (y1, Ok (n, v), p') /\
    sim (cls n) a a' /\ any_follows cls guess Lost n (stags (cls n) (Params [(2, k)] None false)) a' y1.
Proof. exact (any_number cls guess k n a d). Qed.
Print Assumptions C89_number.

(* whatever parse() does to the dict, the implicit tag in it stays *)
Theorem C89_implicit_stays (cls : nat -> spec) (guess : option params -> bytes -> res (nat * value)) (s : option nat) (p : option dict) (y : aobj) :
  option_map g_implicit (snd (any_parse cls guess s p y)) = option_map g_implicit p.
Proof. exact (any_implicit_stays cls guess s p y). Qed.
Print Assumptions C89_implicit_stays.

(* an Any without explicit tags can be looked at and parsed again and again: each time the
   result is that of loading the octets; the dict stays as it is *)
Theorem C89_looking_partial (cls : nat -> spec) (guess : option params -> bytes -> res (nat * value)) (d r : bytes) (strict : bool) (h : list adeed) :
  something [] d -> (strict = true -> r = []) -> forallb watching h = true ->
  exists y, any_load [] (d ++ r) strict = Ok y /\ forall s p,
    let given := Some (params_of (match p with Some g => g | None => empty_dict end)) in
    snd (any_parse cls guess s p (aafter cls guess h y)) = p /\
    match snd (fst (any_parse cls guess s p (aafter cls guess h y))) with
    | Ok (n, v) => exists l v0, forallb (fun x => reading (snd x)) l = true /\ parse_with cls guess s given d = Ok (n, v0) /\ v = after (cls n) l v0
    | Err e => parse_with cls guess s given d = Err e
    end.
Proof. exact (any_looking cls guess d r strict h). Qed.
Print Assumptions C89_looking_partial.

(* an Any that was not parsed is read as the octets are read without a class *)
Theorem C89_unparsed (cls : nat -> spec) (guess : option params -> bytes -> res (nat * value)) (ex : list (Z * Z)) (d r : bytes) (strict : bool) :
  something ex d -> (strict = true -> r = []) ->
  exists y, any_load ex (d ++ r) strict = Ok y /\
    match guess (Some (Params ex None false)) d with
    | Ok (n, v) => snd (any_native cls guess y) = snd (x_native (methods (cls n)) v) /\
                   forall f, snd (any_dump cls guess f y) = snd (x_dump (methods (cls n)) f v)
    | Err e => snd (any_native cls guess y) = Err e /\ forall f, snd (any_dump cls guess f y) = Err e
    end.
Proof. exact (any_unparsed cls guess ex d r strict). Qed.
Print Assumptions C89_unparsed.

(* an Any made from an object stands for it *)
Theorem C89_object (cls : nat -> spec) (guess : option params -> bytes -> res (nat * value)) (ex : list (Z * Z)) (n : nat) (q : params) (i a : aval) (d : bytes) (v : value) :
  wf (cls n) -> taggable (cls n) q -> denotes (cls n) i a -> der (cls n) (stags (cls n) q) a d -> x_make (methods (cls n)) q None i = Ok v ->
  exists y a', any_make cls ex (Some (n, v)) = Ok y /\ y_contents y = Some d /\ sim (cls n) a a' /\ any_follows cls guess Clean n (stags (cls n) q) a' y.
Proof. exact (any_of_object cls guess ex n q i a d v). Qed.
Print Assumptions C89_object.

(* copies, tagged anew or not, dump the same octets *)
Theorem C89_copy (cls : nat -> spec) (guess : option params -> bytes -> res (nat * value)) (ex ex' : list (Z * Z)) (n : nat) (q : params) (i a : aval) (d : bytes) (v : value) :
  wf (cls n) -> taggable (cls n) q -> denotes (cls n) i a -> der (cls n) (stags (cls n) q) a d -> x_make (methods (cls n)) q None i = Ok v ->
  exists y z, any_make cls ex (Some (n, v)) = Ok y /\ any_retag cls ex' y = Ok z /\ forall f, snd (any_dump cls guess f z) = Ok d.
Proof. exact (any_copied cls guess ex ex' n q i a d v). Qed.
Print Assumptions C89_copy.

(* examples *)
Definition any_cls (n : nat) : spec := match n with O => INTEGER | 1%nat => INTS | 2%nat => REC | _ => SPrim (KInt [(5, tx "five")]) (Cls 0 2 [] []) end.
Definition no_guess (_ : option params) (_ : bytes) : res (nat * value) := Err ValueError.
Definition then_any {A} (x : res aobj) (h : list adeed) (f : aobj -> aobj * res A) : res A :=
  do y <- x; snd (f (aafter any_cls no_guess h y)).
Definition parse_any (s : option nat) (p : option dict) (y : aobj) : aobj * res (nat * value) := fst (any_parse any_cls no_guess s p y).
Definition under0 : list (Z * Z) := [(2, 0)].

Example C89_ex_parse : wf (any_cls 2) /\ taggable (any_cls 2) (params_of empty_dict) /\
  ber_encodes (any_cls 2) (stags (any_cls 2) (params_of empty_dict)) rec_value rec_long /\
  then_any (any_load [] (rec_long ++ [7]) false) [YParse (Some 2%nat) None; YNative; YInner [([2%nat], AAppend (num 9))]; YParsed] (any_dump any_cls no_guess true) <> Ok rec_der /\
  then_any (any_load [] (rec_long ++ [7]) false) [YParse (Some 2%nat) None; YNative; YDump false; YParsed] (any_dump any_cls no_guess true) = Ok rec_der.
Proof. split; [exact wf_rec|]. split; [exact take_rec|]. split; [exact rec_long_encodes|]. split; [vm_compute; discriminate|calc]. Qed.
Example C89_ex_explicit : then_any (any_load under0 [160; 3; 2; 1; 5] true) [YParse (Some 0%nat) None] (any_native any_cls no_guess) = Ok (num 5) /\
  put_explicit under0 empty_dict = Ok (Dict (GTags under0) None) /\ p_explicit (params_of (Dict (GTags under0) None)) = under0 /\
  then_any (any_load under0 [160; 128; 2; 1; 5; 0; 0] true) [YParse (Some 0%nat) None] (any_dump any_cls no_guess true) = Ok [160; 3; 2; 1; 5].
Proof. repeat split; calc. Qed.
Example C89_ex_tagged :
  then_any (any_load [] [129; 1; 5] true) [YParse (Some 0%nat) (Some (Dict GNone (Some (2, 1))))] (any_native any_cls no_guess) = Ok (num 5) /\
  then_any (any_load [] [164; 3; 2; 1; 5] true) [YParse (Some 0%nat) (Some (Dict (GTag 4) None))] (any_dump any_cls no_guess true) = Ok [164; 3; 2; 1; 5] /\
  then_any (any_load [] [100; 3; 2; 1; 5] true) [] (parse_any (Some 0%nat) (Some (Dict (GTag 4) None))) = Err ValueError /\
  (do y <- any_load under0 [160; 3; 2; 1; 5] true; Ok (snd (any_parse any_cls no_guess (Some 0%nat) (Some (Dict GNone (Some (2, 1)))) y)))
    = Ok (Some (Dict (GTags under0) (Some (2, 1)))).
Proof. repeat split; calc. Qed.
Example C89_ex_looking : something [] [2; 1; 5] /\
  let h := [YParse (Some 0%nat) None; YNative; YParse (Some 1%nat) None; YDump true; YInner [([], ARead)]; YParse (Some 3%nat) (Some empty_dict)] in
  forallb watching h = true /\ then_any (any_load [] [2; 1; 5; 9] false) h (any_native any_cls no_guess) = Ok (APrim (NText (tx "five"))).
Proof.
  split; [|split; calc].
  assert (D : der_tlv 0 0 2 [5] [2; 1; 5]) by (exists [2], [1]; split; [apply (ident_low 0 0 2); lia|]; split; [constructor; cbn; lia|reflexivity]).
  destruct (tlv_info _ _ _ _ _ D) as (h & B & E). eexists. split; [exact B|]. split; [symmetry; exact E|exact Logic.I].
Qed.
Definition as_int (p : option params) (b : bytes) : res (nat * value) := do v <- cload INTEGER (match p with Some q => q | None => no_params end) b false; Ok (0%nat, v).
Example C89_ex_unparsed : (do y <- any_load under0 [160; 3; 2; 1; 5] true; snd (any_native any_cls as_int y)) = Ok (num 5) /\
  (do y <- any_load under0 [160; 3; 2; 1; 5] true; snd (any_dump any_cls as_int true y)) = Ok [160; 3; 2; 1; 5].
Proof. split; calc. Qed.
Example C89_ex_object : wf (any_cls 2) /\ taggable (any_cls 2) no_params /\ denotes (any_cls 2) rec_arg rec_value /\
  der (any_cls 2) (stags (any_cls 2) no_params) rec_value rec_der /\
  (do v <- x_make (methods REC) no_params None rec_arg; do y <- any_make any_cls [] (Some (2%nat, v)); do z <- any_copy any_cls y; then_any (Ok z) [YNative] (any_dump any_cls no_guess true)) = Ok rec_der.
Proof. split; [exact wf_rec|]. split; [exact take_rec|]. split; [exact rec_denotes|]. split; [exact rec_encoded|calc]. Qed.

(* under an explicit tag the second parse fails: the first one forgets the tag *)
Theorem C89_parse_again_refuted : exists d e,
  then_any (any_load under0 d true) [] (any_native any_cls no_guess) = Err ValueError /\
  (forall n, n = 0%nat \/ n = 3%nat -> exists x, then_any (any_load under0 d true) [] (parse_any (Some n) None) = Ok x) /\
  then_any (any_load under0 d true) [YParse (Some 0%nat) None] (parse_any (Some 3%nat) None) = Err ValueError /\
  then_any (any_load under0 d true) [YParse (Some 0%nat) None] (parse_any (Some 0%nat) (Some empty_dict)) = Err ValueError /\
  then_any (any_load [] e true) [YParse (Some 0%nat) None] (fun y => let '(y', r) := parse_any (Some 3%nat) None y in (y', do x <- r; Ok (fst x))) = Ok 3%nat.
Proof.
  exists [160; 3; 2; 1; 5], [2; 1; 5]. split; [calc|]. split; [intros n [->| ->]; eexists; calc|]. repeat split; calc.
Qed.
Print Assumptions C89_parse_again_refuted.

(* explicit tags passed to parse() are put outside those of the Any, and a tag number is
   refused; so the value cannot be parsed *)
Theorem C89_tags_passed_refuted : exists d,
  (exists v, cload INTEGER (Params [(2, 1); (2, 0)] None false) d true = Ok v) /\
  then_any (any_load under0 d true) [] (parse_any (Some 0%nat) (Some (Dict (GTags [(2, 1)]) None))) = Err ValueError /\
  then_any (any_load under0 d true) [] (parse_any (Some 0%nat) (Some (Dict (GTag 1) None))) = Err TypeError.
Proof. exists [160; 5; 161; 3; 2; 1; 5]. split; [eexists; calc|]. split; calc. Qed.
Print Assumptions C89_tags_passed_refuted.

(* parse() writes the explicit tags of the Any into the dict it was passed; using the dict
   again does something else *)
Theorem C89_dict_changed_refuted : exists d p, 
  match any_load under0 d true with
  | Err _ => False
  | Ok y => let '(y1, r, p1) := any_parse any_cls no_guess (Some 1%nat) (Some p) y in
            r = Err ValueError /\ y1 = y /\ p1 <> Some p /\
            (exists x, snd (fst (any_parse any_cls no_guess (Some 0%nat) (Some p) y)) = Ok x) /\
            snd (fst (any_parse any_cls no_guess (Some 0%nat) p1 y)) = Err ValueError
  end.
Proof.
  exists [160; 3; 2; 1; 5], (Dict (GTags []) None). vm_compute. split; [reflexivity|]. split; [reflexivity|]. split; [discriminate|].
  split; [eexists; reflexivity|reflexivity].
Qed.
Print Assumptions C89_dict_changed_refuted.

(* the copy of an Any that was not parsed yet cannot be used, nor can an Any made from an
   object be parsed *)
Theorem C89_copy_unusable_refuted : exists d y z v w,
  any_load [] d true = Ok y /\ (exists x, snd (parse_any (Some 0%nat) None y) = Ok x) /\ any_copy any_cls y = Ok z /\
  snd (parse_any (Some 0%nat) None z) = Err TypeError /\ snd (any_native any_cls no_guess z) = Err TypeError /\ snd (any_dump any_cls no_guess false z) = Err TypeError /\
  x_make (methods INTEGER) no_params None (num 5) = Ok v /\ any_make any_cls [] (Some (0%nat, v)) = Ok w /\
  snd (any_dump any_cls no_guess false w) = Ok d /\ snd (parse_any None None w) = Err TypeError /\ snd (parse_any (Some 3%nat) None w) = Err TypeError.
Proof.
  exists [2; 1; 5]. eexists _, _, _, _. split; [vm_compute; reflexivity|]. split; [eexists; vm_compute; reflexivity|]. split; [vm_compute; reflexivity|].
  split; [vm_compute; reflexivity|]. split; [vm_compute; reflexivity|]. split; [vm_compute; reflexivity|]. split; [vm_compute; reflexivity|].
  split; [vm_compute; reflexivity|]. repeat split; vm_compute; reflexivity.
Qed.
Print Assumptions C89_copy_unusable_refuted.

(* explicit tags of an Any made from an object, or given to retag(), are not written *)
Theorem C89_tags_lost_refuted : exists v y z d,
  x_make (methods INTEGER) no_params None (num 5) = Ok v /\ any_make any_cls under0 (Some (0%nat, v)) = Ok y /\ y_explicit y = under0 /\
  snd (any_dump any_cls no_guess true y) = Ok d /\ any_load under0 d true = Err ValueError /\
  any_retag any_cls [(2, 1)] y = Ok z /\ y_explicit z = [(2, 1)] /\ snd (any_dump any_cls no_guess true z) = Ok d.
Proof.
  eexists _, _, _, [2; 1; 5]. split; [vm_compute; reflexivity|]. split; [vm_compute; reflexivity|]. split; [reflexivity|]. split; [vm_compute; reflexivity|].
  split; [vm_compute; reflexivity|]. split; [vm_compute; reflexivity|]. split; vm_compute; reflexivity.
Qed.
Print Assumptions C89_tags_lost_refuted.
