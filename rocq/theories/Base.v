(* Base vocabulary shared by every model file: bytes, exceptions as values,
   Python slices.  No code of /repo is modelled here; the definitions give the
   meaning of the Python constructs the models use. *)
Require Export ZArith List Bool Lia.
Require Export ZifyBool ZifyNat.
Export ListNotations.
Open Scope Z_scope.
Open Scope list_scope.

Ltac Zify.zify_post_hook ::= Z.div_mod_to_equations.

(* A byte is an integer; a byte string is a list of them. *)
Definition bytes := list Z.
Definition byte_ok (b : Z) : Prop := 0 <= b < 256.
Definition bytes_ok (l : bytes) : Prop := Forall byte_ok l.

Definition byte_okb (b : Z) : bool := (0 <=? b) && (b <? 256).
Definition bytes_okb (l : bytes) : bool := forallb byte_okb l.

(* Python exception classes that the modelled code can raise; OutOfFuel is not
   a Python exception but the model's own "loop did not finish" marker. *)
Inductive exn :=
| ValueError | TypeError | KeyError | OverflowError | AttributeError
| IndexError | StructError | ZeroDivisionError | UnicodeError | NameError | OutOfFuel.

Inductive res (A : Type) :=
| Ok (a : A)
| Err (e : exn).
Arguments Ok {A} _.
Arguments Err {A} _.

Definition bind {A B} (x : res A) (f : A -> res B) : res B :=
  match x with Ok a => f a | Err e => Err e end.
Notation "'do' p <- x ; f" := (bind x (fun p => f))
  (at level 200, p pattern, x at level 100, f at level 200, right associativity).

Definition is_ok {A} (x : res A) : bool := match x with Ok _ => true | Err _ => false end.

Definition exn_eqb (a b : exn) : bool :=
  match a, b with
  | ValueError, ValueError | TypeError, TypeError | KeyError, KeyError
  | OverflowError, OverflowError | AttributeError, AttributeError
  | IndexError, IndexError | StructError, StructError
  | ZeroDivisionError, ZeroDivisionError | UnicodeError, UnicodeError
  | NameError, NameError | OutOfFuel, OutOfFuel => true
  | _, _ => false
  end.

(* len(data) *)
Definition len {A} (l : list A) : Z := Z.of_nat (length l).

(* data[a:b] for 0 <= a; Python clamps both bounds to len(data) *)
Definition slice {A} (l : list A) (a b : Z) : list A :=
  firstn (Z.to_nat (b - a)) (skipn (Z.to_nat a) l).

(* data[i]; the models guard every use by a bounds check *)
Definition at_ (l : bytes) (i : Z) : Z := nth (Z.to_nat i) l 0.

Fixpoint eqb_bytes (a b : bytes) : bool :=
  match a, b with
  | [], [] => true
  | x :: a', y :: b' => (x =? y) && eqb_bytes a' b'
  | _, _ => false
  end.

Definition zeros (n : nat) : bytes := repeat 0 n.
