(* Common vocabulary of the model: exceptions as values, a few list helpers.
   Nothing here models a particular function of /repo. *)
From Coq Require Export List Arith ZArith Lia Bool Permutation.
Export ListNotations.

(* Python exceptions that the modelled functions can raise. *)
Inductive err : Type :=
| ValueError | KeyError | IndexError | ZeroDivisionError | AttributeError
| TypeError | NoEdgeBetweenNodes | OutOfFuel.

(* Outcome of a modelled call: a value or an exception. *)
Inductive result (A : Type) : Type :=
| Ok (a : A)
| Err (e : err).
Arguments Ok {A} a.
Arguments Err {A} e.

Definition bind {A B} (r : result A) (f : A -> result B) : result B :=
  match r with Ok a => f a | Err e => Err e end.

(* Evaluate a list of fallible computations from left to right; the first
   exception wins, as in a Python loop. *)
Fixpoint mapM {A B} (f : A -> result B) (l : list A) : result (list B) :=
  match l with
  | [] => Ok []
  | x :: xs =>
      match f x with
      | Err e => Err e
      | Ok y => match mapM f xs with Err e => Err e | Ok ys => Ok (y :: ys) end
      end
  end.

(* l[i] of Python for a non-negative index. *)
Definition index {A} (l : list A) (i : nat) : result A :=
  match nth_error l i with Some a => Ok a | None => Err IndexError end.

(* Membership with a boolean equality ("x in l"). *)
Definition memb {A} (eqb : A -> A -> bool) (x : A) (l : list A) : bool :=
  existsb (eqb x) l.

Fixpoint nodupb {A} (eqb : A -> A -> bool) (l : list A) : bool :=
  match l with
  | [] => true
  | x :: xs => negb (memb eqb x xs) && nodupb eqb xs
  end.
