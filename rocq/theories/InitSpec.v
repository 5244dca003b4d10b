(* Vocabulary for the initialisation of the entries (C91). *)
From Verif Require Import Prelude NumQ EntrySetSpec.
Open Scope nat_scope.

(* e is the entry the user means by the text t: the most stable entry of that formula,
   or an interpolated one if the set has none. *)
Definition meant (reduced formula : nat -> nat) (epa : nat -> Q) (interp : nat -> result nat) (members : list nat) (t e : nat) : Prop :=
  (formula e = reduced t /\ ground_state formula epa (fun x => In x members) e)
  \/ ((forall x, In x members -> formula x <> reduced t) /\ interp t = Ok e).

(* after is before with the named entries put in; each that is new takes the place of one
   ground state of its formula, if there is one, and nothing else is removed. *)
Definition replaces (formula : nat -> nat) (epa : nat -> Q) (before named after : list nat) : Prop :=
  NoDup after /\ (forall s, In s named -> In s after) /\ (forall x, In x after -> In x before \/ In x named)
  /\ (forall x, In x before -> ~ In x after ->
        ground_state formula epa (fun y => In y before) x /\ exists s, In s named /\ ~ In s before /\ formula s = formula x)
  /\ (forall s, In s named -> ~ In s before -> (exists y, In y before /\ formula y = formula s) ->
        exists! x, In x before /\ formula x = formula s /\ ~ In x after).
