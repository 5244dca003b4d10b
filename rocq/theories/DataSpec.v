(* What the reactions of a set carry with them. *)
From Verif Require Import Prelude ReactionModel FreeSpec RxnSetModel EnumModel JoinModel MinJoinModel.
Open Scope nat_scope.

(* The number of constraints with a reaction: as many as there are independent ways in which its phases, [uid] of which
   have the formulas [form], can react, and at least one. *)
Definition counted (C : chem) (form : nat -> nat) (x : srxn) : Prop :=
  exists d, independent_ways C form (map uid (x_entries x)) d /\ x_data x = Nat.max 1 d.
(* The most constraints an enumerator lets through. *)
Definition most_constraints (a : any_enumerator) : nat :=
  match a with Basic en => o_constraints (en_options en) | Minimize m => o_constraints (mi_options m) end.
