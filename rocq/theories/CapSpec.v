(* What is asked of the job that balances pathways when nothing is assumed of numpy. *)
From Verif Require Import Prelude NumQ SumQ ReactionModel ReactionSpec SolveJobSpec.
Open Scope nat_scope.

(* A reaction between distinct entries of the list, not all of whose coefficients are negligible. *)
Definition between (ents : list entry) (r : rxn) : Prop :=
  (exists c, (r = RComputed c \/ exists mus, r = ROpen {| o_base := c; chempots := mus |})
   /\ length (c_entries c) = length (coeffs (c_base c)) /\ NoDup (map e_id (c_entries c)) /\ forall e, In e (c_entries c) -> In e ents)
  /\ exists i, (1 # 100000000 < Qabs (turnover r i))%Q.

(* r' is r written again with the entries in the order of the list, without negligible coefficients. *)
Definition restated (C : chem) (ents : list entry) (r r' : rxn) : Prop :=
  built C r' /\ Forall2 (fun a b => fst a = fst b /\ (snd a == snd b)%Q) (parts r')
    (filter (fun ek => Qlt_bool (1 # 100000000) (Qabs (snd ek))) (map (fun e => (e, turnover r (e_id e))) ents)).

(* No reaction is a combination of the others. *)
Definition separate (rs : list rxn) : Prop :=
  forall ks, length ks = length rs -> (forall i, (overall ks rs i == 0)%Q) -> Forall (fun k => (k == 0)%Q) ks.

(* Some of the reactions run in a circle: each needs something that is not given, which another of them makes. *)
Definition circle {R} (uses makes : R -> nat -> Prop) (given : list nat) (rs : list R) : Prop :=
  exists group rest, Permutation rs (group ++ rest) /\ 2 <= length group
  /\ forall a r b, group = a ++ r :: b -> exists r' f, In r' (a ++ b) /\ uses r f /\ makes r' f /\ ~ In f given.

(* A reaction takes or gives a formula in more than a negligible amount. *)
Definition consumes (C : chem) (ents : list entry) (r : rxn) (f : nat) : Prop := exists e, In e ents /\ red C (e_comp e) = f /\ (turnover r (e_id e) < -(1 # 100000000))%Q.
Definition yields (C : chem) (ents : list entry) (r : rxn) (f : nat) : Prop := exists e, In e ents /\ red C (e_comp e) = f /\ (1 # 100000000 < turnover r (e_id e))%Q.
