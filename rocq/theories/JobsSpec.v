(* Vocabulary for C62, C85 and C86. *)
From Verif Require Import Prelude NumQ JobsModel.
Open Scope nat_scope.

(* The formulas available to a reaction. *)
Definition available (open : option nat) (fs : list nat) (f : nat) : Prop := In f fs \/ open = Some f.
(* v is the lowest of these energies and zero. *)
Definition lowest (energy : Q -> Prop) (v : Q) : Prop :=
  (energy v \/ v = 0%Q) /\ (v <= 0)%Q /\ forall e, energy e -> (v <= e)%Q.
(* Energies of the other reactions from the same formulas. *)
Definition other_energy (same : jrxn -> jrxn -> bool) (all : list jrxn) (open : option nat) (r : jrxn) (e : Q) : Prop :=
  exists x, In x all /\ (forall f, In f (j_reactants x) -> available open (j_reactants r) f) /\ same x r = false /\ j_energy x = e.
(* A cluster on which a task fits into memory: 250 bytes per reaction. *)
Definition fits (num_rxns : nat) (cpus memory : Q) : Prop :=
  (cpus * (250 * inject_Z (Z.of_nat num_rxns)) <= memory)%Q \/ (0 < num_rxns /\ (250 * inject_Z (Z.of_nat num_rxns) <= memory)%Q).
(* The precursors: the reactants without the open one. *)
Definition precursors (open : option nat) (r : jrxn) (l : list nat) : Prop :=
  NoDup l /\ forall f, In f l <-> In f (j_reactants r) /\ open <> Some f.
