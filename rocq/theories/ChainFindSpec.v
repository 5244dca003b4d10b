(* What is asked of the two jobs about sums of reactions that are not lost. *)
From Verif Require Import Prelude NumQ SumQ ReactionModel RxnSetModel SolveJobSpec ChainSpec.
Open Scope nat_scope.

(* Two reactions make the same amounts. *)
Definition like (x y : srxn) : Prop := forall u, (amount x u == amount y u)%Q.

(* What the reactions make together. *)
Definition together (ms : list Q) (xs : list srxn) (u : nat) : Q := sumQ (fun mx => fst mx * amount (snd mx) u)%Q (combine ms xs).

(* No reaction is a combination of the others. *)
Definition unrelated (xs : list srxn) : Prop :=
  forall ks, length ks = length xs -> (forall u, (together ks xs u == 0)%Q) -> Forall (fun k => (k == 0)%Q) ks.

(* One reaction is so many times the other. *)
Definition proportional (a b : rxn) : Prop := exists k, (0 < k)%Q /\ forall i, (turnover a i == k * turnover b i)%Q.

(* The list without duplicates has every reaction, if none is a multiple of another. *)
Definition keeps_all (req : rxn -> rxn -> bool) (clean : list rxn -> list rxn) : Prop :=
  forall l, ForallOrdPairs (fun a b => ~ proportional a b) l -> forall r, In r l -> exists r', In r' (clean l) /\ req r r' = true.

(* A reaction takes or gives a formula. *)
Definition takes (C : chem) (comp_of : nat -> nat) (x : srxn) (f : nat) : Prop := exists u, red C (comp_of u) = f /\ (amount x u < 0)%Q.
Definition gives (C : chem) (comp_of : nat -> nat) (x : srxn) (f : nat) : Prop := exists u, red C (comp_of u) = f /\ (0 < amount x u)%Q.
