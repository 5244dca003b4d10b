(* What is asked of the job that balances pathways. *)
From Verif Require Import Prelude NumQ SumQ ReactionModel.
Open Scope nat_scope.

(* The entries of a reaction with their coefficients. *)
Definition parts (r : rxn) : list (entry * Q) :=
  match r with
  | RBasic _ => []
  | RComputed c => combine (c_entries c) (coeffs (c_base c))
  | ROpen o => combine (c_entries (o_base o)) (coeffs (c_base (o_base o)))
  end.

(* How much of the entry number i a reaction makes, and a weighted sequence of reactions. *)
Definition turnover (r : rxn) (i : nat) : Q := sumQ (fun ek => if Nat.eqb (e_id (fst ek)) i then snd ek else 0%Q) (parts r).
Definition overall (ms : list Q) (rs : list rxn) (i : nat) : Q := sumQ (fun mr => fst mr * turnover (snd mr) i)%Q (combine ms rs).

(* The chemical potentials of a reaction are those of one open element, or there are none. *)
Definition environment (open : option nat) (mu : Q) (r : rxn) : Prop :=
  match open, r with
  | None, RComputed _ => True
  | Some e, ROpen o => chempots o = [(e, mu)]
  | _, _ => False
  end.

(* e has the formula f, and the lowest energy per atom among the entries with that formula. *)
Definition lowest_entry (C : chem) (ents : list entry) (f : nat) (e : entry) : Prop :=
  In e ents /\ red C (e_comp e) = red C f
  /\ forall e', In e' ents -> red C (e_comp e') = red C f -> (e_energy e / natoms C (e_comp e) <= e_energy e' / natoms C (e_comp e'))%Q.
