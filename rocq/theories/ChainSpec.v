(* What is asked of the job that builds a network followed by the job that balances pathways. *)
From Verif Require Import Prelude NumQ SumQ ReactionModel RxnSetModel NetModel SolveJobSpec NetJobSpec.
Open Scope nat_scope.

(* How much of the entry with the id u a reaction makes. *)
Definition amount (x : srxn) (u : nat) : Q := sumQ (fun ec => if Nat.eqb (uid (fst ec)) u then snd ec else 0%Q) (combine (x_entries x) (x_coeffs x)).

(* The reaction lies on one of the pathways. *)
Definition on_pathways (cost : srxn -> Q) (rs : list srxn) (pathways : list (list (payload * Q))) (x : srxn) : Prop :=
  exists p xs, In p pathways /\ goes_through cost rs p xs /\ In x xs.

(* The entry number i is the one with the id u, the i-th of us: a i is what x makes of it. *)
Definition amounts_of (us : list nat) (x : srxn) (a : nat -> Q) : Prop :=
  forall i, (a i == match nth_error us i with Some u => amount x u | None => 0 end)%Q.

(* r makes the amounts a, except that negligible ones may be missing. *)
Definition makes_amounts (r : rxn) (a : nat -> Q) : Prop :=
  forall i, (turnover r i == a i \/ Qabs (a i) <= 1 # 100000000 /\ turnover r i == 0)%Q.

Definition total (ms : list Q) (steps : list (nat -> Q)) (i : nat) : Q := sumQ (fun ma => fst ma * snd ma i)%Q (combine ms steps).

(* The entry e of the list numbered by us stands for the entry x of the reactions. *)
Definition stands_for (us : list nat) (x : sentry) (e : entry) : Prop := nth_error us (e_id e) = Some (uid x) /\ e_comp e = comp x.

(* es are the entries with the ids us, numbered. *)
Definition lists_entries (comp_of : nat -> nat) (energy_of : nat -> Q) (us : list nat) (es : list entry) : Prop :=
  Forall2 (fun u e => e_comp e = comp_of u /\ e_energy e = energy_of u) us es /\ forall i e, nth_error es i = Some e -> e_id e = i.

(* The reaction is one between the entries es. *)
Definition only_entries (es : list entry) (r : rxn) : Prop := forall ek, In ek (parts r) -> In (fst ek) es.
