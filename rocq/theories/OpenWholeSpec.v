(* What is asked of a whole flow with an open element. *)
From Verif Require Import Prelude NumQ SumQ ReactionModel RxnSetModel RxnSetSpec JoinSpec IntSpec.
Open Scope nat_scope.

Section Spec.
Variable C : chem.
Variable ent : nat -> entry.
Variable mid : nat -> Prop.
Variable ts : list nat.
Variable gas : nat.      (* the formula of the open phase *)
Let els (u : nat) : list nat := ReactionModel.elems C (e_comp (ent u)).

(* One or two solids, and some of the phases of the open element, all of the phases mid. *)
Definition gaseous_phase (u : nat) : Prop := red C (e_comp (ent u)) = gas.
Definition solid_phases (c : list nat) : Prop := few c /\ forall u, In u c -> mid u /\ ~ gaseous_phase u.
Definition gas_phases (c : list nat) : Prop := NoDup c /\ c <> [] /\ forall u, In u c -> mid u /\ gaseous_phase u.
Definition plus_gas (r p : list nat) : Prop := solid_phases r /\ exists c oc, solid_phases c /\ gas_phases oc /\ Permutation p (c ++ oc).

(* Solids on both sides and gas on one of them, with a target that is no gas; r and the gas are of two to nine elements. *)
Definition could_breathe (r p : list nat) : Prop :=
  (plus_gas r p \/ plus_gas p r) /\ (forall u, In u r -> ~ In u p) /\ (exists t, In t p /\ In t ts /\ ~ gaseous_phase t)
  /\ exists l, NoDup l /\ 2 <= length l <= 9 /\ forall el, In el l <-> exists u, (In u r \/ mid u /\ gaseous_phase u) /\ In el (els u).
End Spec.

(* A reaction between the entries: r turns into p. *)
Definition among (C : chem) (ent : nat -> entry) (entries : list nat) (x : srxn) : Prop :=
  plain x /\ (forall e, In e (x_entries x) -> exists i, In i entries /\ e = in_set C ent i) /\ exists r p, r <> [] /\ turns C ent r p x.
