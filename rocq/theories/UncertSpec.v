(* Vocabulary for C102. *)
From Verif Require Import Prelude NumQ SumQ UtilsSpec ReactionModel ReactionSpec.
Open Scope nat_scope.

Definition per_unit (C : chem) (e : entry) : Q := (e_energy e / fac C (e_comp e))%Q.

(* The entry at position p is the one that stands for composition c: the first of
   those with the least energy per formula unit. *)
Definition stands_for (C : chem) (es : list entry) (c p : nat) : Prop :=
  exists e, nth_error es p = Some e /\ red C (e_comp e) = c
  /\ (forall e', In e' es -> red C (e_comp e') = c -> (per_unit C e <= per_unit C e')%Q)
  /\ (forall q e', q < p -> nth_error es q = Some e' -> red C (e_comp e') = c -> (per_unit C e < per_unit C e')%Q).

(* Standard deviation of the energy per formula unit of the entry at position p; an
   unknown one is none. *)
Definition spread (C : chem) (unc : entry -> option Q) (es : list entry) (p : nat) : Q :=
  match nth_error es p with
  | Some e => (match unc e with Some s => s | None => 0 end / fac C (e_comp e))%Q
  | None => 0%Q
  end.

(* Net coefficient of the species c. *)
Definition net_of (l : list (nat * Q)) (c : nat) : Q := sumQ snd (filter (fun ck => fst ck =? c) l).

Definition square (q : Q) : Q := (q * q)%Q.
