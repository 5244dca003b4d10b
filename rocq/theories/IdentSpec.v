(* When a reaction changes nothing. *)
From Verif Require Import Prelude NumQ SumQ ReactionModel ReactionSpec.
Open Scope nat_scope.

(* What a reaction takes and gives of a composition. *)
Definition taken (r : brxn) (c : nat) : Q := sumQ (fun ck => if Nat.eqb (fst ck) c && Qlt_bool (snd ck) 0 then (- snd ck)%Q else 0%Q) (species r).
Definition given (r : brxn) (c : nat) : Q := sumQ (fun ck => if Nat.eqb (fst ck) c && Qlt_bool 0 (snd ck) then snd ck else 0%Q) (species r).
(* No composition is listed twice on one side. *)
Definition once_per_side (r : brxn) : Prop :=
  NoDup (map fst (filter (fun ck => Qlt_bool (snd ck) 0) (species r))) /\ NoDup (map fst (filter (fun ck => Qlt_bool 0 (snd ck)) (species r))).
(* The same compositions are on both sides. *)
Definition same_species (r : brxn) : Prop := forall c, (0 < taken r c)%Q <-> (0 < given r c)%Q.
