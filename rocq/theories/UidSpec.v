(* What an identifier of an entry has to do for a reaction set. *)
From Verif Require Import Prelude NumQ UtilsModel ReactionModel GibbsModel UidModel.
Open Scope nat_scope.

(* equality of identifiers is an equivalence *)
Definition equivalence {U} (r : U -> U -> bool) : Prop :=
  (forall u, r u u = true) /\ (forall u v, r u v = true -> r v u = true) /\ (forall u v w, r u v = true -> r v w = true -> r u w = true).

(* among the entries of l, equal entries have the same identifier, and other entries another one *)
Definition told_apart {E U} (same : E -> E -> bool) (uid : E -> U) (same_uid : U -> U -> bool) (l : list E) : Prop :=
  forall x y, In x l -> In y l -> (same x y = true <-> same_uid (uid x) (uid y) = true).

(* the reaction s is the reaction r, entry by entry *)
Definition same_rxn {E} (R : E -> E -> Prop) (s r : urxn E) : Prop :=
  Forall2 R (u_entries s) (u_entries r) /\ u_coeffs s = u_coeffs r.

(* a reaction of one entry *)
Definition single {E} (e : E) (c : Q) : urxn E := {| u_entries := [e]; u_coeffs := [c] |}.
