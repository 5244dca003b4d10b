(* Vocabulary for C99. *)
From Coq Require Import Reals List.
Import ListNotations.
Open Scope R_scope.

Fixpoint scalar (a p : list R) : R :=
  match a, p with x :: a', y :: p' => x * y + scalar a' p' | _, _ => 0 end.
Definition on_plane (a : list R) (b : R) (p : list R) : Prop := length p = length a /\ scalar a p = b.
Fixpoint difference (p q : list R) : list R :=
  match p, q with x :: p', y :: q' => (x - y) :: difference p' q' | _, _ => [] end.
Definition distance (p q : list R) : R := sqrt (scalar (difference p q) (difference p q)).
(* v is the distance between the planes a x = b and a x = b' *)
Definition plane_gap (a : list R) (b b' v : R) : Prop :=
  (forall p q, on_plane a b p -> on_plane a b' q -> v <= distance p q)
  /\ forall p, on_plane a b p -> exists q, on_plane a b' q /\ distance p q = v.
