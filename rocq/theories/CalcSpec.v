(* What is asked of the calculators of competition. *)
From Verif Require Import Prelude NumQ HullSpec.
Open Scope nat_scope.

(* v is the greatest depth of a point of l below the line of a point before and a point behind
   it, 0 if there is none. *)
Definition greatest_release (l : list (Q * Q)) (v : Q) : Prop :=
  ((v == 0)%Q \/ exists i j k p q r, i < j < k /\ nth_error l i = Some p /\ nth_error l j = Some q /\ nth_error l k = Some r /\ (v == - height p q r)%Q)
  /\ (0 <= v)%Q
  /\ forall i j k p q r, i < j < k -> nth_error l i = Some p -> nth_error l j = Some q -> nth_error l k = Some r -> (- height p q r <= v)%Q.
