(* Area of a convex polygon given by its corners in order. *)
From Coq Require Import Qabs.
From Verif Require Import Prelude HullSpec.
Open Scope nat_scope.

Definition triangle (p q r : Q * Q) : Q :=
  (Qabs ((fst q - fst p) * (snd r - snd p) - (fst r - fst p) * (snd q - snd p)) / 2)%Q.

(* The polygon is the fan of the triangles at its first corner. *)
Fixpoint fan (p : Q * Q) (rest : list (Q * Q)) : Q :=
  match rest with
  | q :: ((r :: _) as rest') => (triangle p q r + fan p rest')%Q
  | _ => 0%Q
  end.
Definition polygon_area (l : list (Q * Q)) : Q :=
  match l with p :: rest => fan p rest | [] => 0%Q end.

(* What qhull must deliver: the area of a convex polygon whose corners are listed from left to right
   along its lower boundary, and an exception for fewer than three points. *)
Definition measures (volume : list (Q * Q) -> result Q) : Prop :=
  (forall l, 3 <= length l -> heights_defined l -> convex_points l ->
     exists a, volume l = Ok a /\ (a == polygon_area l)%Q)
  /\ (forall l, length l < 3 -> exists e, volume l = Err e).
