(* Vocabulary for the interface reaction hull: decomposition trees, heights, and
   what a correct lower convex hull is. *)
From Verif Require Import Prelude NumQ.

(* A decomposition sequence over n interior vertices is a binary tree: the root
   is the vertex that forms first, the subtrees decompose what is to its left and
   to its right. *)
Inductive tree := Leaf | Node (l r : tree).
Fixpoint size (t : tree) : nat :=
  match t with Leaf => 0 | Node l r => S (size l + size r) end.

(* ts lists every tree with n nodes exactly once. *)
Definition all_trees (n : nat) (ts : list tree) : Prop :=
  NoDup ts /\ forall t, In t ts <-> size t = n.

(* Vertical distance of the middle point from the segment joining the others. *)
Definition height (l m r : Q * Q) : Q :=
  (snd m - (snd l + (fst m - fst l) / (fst r - fst l) * (snd r - snd l)))%Q.

(* Energy released along a decomposition tree between the points number lo and hi. *)
Fixpoint tree_energy (pt : nat -> Q * Q) (t : tree) (lo hi : nat) : Q :=
  match t with
  | Leaf => 0%Q
  | Node l r =>
      let mid := lo + 1 + size l in
      (height (pt lo) (pt mid) (pt hi) + tree_energy pt l lo mid + tree_energy pt r mid hi)%Q
  end.

Definition sum_energies (pt : nat -> Q * Q) (ts : list tree) (lo hi : nat) : Q :=
  fold_right (fun t s => tree_energy pt t lo hi + s)%Q 0%Q ts.

(* No three points share their x coordinate and the x coordinates ascend, so every
   height is well defined. *)
Definition heights_defined (cs : list (Q * Q)) : Prop :=
  forall i k p q, i + 2 <= k -> nth_error cs i = Some p -> nth_error cs k = Some q ->
    (fst p < fst q)%Q.

(* Every middle point lies on or below the segment of its neighbours. *)
Definition convex_points (cs : list (Q * Q)) : Prop :=
  forall i j k p q r, i < j < k ->
    nth_error cs i = Some p -> nth_error cs j = Some q -> nth_error cs k = Some r ->
    (height p q r <= 0)%Q.

(* Value at x of the line through two points. *)
Definition line_through (p q : Q * Q) (x : Q) : Q :=
  (snd p + (x - fst p) / (fst q - fst p) * (snd q - snd p))%Q.

(* What a convex hull routine must deliver. [chain] lists, from left to right, the
   vertices of the lower hull of the points: consecutive vertices have ascending x
   and the line through them has every point on or above it. *)
Record lower_hull (cs : list (Q * Q)) (chain : list nat) : Prop := {
  lh_edges : forall l1 a b l2, chain = l1 ++ a :: b :: l2 ->
    a < b /\ exists p q, nth_error cs a = Some p /\ nth_error cs b = Some q
    /\ (fst p < fst q)%Q
    /\ forall c, In c cs -> (line_through p q (fst c) <= snd c)%Q;
  lh_first : exists a r p, chain = a :: r /\ nth_error cs a = Some p /\ (fst p == 0)%Q;
  lh_last : exists a r p, chain = r ++ [a] /\ nth_error cs a = Some p /\ (fst p == 1)%Q
}.

(* The points include the end points (0,0) and (1,0); the reported vertices are
   those of the lower hull plus vertices of the upper hull, which are positive or
   clearly above the lower vertex with the same x. *)
Record correct_hull (cs : list (Q * Q)) (vertices chain : list nat) : Prop := {
  ch_left : In (0, 0)%Q cs;
  ch_right : In (1, 0)%Q cs;
  ch_lower : lower_hull cs chain;
  ch_nodup : NoDup vertices;
  ch_chain : forall i, In i chain -> In i vertices;
  ch_upper : forall i, In i vertices -> ~ In i chain ->
    exists p, nth_error cs i = Some p
    /\ ((0 < snd p)%Q
        \/ exists j q, In j chain /\ nth_error cs j = Some q /\ (fst q == fst p)%Q
             /\ isclose (snd q) (snd p) = false)
}.

(* x is not within the floating point tolerance of a different vertex. *)
Definition exact_coordinate (cs : list (Q * Q)) (chain : list nat) (x : Q) : Prop :=
  forall i p, In i chain -> nth_error cs i = Some p -> isclose x (fst p) = true -> (x == fst p)%Q.

(* The vertices themselves are separated by more than the tolerance. *)
Definition separated (cs : list (Q * Q)) (chain : list nat) : Prop :=
  forall i p, In i chain -> nth_error cs i = Some p -> exact_coordinate cs chain (fst p).

(* Neither reactant decomposes: the end vertices of the lower hull have energy 0. *)
Definition stable_ends (cs : list (Q * Q)) (chain : list nat) : Prop :=
  forall i p, In i chain -> nth_error cs i = Some p ->
    (fst p == 0 \/ fst p == 1)%Q -> isclose (snd p) 0 = true.

(* A convex combination of points. *)
Definition combination (cs : list (Q * Q)) (ws : list ((Q * Q) * Q)) (x y : Q) : Prop :=
  (forall c w, In (c, w) ws -> In c cs /\ 0 <= w)%Q
  /\ (fold_right (fun cw s => snd cw + s) 0 ws == 1)%Q
  /\ (fold_right (fun cw s => snd cw * fst (fst cw) + s) 0 ws == x)%Q
  /\ (fold_right (fun cw s => snd cw * snd (fst cw) + s) 0 ws == y)%Q.

(* y is the value at x of the lower convex envelope of the points. *)
Definition envelope (cs : list (Q * Q)) (x y : Q) : Prop :=
  (exists ws, combination cs ws x y)
  /\ forall ws y', combination cs ws x y' -> (y <= y')%Q.

(* The stored coordinates ascend in x. *)
Definition sorted_by_x (cs : list (Q * Q)) : Prop :=
  forall i j p q, i < j -> nth_error cs i = Some p -> nth_error cs j = Some q -> (fst p <= fst q)%Q.
