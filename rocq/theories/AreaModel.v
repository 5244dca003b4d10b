(* Model of the area measure of secondary competition: reactions/hull.py:266-280 and 334-351,
   costs/calculators.py:285-316. *)
From Verif Require Import Prelude NumQ HullModel.
Open Scope nat_scope.

Section Area.
Variable volume : list coord -> result Q.        (* ConvexHull(_, qhull_options="QJ i").volume *)

(* reactions/hull.py:334-351 get_decomposition_area. *)
Definition get_decomposition_area (h : hull) (x1 x2 : Q) : result Q :=
  bind (get_coords_in_range h x1 x2) (fun coords =>
    if Nat.eqb (length coords) 2 then Ok 0%Q else volume coords).

(* reactions/hull.py:266-280 get_secondary_competition_area, for a reaction at coordinate x. *)
Definition get_secondary_competition_area (h : hull) (x : Q) : result Q :=
  bind (get_decomposition_area h 0 x) (fun left_area =>
  bind (get_decomposition_area h x 1) (fun right_area => Ok (left_area + right_area)%Q)).

(* costs/calculators.py:307-316 SecondaryCompetitionAreaCalculator.calculate; the reaction is given
   by its coordinate on the hull. *)
Definition area_calculate (irh : hull) (x : Q) : result Q := get_secondary_competition_area irh x.
End Area.
