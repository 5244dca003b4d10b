(* Model of the calculators of competition on the hull of the reactions between two reactants
   (costs/calculators.py:136-316 and costs/base.py:22-35), the area measure included. *)
From Verif Require Import Prelude NumQ ReactionModel HullModel AreaModel IrhModel.
Open Scope nat_scope.

Section Calc.
Variable C : chem.
Variable round12 : Q -> Q.
Variable req : rxn -> rxn -> bool.
Variable volume : list coord -> result Q.        (* ConvexHull(_, qhull_options="QJ i").volume *)

(* hull.py:266-280 get_secondary_competition_area *)
Definition secondary_area (h : irh) (r : rxn) : result Q :=
  bind (get_coordinate C round12 (i_c1 h) (i_c2 h) r) (get_secondary_competition_area volume (i_hull h)).

(* The five classes of calculators.py:136-316; calculate of each *)
Inductive competition := Of (k : calculator) | Area.
Definition compete (k : competition) (h : irh) (r : rxn) : result Q :=
  match k with Of k => calculate C round12 req k h r | Area => secondary_area h r end.
(* base.py:22-35 calculate_many *)
Definition calculate_many (k : competition) (h : irh) (rs : list rxn) : result (list Q) := mapM (compete k h) rs.
End Calc.
