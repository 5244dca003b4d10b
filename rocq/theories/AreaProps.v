(* C123: the area measure of secondary competition. *)
From Verif Require Import Prelude NumQ HullModel HullSpec AreaModel AreaSpec AreaProofs AreaCheck.
Open Scope nat_scope.

(* Full claim: at every coordinate. Missing: reactions at the coordinate of a reactant (refuted below)
   and coordinates within the isclose tolerance of a different vertex. *)
Theorem C123_area_partial : forall volume h chain x, measures volume ->
  correct_hull (coords h) (qhull h) chain -> (0 < x < 1)%Q -> exact_coordinate (coords h) chain x ->
  exact_coordinate (coords h) chain 0 -> exact_coordinate (coords h) chain 1 ->
  exists a l r m, area_calculate volume h x = Ok a
  /\ get_max_decomposition_energy h 0 x = Ok l /\ get_max_decomposition_energy h x 1 = Ok r
  /\ ((x * - l + (1 - x) * - r) / 2 <= a)%Q /\ (a <= x * - l + (1 - x) * - r)%Q
  /\ get_secondary_competition_max_energy h x = Ok m
  /\ (0 <= a)%Q /\ (a <= m)%Q /\ (a == 0 <-> m == 0)%Q.
Proof. exact (fun volume h chain x Hv Hok => competition_area volume Hv h chain Hok x). Qed.
Print Assumptions C123_area_partial.

(* The area of a convex chain lies between half and all of its width times its depth. *)
Theorem C123_chain_area : forall l p rest m, l = p :: rest -> 2 <= length rest ->
  Sorted.StronglySorted (fun c d => (fst c <= fst d)%Q) l -> heights_defined l -> convex_points l ->
  max_decomposition_energy l = Ok m ->
  ((fst (last rest p) - fst p) * - m <= 2 * polygon_area l)%Q
  /\ (polygon_area l <= (fst (last rest p) - fst p) * - m)%Q.
Proof. exact (fun l p rest m El Hl Hs Hh Hv Hm => area_bounds l Hs Hh Hv p rest El Hl m Hm). Qed.
Print Assumptions C123_chain_area.

(* The decomposition of a stable reactant: the other measures return a score, this one raises. *)
Theorem C123_endpoint_refuted : exists h chain x y i,
  correct_hull (coords h) (qhull h) chain /\ nth_error (coords h) i = Some (x, y)
  /\ (exists m, get_secondary_competition_max_energy h x = Ok m)
  /\ forall volume, measures volume -> exists e, area_calculate volume h x = Err e.
Proof. exact (ex_intro _ decomposition_at_zero (ex_intro _ [0; 2; 3] (ex_intro _ 0%Q (ex_intro _ (3#10)%Q (ex_intro _ 1 endpoint_raises))))). Qed.
Print Assumptions C123_endpoint_refuted.

Example C123_demo : measures exact_volume
  /\ (correct_hull (coords four_points) (qhull four_points) [0; 1; 2; 5]
      /\ exact_coordinate (coords four_points) [0; 1; 2; 5] (3#4)
      /\ exact_coordinate (coords four_points) [0; 1; 2; 5] 0 /\ exact_coordinate (coords four_points) [0; 1; 2; 5] 1)
  /\ exists a, get_secondary_competition_area exact_volume four_points (3#4) = Ok a /\ (a == 33#400)%Q.
Proof. exact (conj exact_measures (conj four_points_ok four_points_area)). Qed.
