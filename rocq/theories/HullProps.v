(* C24-C29: theorems about the interface reaction hull. *)
From Verif Require Import Prelude NumQ HullModel HullSpec CatalanProofs HullDecompProofs HullChainProofs
  HullEnergyProofs HullCompetitionProofs HullSignProofs HullCheck.
Open Scope nat_scope.

(* --- C24 --- *)
Theorem C24_count_is_number_of_trees : forall n,
  (exists ts, all_trees n ts)
  /\ forall ts, all_trees n ts -> count (Z.of_nat n) = Ok (Z.of_nat (length ts)).
Proof. exact (fun n => conj (ex_intro _ _ (trees_all n)) (count_is_number_of_trees n)). Qed.
Print Assumptions C24_count_is_number_of_trees.

Theorem C24_count_recurrence : forall n,
  exists c : nat -> Z, (forall k, count (Z.of_nat k) = Ok (c k)) /\ c 0 = 1%Z
  /\ c (S n) = fold_right Z.add 0%Z (map (fun i => (c i * c (n - i)%nat)%Z) (seq 0 (S n))).
Proof. exact count_recurrence. Qed.
Print Assumptions C24_count_recurrence.

Example C24_small : count 3 = Ok 5%Z /\ count 24 = Ok 1289904147324%Z.
Proof. vm_compute. split; reflexivity. Qed.

(* --- C25 --- *)
(* The closed formula is the sum over all decomposition trees. *)
Theorem C25_fast_is_tree_sum : forall cs ts,
  2 <= length cs -> heights_defined cs -> all_trees (length cs - 2) ts ->
  exists e, decomposition_energy cs = Ok e
  /\ (e == sum_energies (fun i => nth i cs (0, 0)) ts 0 (length cs - 1))%Q.
Proof. exact (fun cs ts Hl _ Ht => decomposition_energy_spec cs ts Hl Ht). Qed.
Print Assumptions C25_fast_is_tree_sum.

(* Full claim: for every hull the recursive function returns the same energy and
   count(number of interior points) paths. Missing here: hulls with a decomposing
   reactant (refuted below) and coordinates within the isclose tolerance of a
   different vertex. *)
Theorem C25_recursive_agrees_partial : forall h chain a b,
  correct_hull (coords h) (qhull h) chain -> separated (coords h) chain -> stable_ends (coords h) chain ->
  (0 <= a)%Q -> (a < b)%Q -> (b <= 1)%Q ->
  exact_coordinate (coords h) chain a -> exact_coordinate (coords h) chain b ->
  exists e v n, get_decomposition_energy h a b = Ok e /\ num_paths h a b = Ok n
  /\ decomposition_recursive (rec_fuel h) h a b true true = Ok (v, n) /\ (v == e)%Q /\ (1 <= n)%Z.
Proof. exact (fun h chain a b Hok Hsep Hst => agree_between h chain Hok Hsep Hst a b). Qed.
Print Assumptions C25_recursive_agrees_partial.

Definition hull_good : hull :=
  {| coords := [(0, 0); (1#4, -2#10); (1#2, -26#100); (1#2, 1#10); (3#4, -1#10); (1, 0)]%Q; qhull := [1; 0; 5; 2; 3] |}.
Definition hull_decomposing : hull :=
  {| coords := [(0, 0); (0, -1#10); (1#4, -2#10); (1#2, -26#100); (1, 0)]%Q; qhull := [0; 1; 2; 3; 4] |}.

Example hull_good_ok : correct_hull (coords hull_good) (qhull hull_good) [0; 1; 2; 5]
  /\ separated (coords hull_good) [0; 1; 2; 5] /\ stable_ends (coords hull_good) [0; 1; 2; 5]
  /\ exact_coordinate (coords hull_good) [0; 1; 2; 5] (1#2)
  /\ exact_coordinate (coords hull_good) [0; 1; 2; 5] 0 /\ exact_coordinate (coords hull_good) [0; 1; 2; 5] 1.
Proof.
  split; [apply correct_hull_b_ok; [left; reflexivity|do 5 right; left; reflexivity|vm_compute; reflexivity]|].
  split; [apply separated_b_ok; vm_compute; reflexivity|].
  split; [apply stable_ends_b_ok; vm_compute; reflexivity|].
  repeat split; apply exact_b_ok; vm_compute; reflexivity.
Qed.
Example hull_decomposing_ok : correct_hull (coords hull_decomposing) (qhull hull_decomposing) [1; 2; 3; 4]
  /\ separated (coords hull_decomposing) [1; 2; 3; 4]
  /\ exact_coordinate (coords hull_decomposing) [1; 2; 3; 4] (1#2)
  /\ exact_coordinate (coords hull_decomposing) [1; 2; 3; 4] 0
  /\ exact_coordinate (coords hull_decomposing) [1; 2; 3; 4] 1.
Proof.
  split; [apply correct_hull_b_ok; [left; reflexivity|do 4 right; left; reflexivity|vm_compute; reflexivity]|].
  split; [apply separated_b_ok; vm_compute; reflexivity|].
  repeat split; apply exact_b_ok; vm_compute; reflexivity.
Qed.

(* A reactant that decomposes: the two algorithms give different energies. *)
Theorem C25_recursive_refuted : exists h chain a b e v n,
  correct_hull (coords h) (qhull h) chain /\ separated (coords h) chain
  /\ (0 <= a)%Q /\ (a < b)%Q /\ (b <= 1)%Q
  /\ exact_coordinate (coords h) chain a /\ exact_coordinate (coords h) chain b
  /\ get_decomposition_energy h a b = Ok e
  /\ decomposition_recursive (rec_fuel h) h a b true true = Ok (v, n) /\ ~ (v == e)%Q.
Proof.
  exists hull_decomposing, [1; 2; 3; 4], 0%Q, (1#2)%Q.
  eexists _, _, _.
  destruct hull_decomposing_ok as (H1 & H2 & H3 & H4 & H5).
  split; [exact H1|]. split; [exact H2|]. split; [discriminate|]. split; [reflexivity|]. split; [discriminate|].
  split; [exact H4|]. split; [exact H3|]. split; [vm_compute; reflexivity|]. split; [vm_compute; reflexivity|].
  vm_compute. discriminate.
Qed.
Print Assumptions C25_recursive_refuted.

(* --- C26 --- *)
(* Full claim: for every hull and coordinate. Missing: end point reactions with
   normalize=False and decomposing reactants (both refuted below), coordinates
   within the isclose tolerance of a different vertex. *)
Theorem C26_algorithms_agree_partial : forall h chain x normalize,
  correct_hull (coords h) (qhull h) chain -> separated (coords h) chain -> stable_ends (coords h) chain ->
  (0 <= x <= 1)%Q -> exact_coordinate (coords h) chain x ->
  ((0 < x < 1)%Q \/ normalize = true) ->
  exists s1 s2, get_secondary_competition h x normalize false = Ok s1
  /\ get_secondary_competition h x normalize true = Ok s2 /\ (s1 == s2)%Q.
Proof. exact (fun h chain x normalize Hok Hsep Hst => competition_agree h chain Hok Hsep Hst x normalize). Qed.
Print Assumptions C26_algorithms_agree_partial.

Theorem C26_endpoint_refuted : exists h chain s1 s2,
  correct_hull (coords h) (qhull h) chain /\ separated (coords h) chain /\ stable_ends (coords h) chain
  /\ get_secondary_competition h 0 false false = Ok s1
  /\ get_secondary_competition h 0 false true = Ok s2 /\ (1000000 * s2 < s1)%Q.
Proof.
  exists hull_good, [0; 1; 2; 5]. eexists _, _. destruct hull_good_ok as (H1 & H2 & H3 & _).
  split; [exact H1|]. split; [exact H2|]. split; [exact H3|].
  split; [vm_compute; reflexivity|]. split; [vm_compute; reflexivity|]. vm_compute. reflexivity.
Qed.
Print Assumptions C26_endpoint_refuted.

Theorem C26_decomposing_reactant_refuted : exists h chain x s1 s2,
  correct_hull (coords h) (qhull h) chain /\ separated (coords h) chain
  /\ (0 < x < 1)%Q /\ exact_coordinate (coords h) chain x
  /\ get_secondary_competition h x true false = Ok s1
  /\ get_secondary_competition h x true true = Ok s2 /\ ~ (s1 == s2)%Q.
Proof.
  exists hull_decomposing, [1; 2; 3; 4], (1#2)%Q. eexists _, _.
  destruct hull_decomposing_ok as (H1 & H2 & H3 & _).
  split; [exact H1|]. split; [exact H2|]. split; [split; reflexivity|]. split; [exact H3|].
  split; [vm_compute; reflexivity|]. split; [vm_compute; reflexivity|]. vm_compute. discriminate.
Qed.
Print Assumptions C26_decomposing_reactant_refuted.

(* --- C27 --- *)
Theorem C27_reactions_by_coordinate : forall h chain x,
  correct_hull (coords h) (qhull h) chain -> (0 <= x <= 1)%Q ->
  exists res x', get_reactions_by_coordinate h x = Ok res
  /\ length res <= 2
  /\ (forall i w, In (i, w) res -> In i chain /\ (0 <= w)%Q)
  /\ (Qsum (map snd res) == 1)%Q
  /\ (Qsum (map (fun iw => snd iw * fst (nth (fst iw) (coords h) (0, 0))) res) == x')%Q
  /\ isclose x x' = true.
Proof. exact (fun h chain x Hok => reactions_weights h chain Hok x). Qed.
Print Assumptions C27_reactions_by_coordinate.

(* Full claim: at every coordinate. Missing: coordinates within the isclose
   tolerance of a different vertex (refuted below). *)
Theorem C27_hull_energy_is_envelope_partial : forall h chain x,
  correct_hull (coords h) (qhull h) chain -> (0 <= x <= 1)%Q -> exact_coordinate (coords h) chain x ->
  exists e, get_hull_energy h x = Ok e /\ envelope (coords h) x e.
Proof.
  exact (fun h chain x Hok Hx Hex =>
    let (e, H) := hull_energy_spec h chain Hok x Hx Hex in
    ex_intro _ e (conj (proj1 H) (proj2 (proj2 H)))).
Qed.
Print Assumptions C27_hull_energy_is_envelope_partial.

Theorem C27_energy_above_hull_partial : forall h chain i c,
  correct_hull (coords h) (qhull h) chain -> nth_error (coords h) i = Some c -> (0 <= fst c <= 1)%Q ->
  exact_coordinate (coords h) chain (fst c) ->
  exists d, get_energy_above_hull h i = Ok d /\ (0 <= d)%Q /\ (In i chain -> (d == 0)%Q).
Proof. exact (fun h chain i c Hok => energy_above_hull_spec h chain Hok i c). Qed.
Print Assumptions C27_energy_above_hull_partial.

Example C27_good : exists e d, get_hull_energy hull_good (3#4) = Ok e /\ (e == -13#100)%Q
  /\ get_energy_above_hull hull_good 4 = Ok d /\ (d == 3#100)%Q.
Proof. eexists _, _. split; [vm_compute; reflexivity|]. split; [vm_compute; reflexivity|].
  split; vm_compute; reflexivity. Qed.

(* Two vertices closer than the tolerance: a vertex of the hull is reported below it. *)
Theorem C27_tolerance_refuted : exists h chain i d,
  correct_hull (coords h) (qhull h) chain /\ In i chain
  /\ get_energy_above_hull h i = Ok d /\ (d < 0)%Q.
Proof.
  exists {| coords := [(0, 0); (1#4, -1); (250001#1000000, -1000003#1000000); (1#2, -3#2); (1, 0)]%Q;
            qhull := [0; 1; 2; 3; 4] |}, [0; 1; 2; 3; 4], 2. eexists.
  split; [apply correct_hull_b_ok; [left; reflexivity|do 4 right; left; reflexivity|vm_compute; reflexivity]|].
  split; [do 2 right; left; reflexivity|]. split; [vm_compute; reflexivity|]. vm_compute. reflexivity.
Qed.
Print Assumptions C27_tolerance_refuted.

(* --- C28 --- *)
Theorem C28_primary_competition : forall h energy x,
  sorted_by_x (coords h) ->
  (exists c, In c (coords h) /\ (fst c == x)%Q) -> (exists c, In c (coords h) /\ ~ (fst c == x)%Q) ->
  exists r m, get_primary_competition h energy x = Ok r /\ (r == energy - m)%Q
  /\ (exists c, In c (coords h) /\ ~ (fst c == x)%Q /\ snd c = m)
  /\ (forall c, In c (coords h) -> ~ (fst c == x)%Q -> (m <= snd c)%Q).
Proof. exact (fun h energy x Hs => primary_spec h energy x (sorted_by_x_iff _ Hs)). Qed.
Print Assumptions C28_primary_competition.

Example C28_good : sorted_by_x (coords hull_good) /\ exists r,
  get_primary_competition hull_good (-26#100) (1#2) = Ok r /\ (r == -6#100)%Q.
Proof. split; [apply sorted_b_ok; vm_compute; reflexivity|]. eexists. split; vm_compute; reflexivity. Qed.

(* --- C29 --- *)
Theorem C29_convex_list_signs : forall l, heights_defined l -> convex_points l ->
  exists e m, decomposition_energy l = Ok e /\ max_decomposition_energy l = Ok m
  /\ (e <= m)%Q /\ (m <= 0)%Q.
Proof. exact (fun l _ => convex_signs l). Qed.
Print Assumptions C29_convex_list_signs.

(* Full claim: at every coordinate. Missing: coordinates within the isclose
   tolerance of a different vertex (refuted below). *)
Theorem C29_competition_nonneg_partial : forall h chain x normalize,
  correct_hull (coords h) (qhull h) chain -> (0 <= x <= 1)%Q -> exact_coordinate (coords h) chain x ->
  exact_coordinate (coords h) chain 0 -> exact_coordinate (coords h) chain 1 ->
  exists s m, get_secondary_competition h x normalize false = Ok s
  /\ get_secondary_competition_max_energy h x = Ok m /\ (0 <= s)%Q /\ (0 <= m)%Q
  /\ (normalize = false -> (m <= s)%Q).
Proof. exact (fun h chain x normalize Hok => competition_nonneg h chain Hok x normalize). Qed.
Print Assumptions C29_competition_nonneg_partial.

(* A reaction just left of a vertex, within the tolerance: it gets the energy of that vertex
   and a negative competition. *)
Theorem C29_tolerance_refuted : exists h chain i x y s,
  correct_hull (coords h) (qhull h) chain /\ nth_error (coords h) i = Some (x, y) /\ (0 < x < 1)%Q
  /\ get_secondary_competition h x true false = Ok s /\ (s < 0)%Q.
Proof.
  exists {| coords := [(0, 0); (1#4, -1#4); (250009#1000000, -1#5); (25001#100000, -2500099#10000000); (1, 0)]%Q;
            qhull := [0; 1; 3; 4] |}, [0; 1; 3; 4], 2. eexists _, _, _.
  split; [apply correct_hull_b_ok; [left; reflexivity|do 4 right; left; reflexivity|vm_compute; reflexivity]|].
  split; [reflexivity|]. split; [split; reflexivity|]. split; [vm_compute; reflexivity|]. vm_compute. reflexivity.
Qed.
Print Assumptions C29_tolerance_refuted.

(* The lists the energies are computed from never contain a vertical triple, so no
   altitude divides by zero. *)
Theorem C29_range_heights_defined : forall h chain a b,
  correct_hull (coords h) (qhull h) chain -> (0 <= a)%Q -> (a <= b)%Q -> (b <= 1)%Q ->
  exact_coordinate (coords h) chain a -> exact_coordinate (coords h) chain b ->
  exists l, get_coords_in_range h a b = Ok l /\ heights_defined l /\ convex_points l.
Proof. exact range_defined. Qed.
Print Assumptions C29_range_heights_defined.

Example C29_good : exists s, get_secondary_competition hull_decomposing (1#2) true false = Ok s /\ (s == 145#1000)%Q.
Proof. eexists. split; vm_compute; reflexivity. Qed.
