(* Concrete hulls for the area measure. *)
From Coq Require Import Qabs.
From Verif Require Import Prelude NumQ HullModel HullSpec HullCheck AreaModel AreaSpec.
Open Scope nat_scope.

Definition exact_volume (l : list coord) : result Q :=
  if Nat.ltb (length l) 3 then Err ValueError else Ok (polygon_area l).
Lemma exact_measures : measures exact_volume.
Proof.
  split; intros l H; unfold exact_volume.
  - intros _ _. eexists. destruct (Nat.ltb_spec (length l) 3); [lia|]. split; reflexivity.
  - exists ValueError. destruct (Nat.ltb_spec (length l) 3); [reflexivity|lia].
Qed.

Definition four_points : hull :=
  {| coords := [(0, 0); (1#4, -2#10); (1#2, -26#100); (1#2, 1#10); (3#4, -1#10); (1, 0)]%Q; qhull := [1; 0; 5; 2; 3] |}.
Lemma four_points_ok : correct_hull (coords four_points) (qhull four_points) [0; 1; 2; 5]
  /\ exact_coordinate (coords four_points) [0; 1; 2; 5] (3#4)
  /\ exact_coordinate (coords four_points) [0; 1; 2; 5] 0 /\ exact_coordinate (coords four_points) [0; 1; 2; 5] 1.
Proof.
  split; [apply correct_hull_b_ok; [left; reflexivity|do 5 right; left; reflexivity|vm_compute; reflexivity]|].
  repeat split; apply exact_b_ok; vm_compute; reflexivity.
Qed.
Lemma four_points_area : exists a, get_secondary_competition_area exact_volume four_points (3#4) = Ok a /\ (a == 33#400)%Q.
Proof. eexists. split; vm_compute; reflexivity. Qed.

(* The reaction A -> B + C of a stable reactant A lies above the hull at coordinate 0. *)
Definition decomposition_at_zero : hull :=
  {| coords := [(0, 0); (0, 3#10); (1#2, -26#100); (1, 0)]%Q; qhull := [0; 1; 2; 3] |}.
Lemma endpoint_raises : correct_hull (coords decomposition_at_zero) (qhull decomposition_at_zero) [0; 2; 3]
  /\ nth_error (coords decomposition_at_zero) 1 = Some (0, 3#10)%Q
  /\ (exists m, get_secondary_competition_max_energy decomposition_at_zero 0 = Ok m)
  /\ forall volume, measures volume -> exists e, get_secondary_competition_area volume decomposition_at_zero 0 = Err e.
Proof.
  split; [apply correct_hull_b_ok; [left; reflexivity|do 3 right; left; reflexivity|vm_compute; reflexivity]|].
  split; [reflexivity|]. split; [eexists; vm_compute; reflexivity|].
  intros volume [_ H]. unfold get_secondary_competition_area, get_decomposition_area.
  replace (get_coords_in_range decomposition_at_zero 0 0) with (Ok [(0, 0)%Q]) by (vm_compute; reflexivity).
  cbn [bind length Nat.eqb]. destruct (H [(0, 0)%Q] ltac:(cbn; lia)) as (e & ->). exists e. reflexivity.
Qed.
