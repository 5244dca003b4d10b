(* C154: calls to a hull that have no answer raise. *)
From Coq Require Import Sorting.Sorted.
From Verif Require Import Prelude NumQ HullModel HullErrorsProofs.
Open Scope nat_scope.

(* The energy of the hull and the secondary competition raise nothing but ValueError, whatever vertices qhull returns; and the
   energy of the hull is refused at a coordinate that lies before or behind all of its vertices and is close to none. *)
Theorem C154_hull : forall h x e,
  (get_hull_energy h x = Err e -> e = ValueError)
  /\ (get_secondary_competition_max_energy h x = Err e -> e = ValueError)
  /\ ((forall i p, In i (qhull h) -> nth_error (coords h) i = Some p -> (x < fst p)%Q /\ isclose x (fst p) = false)
      \/ (forall i p, In i (qhull h) -> nth_error (coords h) i = Some p -> (fst p < x)%Q /\ isclose x (fst p) = false) ->
      get_hull_energy h x = Err ValueError).
Proof. exact hull_raises. Qed.
Print Assumptions C154_hull.

(* Primary competition of a reaction: answered exactly when a reaction of the hull has its coordinate and another one has not,
   otherwise ValueError. *)
Theorem C154_primary : forall h energy x, StronglySorted (fun c d => (fst c <= fst d)%Q) (coords h) ->
  ((exists v, get_primary_competition h energy x = Ok v) <-> (exists c, In c (coords h) /\ (fst c == x)%Q) /\ (exists c, In c (coords h) /\ ~ (fst c == x)%Q))
  /\ (~ ((exists c, In c (coords h) /\ (fst c == x)%Q) /\ (exists c, In c (coords h) /\ ~ (fst c == x)%Q)) -> get_primary_competition h energy x = Err ValueError).
Proof. exact primary_answers. Qed.
Print Assumptions C154_primary.

(* The energy above the hull: ValueError for a reaction that is not one of the hull, and no other exception at all. *)
Theorem C154_above : forall h i e, (length (coords h) <= i -> get_energy_above_hull h i = Err ValueError) /\ (get_energy_above_hull h i = Err e -> e = ValueError).
Proof. exact above_raises. Qed.
Print Assumptions C154_above.

(* count of a negative number of vertices is not refused: it reads the table of 23 numbers from its end, and raises only
   beyond that. *)
Theorem C154_count : forall k, (k < 0)%Z -> count k = if (k <? -23)%Z then Err IndexError else count (23 + k).
Proof. exact count_negative. Qed.
Print Assumptions C154_count.

Definition three_points : hull := {| coords := [(1 # 10, 0); (1 # 2, -1 # 4); (9 # 10, 0)]%Q; qhull := [2; 0; 1; 7] |}.
Example C154_hull_demo : get_hull_energy three_points (1 # 20) = Err ValueError /\ get_hull_energy three_points (19 # 20) = Err ValueError
  /\ get_secondary_competition_max_energy three_points (1 # 2) = Err ValueError
  /\ match get_hull_energy three_points (3 # 10) with Ok e => (e == - (1 # 8))%Q | Err _ => False end
  /\ (forall i p, In i (qhull three_points) -> nth_error (coords three_points) i = Some p -> (1 # 20 < fst p)%Q /\ isclose (1 # 20) (fst p) = false).
Proof.
  split; [vm_compute; reflexivity|]. split; [vm_compute; reflexivity|]. split; [vm_compute; reflexivity|]. split; [vm_compute; reflexivity|].
  intros i p [<-|[<-|[<-|[<-|[]]]]] [= <-]; split; reflexivity.
Qed.
Example C154_above_demo : get_energy_above_hull three_points 3 = Err ValueError /\ (exists v, get_energy_above_hull three_points 1 = Ok v)
  /\ get_energy_above_hull {| coords := [(0, 0)]%Q; qhull := [0] |} 0 = Err ValueError.
Proof. split; [vm_compute; reflexivity|]. split; [eexists; vm_compute; reflexivity|vm_compute; reflexivity]. Qed.
Example C154_primary_demo : StronglySorted (fun c d : coord => (fst c <= fst d)%Q) (coords three_points)
  /\ get_primary_competition three_points 0 (1 # 2) = Ok 0%Q /\ get_primary_competition three_points 0 (1 # 3) = Err ValueError
  /\ get_primary_competition {| coords := [(0, 0); (0, -1 # 2)]%Q; qhull := [] |} 0 0 = Err ValueError.
Proof. split; [repeat constructor; vm_compute; discriminate|]. repeat split; vm_compute; reflexivity. Qed.
Example C154_count_demo : count (-1) = count 22 /\ count (-23) = Ok 1%Z /\ count (-24) = Err IndexError.
Proof. vm_compute. repeat split. Qed.
