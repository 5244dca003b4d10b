(* Concrete measures: non-vacuity and a witness for C143. *)
From Coq Require Import Lqa.
From Verif Require Import Prelude NumQ SumQ UtilsModel ReactionModel ReactionSpec ReactionBaseProofs ChemTable HullModel HullSpec HullCheck
  AreaModel AreaSpec AreaCheck IrhModel IrhSpec IrhCheck CompSpec CalcModel CalcSpec.
From Verif Require RxnSetCheck.
Open Scope nat_scope.

Definition ab_compete (k : competition) (r : rxn) : result Q := compete ab round12 same_comps exact_volume k ab_built r.
Lemma ab_ends : exact_coordinate (coords (i_hull ab_built)) [0; 1; 2; 3] 0 /\ exact_coordinate (coords (i_hull ab_built)) [0; 1; 2; 3] 1.
Proof. split; apply exact_b_ok; vm_compute; reflexivity. Qed.

(* A2B and B: A2B + B -> 2 AB, and A2B -> 2 A + B, which costs energy. *)
Definition mixed : rxn := RComputed (computed_init ab [en 3 (-2); en 1 0; en 2 (-3 # 2)] [-1; -1; 2]%Q None).
Definition falls_apart : rxn := RComputed (computed_init ab [en 3 (-2); en 0 0; en 1 0] [-1; 2; 1]%Q None).
Definition split_hull : result irh := build ab round12 RxnSetCheck.argsort (fun _ => Ok [0; 1; 2; 3]) one_one one 3 1 [mixed; falls_apart].
Definition split_built : irh := Eval vm_compute in match split_hull with Ok h => h | Err _ => {| i_c1 := 0; i_c2 := 0; i_reactions := []; i_hull := {| coords := []; qhull := [] |} |} end.
Lemma mixed_proper : proper ab mixed.
Proof.
  split; [|conserves]. exists [en 3 (-2); en 1 0; en 2 (-3 # 2)], [-1; -1; 2]%Q, None. split; [reflexivity|].
  split; [|left; reflexivity]. apply nodupb_NoDup. vm_compute. reflexivity.
Qed.
Lemma apart_proper : proper ab falls_apart.
Proof.
  split; [|conserves]. exists [en 3 (-2); en 0 0; en 1 0], [-1; 2; 1]%Q, None. split; [reflexivity|].
  split; [|left; reflexivity]. apply nodupb_NoDup. vm_compute. reflexivity.
Qed.
Lemma split_correct : correct_hull (coords (i_hull split_built)) (qhull (i_hull split_built)) [1; 2; 3].
Proof. apply correct_hull_b_ok; [cbn; tauto|cbn; tauto|vm_compute; reflexivity]. Qed.
Lemma area_raises : exists C comp1 comp2 rs h chain r, wf_chem C /\ (forall r, In r rs -> proper C r /\ (0 < takes C r (red C comp1) + takes C r (red C comp2))%Q)
  /\ build C round12 RxnSetCheck.argsort (fun _ => Ok [0; 1; 2; 3]) one_one one comp1 comp2 rs = Ok h /\ In r rs
  /\ correct_hull (coords (i_hull h)) (qhull (i_hull h)) chain
  /\ forall volume, measures volume ->
     (forall k, exists v, compete C round12 same_comps volume (Of k) h r = Ok v) /\ exists e, compete C round12 same_comps volume Area h r = Err e.
Proof.
  exists ab, 3, 1, [mixed; falls_apart], split_built, [1; 2; 3], falls_apart. split; [exact ab_wf|].
  split; [intros r [<-|[<-|[]]]; (split; [first [exact mixed_proper|exact apart_proper]|vm_compute; reflexivity])|].
  split; [vm_compute; reflexivity|]. split; [right; left; reflexivity|]. split; [exact split_correct|].
  intros volume [_ H]. split; [intros k; destruct k; eexists; vm_compute; reflexivity|].
  unfold compete, secondary_area. replace (get_coordinate ab round12 (i_c1 split_built) (i_c2 split_built) falls_apart) with (Ok 0.000000000000%Q) by (vm_compute; reflexivity).
  cbn [bind]. unfold get_secondary_competition_area, get_decomposition_area.
  set (l := get_coords_in_range (i_hull split_built) 0 0.000000000000%Q). vm_compute in l. subst l. cbn [bind length Nat.eqb].
  match goal with |- context [volume ?x] => destruct (H x ltac:(cbn; lia)) as (e & ->) end. exists e. reflexivity.
Qed.
Lemma ab_measures : (exists s, ab_compete (Of Secondary) a_ab = Ok s /\ (0 < s - (4 # 15) < 1 # 1000000000)%Q)
  /\ (exists s, ab_compete (Of SecondaryMax) a_a2b = Ok s /\ (0 < s - (1 # 10) < 1 # 1000000000)%Q)
  /\ (exists s, ab_compete Area a_a2b = Ok s /\ (0 < s - (1 # 30) < 1 # 1000000000)%Q).
Proof. repeat split; eexists; (split; [vm_compute; reflexivity|]); split; reflexivity. Qed.
