(* A concrete competition job: non-vacuity for C120. *)
From Coq Require Import Lqa Qround.
From Verif Require Import Prelude NumQ SumQ UtilsModel UtilsSpec ReactionModel ReactionSpec ReactionBaseProofs ChemTable HullModel HullSpec HullCheck
  IrhModel IrhSpec IrhCheck JobsModel JobsSpec CompModel CompSpec CompProofs.
From Verif Require RxnSetCheck.
Open Scope nat_scope.

Lemma round12_eq a b : (a == b)%Q -> (round12 a == round12 b)%Q.
Proof.
  intros E. unfold round12. replace (Qfloor (b * inject_Z (10 ^ 12) + (1 # 2))) with (Qfloor (a * inject_Z (10 ^ 12) + (1 # 2))); [reflexivity|].
  apply Qfloor_comp. rewrite E. reflexivity.
Qed.

(* 2 AB -> A2B + B *)
Definition ab_split : rxn := RComputed (computed_init ab [en 2 (-6 # 5); en 3 (-2); en 1 0] [-2; 1; 1]%Q None).
(* A + B + O -> A2B and more *)
Definition three_in : rxn := RComputed (computed_init ab [en 0 0; en 1 0; en 4 0; en 3 (-2); en 5 (-1)] [-3; -1; -1; 1; 1]%Q None).
Definition ab_rxns : list rxn := [a_ab; a_a2b; ab_split].
Definition same_round (q : Q) : Q := q.
Definition same_order (l : list nat) : list nat := l.
Definition comp_job (target : nat) (rs : list rxn) : result (list (rxn * (Q * Q))) :=
  competition_job ab same_round round12 RxnSetCheck.argsort all_four one_one one same_comps same_order RxnSetCheck.lifo_any 10 8 1000000 target rs None.

Lemma ab_split_proper : proper ab ab_split.
Proof.
  split; [|conserves]. exists [en 2 (-6 # 5); en 3 (-2); en 1 0], [-2; 1; 1]%Q, None. split; [reflexivity|].
  split; [|left; reflexivity]. apply nodupb_NoDup. vm_compute. reflexivity.
Qed.
Lemma three_in_proper : proper ab three_in.
Proof.
  split; [|conserves]. exists [en 0 0; en 1 0; en 4 0; en 3 (-2); en 5 (-1)], [-3; -1; -1; 1; 1]%Q, None. split; [reflexivity|].
  split; [|left; reflexivity]. apply nodupb_NoDup. vm_compute. reflexivity.
Qed.
Lemma elems_some c : c < 7 -> elems ab c <> [].
Proof. intros H. do 7 (destruct c as [|c]; [vm_compute; discriminate|]). lia. Qed.
Lemma genuine_all r : In r [a_ab; a_a2b; ab_split; three_in] -> genuine ab r.
Proof.
  assert (G : forall r, proper ab r -> (exists k, r = RComputed k) -> forallb (fun ck => fst ck <? 7) (species (base_of r)) = true -> (exists c, consumes r c) -> genuine ab r).
  { intros r' P K B X. split; [exact P|]. split; [exact K|]. split; [|exact X]. intros c k Hin. rewrite forallb_forall in B. apply B, Nat.ltb_lt in Hin. apply elems_some. exact Hin. }
  intros [<-|[<-|[<-|[<-|[]]]]]; apply G; try (eexists; reflexivity); try (vm_compute; reflexivity).
  - exact a_ab_proper.
  - exists 0, (-1)%Q. split; [vm_compute; tauto|reflexivity].
  - exact a_a2b_proper.
  - exists 0, (-2)%Q. split; [vm_compute; tauto|reflexivity].
  - exact ab_split_proper.
  - exists 2, (-2)%Q. split; [vm_compute; tauto|reflexivity].
  - exact three_in_proper.
  - exists 0, (-3)%Q. split; [vm_compute; tauto|reflexivity].
Qed.
Lemma fits_all n : n <= 4 -> fits n 8 1000000.
Proof. intros Hn. left. do 5 (destruct n as [|n]; [vm_compute; discriminate|]). lia. Qed.
Lemma three_in_three : three_reactants three_in.
Proof.
  exists 0, 1, 4. split; [lia|]. split; [exists (-3)%Q|split; [exists (-1)%Q|exists (-1)%Q]]; (split; [vm_compute; tauto|reflexivity]).
Qed.
Lemma comp_demo : exists p s p' s', comp_job 3 ab_rxns = Ok [(a_a2b, (p', s')); (ab_split, (p, s))]
  /\ (p == 1 # 10)%Q /\ (s == 1 # 10)%Q /\ (p' == - (1 # 15))%Q /\ (0 < s')%Q.
Proof. do 4 eexists. split; [vm_compute; reflexivity|]. repeat split; vm_compute; reflexivity. Qed.
