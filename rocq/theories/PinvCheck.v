(* Concrete runs for C122: A -> B, B -> D and A -> D make 2 A + 4 B -> 6 D. *)
From Coq Require Import Lqa.
From Verif Require Import Prelude NumQ UtilsModel UtilsSpec RxnSetModel PathModel PathSpec PathCheck SolverModel SolverSpec SolverCheck PinvModel.
Open Scope nat_scope.

Definition six_d : list Q := [-2; -4; 0; 6]%Q.
Definition dependent : list (list Q * Q) := [(a_to_b, 1%Q); (b_to_d, 2%Q); (a_to_d, 3%Q)].
Definition exact_run (max : nat) (fi : bool) : result (list (path (list Q))) :=
  solve same_row row_of from_pairs ins outs occs ins path_pinv lifo lifo (fun l => l) (map fst dependent) dependent six_d true 1 None 3 max fi.
Definition two_paths : list (path (list Q)) := [cp [a_to_b; b_to_d] [1; 2]%Q [2; 6]%Q; cp [b_to_d; a_to_d] [2; 3]%Q [4; 2]%Q].
Lemma exact_run_3 : exact_run 3 true = Ok two_paths /\ exact_run 3 false = Ok two_paths.
Proof. split; vm_compute; reflexivity. Qed.
Lemma three_weights j : j < 4 -> (weighted [1; 5; 1]%Q (map fst dependent) j == nth j six_d 0)%Q.
Proof. intros H. do 4 (destruct j as [|j]; [vm_compute; reflexivity|]). lia. Qed.
Lemma dependent_pool : pool same_row (map fst dependent) six_d dependent = dependent.
Proof. vm_compute. reflexivity. Qed.
Lemma one_missed : exists paths, exact_run 3 false = Ok paths
  /\ subseq dependent (pool same_row (map fst dependent) six_d dependent)
  /\ balances six_d (map fst dependent) [1; 5; 1]%Q /\ forall p, In p paths -> length (p_rxns p) <> 3.
Proof.
  exists two_paths. split; [exact (proj2 exact_run_3)|]. split; [rewrite dependent_pool; repeat apply subseq_take; constructor|]. split.
  - split; [reflexivity|]. split; [repeat constructor; vm_compute; discriminate|]. intros j Hj. rewrite (three_weights j Hj).
    assert (E : (nth j six_d 0 - nth j six_d 0 == 0)%Q) by ring. rewrite E. pose proof (Qabs_nonneg (nth j six_d 0%Q)) as H. assert (E0 : (Qabs 0 == 0)%Q) by reflexivity. rewrite E0. revert H. generalize (Qabs (nth j six_d 0%Q)). intros q Hq. lra.
  - intros p [<-|[<-|[]]]; discriminate.
Qed.
