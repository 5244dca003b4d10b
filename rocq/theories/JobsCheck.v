(* Concrete jobs: witnesses for C62, C85 and C86. *)
From Verif Require Import Prelude NumQ UtilsModel UtilsSpec UtilsProofs RxnSetSpec JobsModel JobsSpec JobsProofs RxnSetCheck.
Open Scope nat_scope.

Definition rx (i : nat) (a b : list nat) (e : Q) : jrxn := {| j_id := i; j_reactants := a; j_products := b; j_energy := e |}.
Definition same_id (a b : jrxn) : bool := Nat.eqb (j_id a) (j_id b).
Definition no_hull (_ _ : nat) (_ : list jrxn) (_ : jrxn) : result (Q * Q) := Err ValueError.
Definition hull_of (a b : nat) (l : list jrxn) (_ : jrxn) : result (Q * Q) := Ok (inject_Z (Z.of_nat a), inject_Z (Z.of_nat b)).
Definition keep {A} (x : A) : A := x.

Definition some_all := [rx 0 [1] [2] (-1 # 10); rx 1 [1] [3] (-3 # 10); rx 2 [1; 7] [4] (-5 # 10); rx 3 [5] [2] (1 # 10)].

Lemma little_memory : exists r, length (j_reactants r) = 1 /\ forall wait, competition same_id keep no_hull keep wait 100 1 1 249 [r] [r] None = Err ZeroDivisionError.
Proof. exists (rx 0 [1] [2] (-1 # 10)). split; [reflexivity|]. intros wait. vm_compute. reflexivity. Qed.

Lemma three_accepted : exists all r o out, precursors (Some o) r [1; 2; 3] /\ decorate same_id keep hull_of keep all (Some o) r = Ok out.
Proof.
  exists [], (rx 0 [1; 2; 3] [9] (-1 # 10)), 8. eexists. split; [|vm_compute; reflexivity].
  split; [repeat constructor; cbn; intuition discriminate|]. cbn. intros f. split; [|tauto]. intros H. split; [exact H|]. intuition congruence.
Qed.

Lemma open_counted : exists all r o, precursors (Some o) r [1]
  /\ decorate same_id keep no_hull keep all (Some o) r = Err ValueError
  /\ exists out, decorate same_id keep no_hull keep all (Some o) (rx (j_id r) [1] (j_products r) (j_energy r)) = Ok out.
Proof.
  exists [], (rx 0 [1; 7] [2] (-1 # 10)), 7. split.
  { split; [repeat constructor; cbn; tauto|]. cbn. intros f. intuition congruence. }
  split; [vm_compute; reflexivity|]. eexists. vm_compute. reflexivity.
Qed.

Lemma competitor_lost : exists all target o r s s', decorate same_id keep no_hull keep all (Some o) r = Ok (r, s)
  /\ (forall wait, valid_schedule wait -> make same_id keep no_hull keep wait 100 1 1000000 target all (Some o) = Ok [(r, s')])
  /\ ~ (fst s == fst s')%Q.
Proof.
  exists [rx 0 [1] [2] (-1 # 10); rx 2 [1; 7] [4] (-5 # 10)], 2, 7, (rx 0 [1] [2] (-1 # 10)).
  exists (40 # 100, 40 # 100)%Q, (-1 # 10, 0)%Q. split; [vm_compute; reflexivity|]. split.
  - intros wait Hw. set (r := rx 0 [1] [2] (-1 # 10)).
    change (competition same_id keep no_hull keep wait 100 1 1 1000000 [r] [r] (Some 7) = Ok [(r, (-1 # 10, 0)%Q)]).
    assert (F : fits 1 1 1000000) by (left; vm_compute; discriminate).
    pose proof (competition_spec same_id keep no_hull keep wait 100 1 1 1000000 [r] [r] (Some 7) Hw ltac:(lia) F) as H.
    destruct (competition _ _ _ _ _ _ _ _ _ _ _ _) as [out|]; [|destruct H].
    assert (E : mapM (decorate same_id keep no_hull keep [r] (Some 7)) [r] = Ok [(r, (-1 # 10, 0)%Q)]) by (vm_compute; reflexivity).
    rewrite E in H. cbn [agree] in H. apply Permutation_sym, Permutation_length_1_inv in H. rewrite H. reflexivity.
  - vm_compute. discriminate.
Qed.
