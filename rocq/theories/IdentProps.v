(* C144: theorems about is_identity. *)
From Verif Require Import Prelude NumQ SumQ ReactionModel ReactionSpec ReactionCheck IdentSpec IdentProofs.
Open Scope nat_scope.

(* --- C144 --- *)
(* A balanced reaction is an identity exactly if it gives back what it takes, up to the tolerance.
   Missing: unbalanced reactions and compositions that are listed twice on one side. *)
Theorem C144_identity_partial : forall C cs ks b n, let r := basic_init C cs ks b n in once_per_side r -> balanced r = true ->
  (is_identity r = true <-> same_species r /\ forall c, isclose (taken r c) (given r c) = true).
Proof. exact balanced_identity. Qed.
Print Assumptions C144_identity_partial.

(* The amounts of an unbalanced reaction are not looked at. *)
Theorem C144_unbalanced_partial : forall C cs ks b n, let r := basic_init C cs ks b n in balanced r = false -> (is_identity r = true <-> same_species r).
Proof. exact unbalanced_identity. Qed.
Print Assumptions C144_unbalanced_partial.

(* So A -> 2 A is an identity. *)
Theorem C144_unbalanced_refuted : exists C cs ks c, let r := basic_init C cs ks None (Some 0) in
  wf_chem C /\ once_per_side r /\ is_identity r = true /\ (taken r c == 1)%Q /\ (given r c == 2)%Q.
Proof.
  exists demo, [9; 9], [-1; 2]%Q, 9. split; [exact demo_wf|]. split; [split; repeat constructor; cbn; tauto|]. vm_compute. repeat split; reflexivity.
Qed.
Print Assumptions C144_unbalanced_refuted.

(* And A + A -> 2 A is none: only the last amount of a composition is seen. *)
Theorem C144_repeated_refuted : exists C cs ks, let r := basic_init C cs ks (Some true) (Some 0) in
  wf_chem C /\ conserving C r /\ is_identity r = false /\ forall c, (taken r c == given r c)%Q.
Proof.
  exists demo, [9; 9; 9], [-1; -1; 2]%Q. split; [exact demo_wf|]. split; [intros e; cbn; ring|]. split; [vm_compute; reflexivity|].
  intros c. unfold taken, given. cbn. destruct c as [|[|[|[|[|[|[|[|[|[|c]]]]]]]]]]; reflexivity.
Qed.
Print Assumptions C144_repeated_refuted.

Example C144_demo : let r := basic_init demo [9; 10; 10; 9] [-1; -3; 3; 1]%Q None (Some 0) in let r' := basic_init demo [9; 10; 11; 12] [-1; -1; 1; 2]%Q (Some false) None in
  once_per_side r /\ balanced r = true /\ is_identity r = true /\ balanced r' = false /\ is_identity r' = false.
Proof.
  cbv zeta. split; [split; repeat constructor; cbn; intuition discriminate|]. vm_compute. repeat split; reflexivity.
Qed.
