(* Property theorems for costs/pareto.py. *)
From Verif Require Import Prelude NumQ ParetoModel ParetoSpec ParetoProofs.

(* C04: the loop terminates and keeps exactly the non-dominated points; mask and
   index form agree. *)
Theorem C04_pareto_exact : forall costs,
  same_dim costs ->
  exists eff mask,
    is_pareto_efficient_indices costs = Ok eff
    /\ is_pareto_efficient_mask costs = Ok mask
    /\ NoDup eff
    /\ (forall i, In i eff <-> on_front le_all costs i)
    /\ length mask = length costs
    /\ (forall i, nth_error mask i = Some true <-> In i eff).
Proof. exact is_pareto_efficient_spec. Qed.
Print Assumptions C04_pareto_exact.

Example C04_example : same_dim [[1;3];[2;2];[2;3];[1;3];[3;1]]%Q
  /\ is_pareto_efficient_indices [[1;3];[2;2];[2;3];[1;3];[3;1]]%Q = Ok [0;1;4].
Proof. split; [exists 2; repeat constructor | vm_compute; reflexivity]. Qed.

(* C05, minimisation: the rows returned are exactly those on the front. *)
Theorem C05_front_minimize_partial : forall Row (get : Row -> list Q) df,
  same_dim (map get df) ->
  exists out, get_pareto_front get false df = Ok out
    /\ rows_at (on_front le_all (map get df)) df out.
Proof. exact @get_pareto_front_min. Qed.
Print Assumptions C05_front_minimize_partial.

(* C05, maximisation: what the code computes is the front for a small first
   metric and large other metrics. *)
Theorem C05_front_maximize_partial : forall Row (get : Row -> list Q) df,
  same_dim (map get df) ->
  exists out, get_pareto_front get true df = Ok out
    /\ rows_at (on_front first_le_rest_ge (map get df)) df out.
Proof. exact @get_pareto_front_max. Qed.
Print Assumptions C05_front_maximize_partial.

(* C05, maximisation: it is not the front for maximising every metric. *)
Theorem C05_front_maximize_refuted : exists df : list (list Q),
  same_dim df /\
  exists out, get_pareto_front (fun r => r) true df = Ok out
    /\ ~ rows_at (on_front ge_all df) df out.
Proof.
  exists [[1;1];[2;1]]%Q. split; [exists 2; repeat constructor|].
  exists [[1;1]]%Q. split; [vm_compute; reflexivity|].
  intros (idxs & Hin & _ & Hmap).
  assert (Hf : on_front ge_all [[1;1];[2;1]]%Q 1).
  { split; [simpl; lia|]. intros (j & p & q & Hj & Hi & Hle & Hor).
    simpl in Hi. injection Hi as <-.
    destruct j as [|[|[|j]]]; simpl in Hj; try discriminate; injection Hj as <-.
    - inversion Hle as [|? ? ? ? H1 H2]; subst. discriminate (proj2 (Qle_bool_iff 2 1) H1).
    - destruct Hor as [Hor|Hor]; [|lia]. apply Hor.
      repeat constructor; apply Qle_refl. }
  assert (H1 : In 1 idxs) by (apply Hin; split; [exact Hf | simpl; lia]).
  destruct idxs as [|i [|i' idxs]]; simpl in Hmap; try discriminate.
  destruct H1 as [->|[]]. simpl in Hmap. discriminate.
Qed.
Print Assumptions C05_front_maximize_refuted.

Example C05_example : get_pareto_front (fun r : nat * list Q => snd r) false
  [(0%nat,[1;1]);(1%nat,[2;1])]%Q = Ok [(0%nat,[1;1])]%Q
  /\ same_dim (map (fun r : nat * list Q => snd r) [(0%nat,[1;1]);(1%nat,[2;1])]%Q).
Proof. split; [vm_compute; reflexivity | exists 2; repeat constructor]. Qed.
