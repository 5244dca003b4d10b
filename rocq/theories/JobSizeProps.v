(* C46: how the combinations are divided into jobs. *)
From Verif Require Import Prelude NumQ SolverModel JobSizeProofs.
Open Scope nat_scope.

(* Every combination is in one job, in order. No job is empty; from four reactions on none holds more than chunk_size
   combinations, below that the combinations of one size are one job. There are no more jobs than the solver counts on. *)
Theorem C46_jobs : forall chunk d, 1 <= chunk ->
  concat (jobs_of chunk d) = concat (map snd d)
  /\ (forall g, In g (jobs_of chunk d) -> g <> [] /\ exists n Ms, In (n, Ms) d /\ (n < 4 /\ g = Ms \/ 4 <= n /\ length g <= chunk))
  /\ length (jobs_of chunk d) <= list_sum (map (fun nM => length (snd nM) / chunk + 1) d).
Proof. exact job_sizes. Qed.
Print Assumptions C46_jobs.

Definition five_of (q : Q) : list matrix := map (fun k => [[q]; [inject_Z k]]) [1; 2; 3; 4; 5]%Z.
Example C46_jobs_demo : map (@length _) (jobs_of 2 [(2, five_of 1); (4, five_of 2)]) = [5; 2; 2; 1] /\ map (@length _) (jobs_of 1 [(4, five_of 2)]) = [1; 1; 1; 1; 1]
  /\ list_sum (map (fun nM : nat * list matrix => length (snd nM) / 1 + 1) [(4, five_of 2)]) = 6.
Proof. vm_compute. repeat split. Qed.
