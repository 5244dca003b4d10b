(* C154: the job that balances pathways raises when its net reaction cannot be made or balanced. *)
From Verif Require Import Prelude NumQ ReactionModel PathModel SolverModel SolverCheck FlowModel SolveJobModel SolveJobCheck JobErrorsProofs.
Open Scope nat_scope.

(* What making the maker or finding the entries of the net reaction raises is raised by the job; a net reaction that is not
   balanced is refused with ValueError before any pathway is looked at. *)
Theorem C154_job : forall C lsq rank ents members req pinv waits1 waits2 uniq clean cost inter chunk cpus mk max find fi pathways,
  (forall e, post_init C lsq rank mk = Err e -> solve_job C lsq rank ents members req pinv waits1 waits2 uniq clean cost inter chunk cpus mk max find fi pathways = Err e)
  /\ forall b, post_init C lsq rank mk = Ok b ->
     (forall e, net_rxn_of C lsq rank ents members (sm_open mk) (sm_chempot mk) b = Err e -> solve_job C lsq rank ents members req pinv waits1 waits2 uniq clean cost inter chunk cpus mk max find fi pathways = Err e)
     /\ forall net, net_rxn_of C lsq rank ents members (sm_open mk) (sm_chempot mk) b = Ok net -> balanced (base_of net) = false ->
        solve_job C lsq rank ents members req pinv waits1 waits2 uniq clean cost inter chunk cpus mk max find fi pathways = Err ValueError.
Proof. exact job_unbalanced. Qed.
Print Assumptions C154_job.

(* LiO + Li2O2 -> 3/2 O2 + 3 Li is balanced. The ground entry of both precursors is that of LiO, the net reaction
   LiO + LiO -> O2 + 2 Li is kept by composition and so loses one LiO. Without an entry for Li there is no net reaction. *)
Definition twice_lsq (r p c : list nat) : list Q := match r, p with [0; 4], [2; 3] => [-1; -1; 3 # 2; 3]%Q | [0; 0], [2; 3] => [-1; -1; 1; 2]%Q | _, _ => repeat 0%Q (length r + length p) end.
Definition twice : solver_maker := {| sm_precursors := [0; 4]; sm_targets := [2; 3]; sm_open := None; sm_chempot := 0%Q |}.
Example C154_job_demo : (exists b net, post_init lio twice_lsq (fun _ _ => 2) twice = Ok b
    /\ net_rxn_of lio twice_lsq (fun _ _ => 2) (lio_entries 0) [0; 1; 2; 3] None 0%Q b = Ok net /\ balanced (base_of net) = false)
  /\ solve_job lio twice_lsq (fun _ _ => 2) (lio_entries 0) [0; 1; 2; 3] same (two_pinv 1 1) lifo lifo (fun l => l) (fun l => l) (fun _ => 0%Q) (fun _ _ _ => Err ValueError) 10 3
       twice 2 false true (lio_paths 0) = Err ValueError
  /\ job_of [en 0 0 (-1)%Q; en 1 2 0%Q] [0] [2; 3] [-2; 1; 2]%Q 1 1 true [] = Err KeyError.
Proof.
  split; [eexists _, _; split; [vm_compute; reflexivity|]; split; vm_compute; reflexivity|]. split; vm_compute; reflexivity.
Qed.
