(* Proofs for C154: the job that balances pathways, given a net reaction that cannot be balanced. *)
From Verif Require Import Prelude NumQ ReactionModel PathModel SolverModel FlowModel SolveJobModel.
Open Scope nat_scope.

Lemma job_unbalanced : forall C lsq rank ents members req pinv waits1 waits2 uniq clean cost inter chunk cpus mk max find fi pathways,
  (forall e, post_init C lsq rank mk = Err e -> solve_job C lsq rank ents members req pinv waits1 waits2 uniq clean cost inter chunk cpus mk max find fi pathways = Err e)
  /\ forall b, post_init C lsq rank mk = Ok b ->
     (forall e, net_rxn_of C lsq rank ents members (sm_open mk) (sm_chempot mk) b = Err e -> solve_job C lsq rank ents members req pinv waits1 waits2 uniq clean cost inter chunk cpus mk max find fi pathways = Err e)
     /\ forall net, net_rxn_of C lsq rank ents members (sm_open mk) (sm_chempot mk) b = Ok net -> balanced (base_of net) = false ->
        solve_job C lsq rank ents members req pinv waits1 waits2 uniq clean cost inter chunk cpus mk max find fi pathways = Err ValueError.
Proof.
  intros C lsq rank ents members req pinv waits1 waits2 uniq clean cost inter chunk cpus mk max find fi pathways. unfold solve_job.
  split; [intros e ->; reflexivity|]. intros b ->. cbn [bind]. split; [intros e ->; reflexivity|]. intros net -> E. cbn [bind]. rewrite E. reflexivity.
Qed.
