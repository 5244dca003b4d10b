(* C124: the job that balances pathways, with nothing assumed of numpy. *)
From Verif Require Import Prelude NumQ UtilsModel UtilsSpec ReactionModel ReactionSpec PathModel PathSpec SolverModel SolverSpec SolverCheck FlowModel SolveJobModel SolveJobSpec SolveJobCheck
  LinModel LinSpec PinvModel CapSpec CapProofs CapCheck.
Open Scope nat_scope.

(* The precursors and targets determine a reaction. Every way of making it from the reactions on the given pathways and
   the intermediate reactions is returned. With filter_interdependent, if they do not run in a circle.
   Missing: reactions that depend on each other (the pseudo-inverse picks other multiplicities, C122). *)
Theorem C124_job_partial : forall C, wf_chem C -> forall ents members, (forall i e, nth_error ents i = Some e -> e_id e = i) -> Permutation members (seq 0 (length ents)) ->
  forall req waits1 waits2 uniq clean cost inter chunk cpus rhash, (forall k, valid_schedule (waits1 k)) -> (forall k, valid_schedule (waits2 k)) ->
  (forall r, req r r = true) -> set_members req rhash uniq -> uniq [] = [] ->
  forall mk max find fi pathways v, let pre := sm_precursors mk in let tar := sm_targets mk in
  NoDup (pre ++ tar) -> (forall f, In f (pre ++ tar) -> red C f = f) -> 2 <= length pre + length tar -> only_combination C (pre ++ tar) v -> sides (length pre) v ->
  (forall f, In f (pre ++ tar) -> exists e, In e ents /\ red C (e_comp e) = f) ->
  exists net0 res pes ks t, Forall2 (lowest_entry C ents) pre res /\ Forall2 (lowest_entry C ents) tar pes
  /\ (0 < t)%Q /\ multiple t v ks /\ parts net0 = combine (res ++ pes) ks /\ environment (sm_open mk) (sm_chempot mk) net0
  /\ forall l, (find = true -> inter ents (map fst (solver_init req pathways)) net0 = Ok l) -> let rxns := if find then with_intermediates req cost (solver_init req pathways) l else solver_init req pathways in let cands := pool req (clean (map fst rxns)) net0 rxns in
     1 <= chunk -> 2 <= cpus -> 1 <= max <= length cands ->
     (forall s, In s cands -> between ents (fst s)) ->
     (forall s r, In s cands -> restated C ents (fst s) r -> environment (sm_open mk) (sm_chempot mk) r -> exists s', In s' cands /\ req (fst s') r = true) ->
     forall steps ms, subseq steps cands -> 1 <= length steps <= max -> separate (map fst steps) -> length ms = length steps -> Forall (fun m => (1 # 1000000 <= m)%Q) ms ->
     (forall i, (overall ms (map fst steps) i == turnover net0 i)%Q) ->
     (fi = true -> ~ circle (consumes C ents) (yields C ents) (map e_comp res) (map fst steps)) ->
     exists paths q ms', solve_job C (exact_solve C) (exact_rank C) ents members req path_pinv waits1 waits2 uniq clean cost inter chunk cpus mk max find fi pathways = Ok (net0, paths)
     /\ In q paths /\ p_coeffs q = Some ms' /\ Forall2 Qeq ms' ms
     /\ Forall2 (fun s r => exists r', restated C ents (fst s) r' /\ environment (sm_open mk) (sm_chempot mk) r' /\ req r' r = true) steps (p_rxns q).
Proof. exact job_finds. Qed.
Print Assumptions C124_job_partial.

(* 3 LiO -> Li3O + O2 and Li3O -> LiO + 2 Li make 2 LiO -> O2 + 2 Li. *)
Example C124_demo : wf_chem lio /\ (forall i e, nth_error (lio_entries 0) i = Some e -> e_id e = i) /\ Permutation [0; 1; 2; 3] (seq 0 (length (lio_entries 0)))
  /\ (forall k, valid_schedule (lifo k)) /\ (forall r, alike r r = true) /\ set_members alike (fun _ => 0) (fun l => l)
  /\ only_combination lio ([0] ++ [2; 3]) [-2; 1; 2]%Q /\ sides 1 [-2; 1; 2]%Q /\ (forall f, In f ([0] ++ [2; 3]) -> exists e, In e (lio_entries 0) /\ red lio (e_comp e) = f)
  /\ (forall s, In s lio_steps -> between (lio_entries 0) (fst s)) /\ (forall s r, In s lio_steps -> restated lio (lio_entries 0) (fst s) r -> exists s', In s' lio_steps /\ alike (fst s') r = true)
  /\ separate (map fst lio_steps) /\ ~ circle (consumes lio (lio_entries 0)) (yields lio (lio_entries 0)) [0] (map fst lio_steps).
Proof.
  split; [exact lio_wf|]. split; [exact (lio_ids 0)|]. split; [apply Permutation_refl|]. split; [exact lifo_valid|]. split; [exact alike_refl|]. split; [apply all_members|].
  split; [exact lio_only|]. split; [exact lio_sides|]. split; [exact lio_entry|]. split; [exact lio_between|]. split; [exact lio_restated|]. split; [exact lio_separate|exact lio_no_circle].
Qed.
Example C124_demo_run : exists net0 p, lio_exact false = Ok (net0, [p]) /\ lio_exact true = Ok (net0, [p]) /\ option_map (map Qred) (p_coeffs p) = Some [1; 1]%Q
  /\ pool alike (map fst (solver_init alike (lio_paths 0))) net0 (solver_init alike (lio_paths 0)) = lio_steps
  /\ forall i, (overall [1; 1]%Q (map fst lio_steps) i == turnover net0 i)%Q.
Proof. exact lio_exact_run. Qed.
