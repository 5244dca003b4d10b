(* C106 and C107: the job that balances pathways. *)
From Verif Require Import Prelude NumQ UtilsModel UtilsSpec ReactionModel ReactionSpec PathModel PathSpec SolverModel SolverSpec SolverCheck FlowModel SolveJobModel SolveJobSpec SolveJobProofs SolveJobCheck.
Open Scope nat_scope.

(* --- C106 --- *)
(* The maker can be made when a conserving combination is found, and raises ValueError otherwise. *)
Theorem C106_made : forall C, wf_chem C -> forall lsq rank, (forall r p c, length (lsq r p c) = length r + length p) ->
  forall mk, let pre := sm_precursors mk in let tar := sm_targets mk in length pre + length tar <> 1 ->
  ((exists b, post_init C lsq rank mk = Ok b) <-> exists c, tried (length pre) (length tar) (rank pre tar) c
     /\ forall e, (Qabs (net C (combine (pre ++ tar) (lsq pre tar c)) e) <= 1 # 100000000)%Q)
  /\ ((forall b, post_init C lsq rank mk <> Ok b) -> post_init C lsq rank mk = Err ValueError).
Proof. exact constructed. Qed.
Print Assumptions C106_made.

Example C106_made_demo : made [0] [2; 3] [0; 0; 1]%Q = Err ValueError /\ exists b, made [0] [2; 3] [-2; 1; 2]%Q = Ok b.
Proof. split; [vm_compute; reflexivity|]. destruct lio_made as (b & H & _). exists b. exact H. Qed.

(* Every pathway turns the precursors into the targets. Missing: net reactions with a formula on the wrong side (refuted
   below), formulas that are not reduced or given twice. *)
Theorem C106_pathways_partial : forall C, wf_chem C -> forall lsq rank, (forall r p c, length (lsq r p c) = length r + length p) ->
  forall ents members, (forall i e, nth_error ents i = Some e -> e_id e = i) -> Permutation members (seq 0 (length ents)) ->
  forall req pinv waits1 waits2 uniq clean cost inter chunk cpus,
  (forall k, valid_schedule (waits1 k)) -> (forall k, valid_schedule (waits2 k)) -> (forall M v, length (pinv M v) = length M) -> (forall l p, In p (uniq l) -> In p l) ->
  forall mk max find fi pathways b net0 paths, let pre := sm_precursors mk in let tar := sm_targets mk in
  NoDup (pre ++ tar) -> (forall f, In f (pre ++ tar) -> red C f = f) ->
  post_init C lsq rank mk = Ok b -> num_errors b = Some 0 ->
  solve_job C lsq rank ents members req pinv waits1 waits2 uniq clean cost inter chunk cpus mk max find fi pathways = Ok (net0, paths) ->
  (exists res pes ks kp, Forall2 (lowest_entry C ents) pre res /\ Forall2 (lowest_entry C ents) tar pes
   /\ length ks = length pre /\ length kp = length tar /\ parts net0 = combine (res ++ pes) (ks ++ kp)
   /\ Forall (fun k => (k <= -(1 # 1000000))%Q) ks /\ Forall (fun k => (1 # 1000000 <= k)%Q) kp
   /\ (forall e, (Qabs (net C (combine (pre ++ tar) (ks ++ kp)) e) <= 1 # 100000000)%Q))
  /\ environment (sm_open mk) (sm_chempot mk) net0
  /\ (exists avs, Forall2 (fun p a => average_cost p = Ok a) paths avs /\ StronglySorted Qle avs)
  /\ forall p, In p paths -> exists ms, p_coeffs p = Some ms /\ length ms = length (p_rxns p) /\ 1 <= length ms <= max /\ Forall (fun m => (1 # 1000000 <= m)%Q) ms
     /\ Forall (environment (sm_open mk) (sm_chempot mk)) (p_rxns p)
     /\ forall i, (Qabs (overall ms (p_rxns p) i - turnover net0 i) <= (1 # 100000000) * (1 + Qsum ms) + (1 # 100000) * Qabs (turnover net0 i))%Q.
Proof. exact job_pathways. Qed.
Print Assumptions C106_pathways_partial.

Example C106_demo : wf_chem lio /\ (forall r p c, length (some_lsq [-2; 1; 2]%Q r p c) = length r + length p) /\ (forall i e, nth_error (lio_entries 0) i = Some e -> e_id e = i)
  /\ (forall k, valid_schedule (lifo k)) /\ (forall M v, length (two_pinv 1 1 M v) = length M) /\ NoDup ([0] ++ [2; 3]) /\ (forall f, In f ([0] ++ [2; 3]) -> red lio f = f)
  /\ exists b, made [0] [2; 3] [-2; 1; 2]%Q = Ok b /\ num_errors b = Some 0.
Proof.
  split; [exact lio_wf|]. split; [exact (some_lsq_length _)|]. split; [exact (lio_ids 0)|]. split; [exact lifo_valid|]. split; [exact (two_pinv_length 1 1)|].
  split; [repeat constructor; cbn; intuition discriminate|]. split; [intros f [<-|[<-|[<-|[]]]]; reflexivity|exact lio_made].
Qed.
Example C106_demo_run : exists net0 p, lio_job 0 true = Ok (net0, [p]) /\ lio_job 0 false = Ok (net0, [p]) /\ p_coeffs p = Some [1; 1]%Q /\ p_costs p = [1; 2]%Q /\ length (p_rxns p) = 2
  /\ map (fun i => Qred (overall [1; 1]%Q (p_rxns p) i)) [0; 1; 2; 3] = [-2; 0; 1; 2]%Q.
Proof. exact lio_run. Qed.

(* Li2O and Li are given as precursors, O2 as the target; the net reaction and the pathway make Li. *)
Theorem C106_wrong_side_refuted : exists net0 p ms, job_of li2o_entries [5; 3] [2] [-2; 4; 1]%Q 2 1 true
     [one_path [rc li2o_entries [0; 1; 3] [-1; 1; 1]%Q; rc li2o_entries [1; 2; 3] [-2; 1; 2]%Q] [1; 2]%Q] = Ok (net0, [p])
  /\ lowest_entry lio li2o_entries 3 (en 3 3 0) /\ (0 < turnover net0 3)%Q /\ p_coeffs p = Some ms /\ (0 < overall ms (p_rxns p) 3)%Q.
Proof. exact wrong_side. Qed.
Print Assumptions C106_wrong_side_refuted.

(* --- C107 --- *)
(* With the filter the job returns the pathways without circular groups. Missing: precursor entries whose composition is
   not reduced (refuted below); reactions that are equal without being the same. *)
Theorem C107_filter_partial : forall C, wf_chem C -> forall lsq rank, (forall r p c, length (lsq r p c) = length r + length p) ->
  forall ents members, (forall i e, nth_error ents i = Some e -> e_id e = i) -> Permutation members (seq 0 (length ents)) ->
  forall req pinv waits1 waits2 uniq clean cost inter chunk cpus, (forall l p, In p (uniq l) -> In p l) -> (forall a b, req a b = true <-> a = b) ->
  forall mk max find pathways b net0 kept all rhash, let pre := sm_precursors mk in let tar := sm_targets mk in
  NoDup (pre ++ tar) -> (forall f, In f (pre ++ tar) -> red C f = f) -> (forall e, In e ents -> In (red C (e_comp e)) pre -> red C (e_comp e) = e_comp e) ->
  post_init C lsq rank mk = Ok b -> num_errors b = Some 0 -> set_members req rhash uniq ->
  solve_job C lsq rank ents members req pinv waits1 waits2 uniq clean cost inter chunk cpus mk max find true pathways = Ok (net0, kept) ->
  solve_job C lsq rank ents members req pinv waits1 waits2 uniq clean cost inter chunk cpus mk max find false pathways = Ok (net0, all) ->
  (forall p, In p kept -> ~ circular (fun r : rxn => reactants (base_of r)) (fun r : rxn => products (base_of r)) pre p)
  /\ forall p, In p all -> ~ circular (fun r : rxn => reactants (base_of r)) (fun r : rxn => products (base_of r)) pre p ->
     exists q, In q kept /\ p_coeffs q = p_coeffs p /\ p_rxns q = p_rxns p.
Proof. exact job_filter. Qed.
Print Assumptions C107_filter_partial.

Example C107_demo : (forall a b, same a b = true <-> a = b) /\ set_members same (fun _ => 0) (fun l => l)
  /\ (forall e, In e (lio_entries 0) -> In (red lio (e_comp e)) [0] -> red lio (e_comp e) = e_comp e)
  /\ exists net0 p, lio_job 0 true = Ok (net0, [p]) /\ lio_job 0 false = Ok (net0, [p]).
Proof.
  split; [exact same_iff|]. split; [apply all_members|]. split; [intros e [<-|[<-|[<-|[<-|[]]]]] _; reflexivity|].
  destruct lio_run as (net0 & p & H1 & H2 & _). exists net0, p. split; assumption.
Qed.

(* The same run when the entry of LiO has the composition Li2O2: the pathway is dropped. *)
Theorem C107_unreduced_refuted : exists net0 p, lio_job 4 false = Ok (net0, [p]) /\ lio_job 4 true = Ok (net0, [])
  /\ reactants (base_of net0) = [0] /\ ~ circular (fun r : rxn => reactants (base_of r)) (fun r : rxn => products (base_of r)) [0] p.
Proof. exact unreduced_dropped. Qed.
Print Assumptions C107_unreduced_refuted.
