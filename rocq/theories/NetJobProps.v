(* C105: the job that builds a network and looks for pathways. *)
From Verif Require Import Prelude NumQ UtilsModel UtilsSpec RxnSetModel RxnSetSpec NetModel YenModel YenSpec ShortestPath FlowModel NetJobModel NetJobSpec NetJobProofs RxnSetCheck NetJobCheck.
Open Scope nat_scope.

(* --- C105 --- *)
(* From reaction sets to pathways. Missing: one CPU, reactions with zero or repeated species, and reactions that are
   multiples of one another only up to the tolerance. *)
Theorem C105_job_partial : forall arrange, arranges arrange ->
  forall argsort, (forall l, Permutation (argsort l) (seq 0 (length l))) -> forall shuffle, (forall l, Permutation (shuffle l) l) ->
  forall cpus, 2 <= cpus -> forall wait, valid_schedule wait ->
  forall formula epa cost, (forall r, (0 <= cost r)%Q) -> forall sp, (forall weight, shortest weight (sp weight)) ->
  forall mk sets ls fs ts k,
  Forall2 (fun s l => get_rxns s = Ok l) sets ls -> let given := concat ls in
  (forall x y, In x (all_entries given) -> In y (all_entries given) -> uid x = uid y -> x = y) ->
  (forall r, In r given -> plain r) -> sharp given ->
  (forall r e, In r given -> In e (x_entries r) -> form e = formula (uid e)) ->
  nm_precursors mk = Some fs -> fs <> [] -> nm_targets mk = Some ts -> ts <> [] -> nm_k mk = Some k -> 0 < k ->
  (forall f, In f (fs ++ ts) -> exists r e, In r given /\ In e (x_entries r) /\ form e = f) ->
  exists w rs m ps tes per, network_job arrange argsort shuffle cpus wait formula epa cost sp mk sets = Ok (w, rs, Some (concat per))
  /\ families m given rs /\ ((forall el, nm_open mk = Some el -> m = Some [(el, nm_chempot mk)]) /\ (nm_open mk = None -> (forall r, In r given -> x_mu r = None) -> m = None))
  /\ Forall2 (lowest epa given) fs ps /\ Forall2 (lowest epa given) ts tes
  /\ Forall2 (fun t pathways => pathways_to cost rs ps t k pathways) tes per.
Proof. exact job_spec. Qed.
Print Assumptions C105_job_partial.

Example C105_demo : exists ls, Forall2 (fun s l => get_rxns s = Ok l) [demo_set; demo_set] ls
  /\ (forall x y, In x (all_entries (concat ls)) -> In y (all_entries (concat ls)) -> uid x = uid y -> x = y)
  /\ (forall r, In r (concat ls) -> plain r) /\ sharp (concat ls) /\ (forall r e, In r (concat ls) -> In e (x_entries r) -> form e = uid e)
  /\ (forall f, In f ([0; 1] ++ [3]) -> exists r e, In r (concat ls) /\ In e (x_entries r) /\ form e = f).
Proof. exact job_hypotheses. Qed.

Example C105_demo_library : arranges arrange /\ (forall l, Permutation (argsort l) (seq 0 (length l))) /\ (forall R, valid_schedule (@lifo_any R))
  /\ forall weight : payload -> Q, shortest weight (search weight).
Proof. split; [exact arrange_arranges|]. split; [exact argsort_perm|]. split; [exact @lifo_any_valid|]. intros weight. apply search_shortest. Qed.

Example C105_demo_run : exists w rs p q, job_of 3 (maker (Some [0; 1]) (Some [3]) 5) [demo_set; demo_set] = Ok (w, rs, Some [p; q])
  /\ map x_data rs = [10; 13; 11] /\ map (fun pc => match fst pc with Rxn n => n_id n | _ => 9 end) p = [2] /\ map (fun pc => match fst pc with Rxn n => n_id n | _ => 9 end) q = [0; 1].
Proof. exact job_run. Qed.

(* With targets and no precursors, a setting both arguments allow, the job fails. *)
Theorem C105_no_precursors_refuted : exists s rs, get_rxns s = Ok rs /\ (forall r, In r rs -> plain r) /\ job_of 3 (maker None (Some [3]) 5) [s] = Err AttributeError.
Proof. exact no_precursors. Qed.
Print Assumptions C105_no_precursors_refuted.

(* On a cluster with one CPU the same job fails. *)
Theorem C105_one_cpu_refuted : exists s rs w rs' ps, get_rxns s = Ok rs /\ (forall r, In r rs -> plain r) /\ sharp rs /\ job_of 2 (maker (Some [0; 1]) (Some [3]) 5) [s] = Ok (w, rs', Some ps)
  /\ job_of 1 (maker (Some [0; 1]) (Some [3]) 5) [s] = Err ZeroDivisionError.
Proof. exact one_cpu. Qed.
Print Assumptions C105_one_cpu_refuted.
