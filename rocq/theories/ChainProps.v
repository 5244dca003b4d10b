(* C129: from reaction sets to balanced pathways. *)
From Verif Require Import Prelude NumQ SumQ UtilsModel UtilsSpec ReactionModel ReactionSpec RxnSetModel RxnSetSpec PathModel SolverModel SolverSpec SolverCheck NetModel YenModel YenSpec ShortestPath FlowModel NetJobModel NetJobSpec
  SolveJobModel SolveJobSpec SolveJobCheck LinModel LinSpec PinvModel CapCheck ChainModel ChainSpec ChainProofs ChainCheck.
From Verif Require RxnSetCheck NetJobCheck.
Open Scope nat_scope.

(* The job that builds the network hands its entries and the pathways it found to the job that balances them.
   Missing: what is missing of C105. *)
Theorem C129_passed_on_partial : forall C comp_of energy_of listed members,
  forall arrange, arranges arrange -> forall argsort, (forall l, Permutation (argsort l) (seq 0 (length l))) -> forall shuffle, (forall l, Permutation (shuffle l) l) ->
  forall cpus, 2 <= cpus -> forall wait, valid_schedule wait -> forall xcost, (forall r, (0 <= xcost r)%Q) -> forall sp, (forall weight, shortest weight (sp weight)) -> forall xeq, (forall r, xeq r r = true) ->
  forall lsq rank req pinv waits1 waits2 uniq clean cost inter chunk nmk smk max find fi sets ls fs ts k,
  Forall2 (fun s l => get_rxns s = Ok l) sets ls -> let given := concat ls in
  (forall x y, In x (all_entries given) -> In y (all_entries given) -> uid x = uid y -> x = y) -> (forall r, In r given -> plain r) -> sharp given ->
  (forall r e, In r given -> In e (x_entries r) -> comp e = comp_of (uid e) /\ form e = red C (comp e)) ->
  nm_precursors nmk = Some fs -> fs <> [] -> nm_targets nmk = Some ts -> ts <> [] -> nm_k nmk = Some k -> 0 < k ->
  (forall f, In f (fs ++ ts) -> exists r e, In r given /\ In e (x_entries r) /\ form e = f) ->
  let epa := (fun u => energy_of u / natoms C (comp_of u))%Q in
  exists us rs m ps tes per qs, NoDup us /\ (forall u, In u us <-> exists e, In e (all_entries given) /\ uid e = u)
  /\ families m given rs /\ ((forall el, nm_open nmk = Some el -> m = Some [(el, nm_chempot nmk)]) /\ (nm_open nmk = None -> (forall r, In r given -> x_mu r = None) -> m = None))
  /\ Forall2 (lowest epa given) fs ps /\ Forall2 (lowest epa given) ts tes /\ Forall2 (fun t pathways => pathways_to xcost rs ps t k pathways) tes per
  /\ Forall2 (fun p q => exists xs, goes_through xcost rs p xs /\ Forall2 (fun x x' => xeq x' x = true /\ on_pathways xcost rs (concat per) x') xs (p_rxns q) /\ p_costs q = map snd p /\ p_coeffs q = None) (concat per) qs
  /\ both_jobs C comp_of energy_of listed members arrange argsort shuffle cpus wait xcost sp xeq lsq rank req pinv waits1 waits2 uniq clean cost inter chunk nmk smk max find fi sets
     = solve_job C lsq rank (numbered comp_of energy_of listed us) (members us) req pinv waits1 waits2 uniq clean cost inter chunk cpus smk max find fi (map (path_of C comp_of energy_of listed us) qs).
Proof. exact passed_on. Qed.
Print Assumptions C129_passed_on_partial.

(* Every balanced pathway that comes out of the two jobs adds reactions on the pathways found, or intermediate reactions, up to
   the reaction of the precursors to the targets. Missing: that every such sum comes out (refuted below). *)
Theorem C129_chain_partial : forall C, wf_chem C -> forall comp_of energy_of listed members, (forall us, NoDup us -> Permutation (listed us) us) -> (forall us, Permutation (members us) (seq 0 (length us))) ->
  forall arrange, arranges arrange -> forall argsort, (forall l, Permutation (argsort l) (seq 0 (length l))) -> forall shuffle, (forall l, Permutation (shuffle l) l) ->
  forall cpus, 2 <= cpus -> forall wait, valid_schedule wait -> forall xcost, (forall r, (0 <= xcost r)%Q) -> forall sp, (forall weight, shortest weight (sp weight)) -> forall xeq, (forall r, xeq r r = true) ->
  forall lsq rank, (forall r p c, length (lsq r p c) = length r + length p) -> forall req pinv waits1 waits2 uniq clean cost inter chunk,
  (forall k, valid_schedule (waits1 k)) -> (forall k, valid_schedule (waits2 k)) -> (forall M v, length (pinv M v) = length M) -> (forall l p, In p (uniq l) -> In p l) ->
  forall nmk smk max find fi sets ls fs ts k b net0 paths,
  Forall2 (fun s l => get_rxns s = Ok l) sets ls -> let given := concat ls in
  (forall x y, In x (all_entries given) -> In y (all_entries given) -> uid x = uid y -> x = y) -> (forall r, In r given -> plain r) -> sharp given ->
  (forall r e, In r given -> In e (x_entries r) -> comp e = comp_of (uid e) /\ form e = red C (comp e)) ->
  nm_precursors nmk = Some fs -> fs <> [] -> nm_targets nmk = Some ts -> ts <> [] -> nm_k nmk = Some k -> 0 < k ->
  sm_precursors smk = fs -> sm_targets smk = ts -> NoDup (fs ++ ts) -> (forall f, In f (fs ++ ts) -> red C f = f) ->
  (forall f, In f (fs ++ ts) -> exists r e, In r given /\ In e (x_entries r) /\ form e = f) ->
  post_init C lsq rank smk = Ok b -> num_errors b = Some 0 ->
  (forall es rxns l r, (forall i e, nth_error es i = Some e -> e_id e = i) -> (forall r', In r' (net0 :: rxns) -> only_entries es r') -> inter es rxns net0 = Ok l -> In r l -> NoDup (map (fun ek => e_id (fst ek)) (parts r))) ->
  both_jobs C comp_of energy_of listed members arrange argsort shuffle cpus wait xcost sp xeq lsq rank req pinv waits1 waits2 uniq clean cost inter chunk nmk smk max find fi sets = Ok (net0, paths) ->
  let epa := (fun u => energy_of u / natoms C (comp_of u))%Q in
  exists us rs m ps tes per, NoDup us /\ (forall u, In u us <-> exists e, In e (all_entries given) /\ uid e = u)
  /\ families m given rs /\ ((forall el, nm_open nmk = Some el -> m = Some [(el, nm_chempot nmk)]) /\ (nm_open nmk = None -> (forall r, In r given -> x_mu r = None) -> m = None))
  /\ Forall2 (lowest epa given) fs ps /\ Forall2 (lowest epa given) ts tes /\ Forall2 (fun t pathways => pathways_to xcost rs ps t k pathways) tes per
  /\ (exists gs gt es ks kp, Forall2 (lowest epa given) fs gs /\ Forall2 (lowest epa given) ts gt /\ Forall2 (stands_for us) (gs ++ gt) es
      /\ length ks = length fs /\ length kp = length ts /\ parts net0 = combine es (ks ++ kp)
      /\ Forall (fun q => (q <= -(1 # 1000000))%Q) ks /\ Forall (fun q => (1 # 1000000 <= q)%Q) kp
      /\ forall el, (Qabs (ReactionSpec.net C (combine (fs ++ ts) (ks ++ kp)) el) <= 1 # 100000000)%Q)
  /\ forall p, In p paths -> exists ms steps, p_coeffs p = Some ms /\ length ms = length steps /\ 1 <= length steps <= max /\ Forall (fun q => (1 # 1000000 <= q)%Q) ms
     /\ Forall2 makes_amounts (p_rxns p) steps
     /\ (forall a, In a steps -> (exists x, on_pathways xcost rs (concat per) x /\ amounts_of us x a) \/ (find = true /\ exists es rxns l r, lists_entries comp_of energy_of us es /\ (forall r', In r' (net0 :: rxns) -> only_entries es r')
          /\ (forall r', In r' rxns -> exists x, on_pathways xcost rs (concat per) x /\ amounts_of us x (turnover r')) /\ inter es rxns net0 = Ok l /\ In r l /\ forall i, (a i == turnover r i)%Q))
     /\ forall i, (Qabs (total ms steps i - turnover net0 i) <= (1 # 100000000) + (1 # 100000) * Qabs (turnover net0 i))%Q.
Proof. exact chain_sound. Qed.
Print Assumptions C129_chain_partial.

(* The reactions the second job works on make the same amounts, and are open when those of the network are. *)
Theorem C129_objects : forall C comp_of energy_of listed us x, (forall us, NoDup us -> Permutation (listed us) us) -> NoDup us -> (forall e, In e (x_entries x) -> In (uid e) us) ->
  amounts_of (listed us) x (turnover (rxn_of C comp_of energy_of listed us x))
  /\ match x_mu x with
     | None => exists c, rxn_of C comp_of energy_of listed us x = RComputed c
     | Some mu => exists o, rxn_of C comp_of energy_of listed us x = ROpen o /\ chempots o = mu
     end.
Proof. exact objects_spec. Qed.
Print Assumptions C129_objects.

(* Without targets, or when no pathways are asked for, the second job fails. *)
Theorem C129_none_asked : forall C comp_of energy_of listed members arrange argsort shuffle cpus wait xcost sp xeq lsq rank req pinv waits1 waits2 uniq clean cost inter chunk nmk smk max find fi sets,
  nm_targets nmk = None \/ nm_targets nmk = Some [] \/ nm_k nmk = None \/ nm_k nmk = Some 0 ->
  both_jobs C comp_of energy_of listed members arrange argsort shuffle cpus wait xcost sp xeq lsq rank req pinv waits1 waits2 uniq clean cost inter chunk nmk smk max find fi sets
  = match network_job arrange argsort shuffle cpus wait (fun u => red C (comp_of u)) (fun u => energy_of u / natoms C (comp_of u))%Q xcost sp nmk sets with Ok _ => Err AttributeError | Err e => Err e end.
Proof. exact none_asked. Qed.
Print Assumptions C129_none_asked.

Example C129_none_demo : exists w rs, network_job RxnSetCheck.arrange RxnSetCheck.argsort (fun l => l) 3 RxnSetCheck.lifo_any (fun u => red lio (kind u)) (fun u => level u / natoms lio (kind u))%Q NetJobCheck.unit_cost (fun weight => search weight)
  (NetJobCheck.maker (Some [0]) None 3) sets = Ok (w, rs, None) /\ length rs = 2.
Proof. do 2 eexists. split; [vm_compute; reflexivity|reflexivity]. Qed.

(* 3 LiO -> Li3O + O2 and Li3O -> LiO + 2 Li in a reaction set: 2 LiO -> O2 + 2 Li comes out as their sum. *)
Example C129_demo : wf_chem lio /\ (forall us, NoDup us -> Permutation (by_kind us) us) /\ (forall us, Permutation (backwards us) (seq 0 (length us)))
  /\ (exists b, post_init lio (exact_solve lio) (exact_rank lio) lio_maker = Ok b /\ num_errors b = Some 0)
  /\ exists ls, Forall2 (fun s l => get_rxns s = Ok l) sets ls /\ let given := concat ls in
  (forall x y, In x (all_entries given) -> In y (all_entries given) -> uid x = uid y -> x = y)
  /\ (forall r, In r given -> plain r) /\ sharp given /\ (forall r e, In r given -> In e (x_entries r) -> comp e = kind (uid e) /\ form e = red lio (comp e))
  /\ (forall f, In f ([0] ++ [2; 3]) -> red lio f = f /\ exists r e, In r given /\ In e (x_entries r) /\ form e = f).
Proof. split; [exact lio_wf|]. split; [exact by_kind_perm|]. split; [exact backwards_perm|]. split; [exact made_exactly|exact both_hypotheses]. Qed.
Example C129_demo_run : exists net0 p, both 3 2 = Ok (net0, [p]) /\ option_map (map Qred) (p_coeffs p) = Some [1; 1]%Q /\ map Qred (p_costs p) = [1; 1]%Q
  /\ map (fun i => Qred (turnover net0 i)) [0; 1; 2; 3] = [-2; 0; 1; 2]%Q
  /\ map (fun r => map (fun i => Qred (turnover r i)) [0; 1; 2; 3]) (p_rxns p) = [[-3; 1; 1; 0]; [1; -1; 0; 2]]%Q.
Proof. exact both_run. Qed.

(* X + Y -> XY, X + Z -> XZ and XY + XZ -> X2YZ add up to 2 X + Y + Z -> X2YZ. No pathway goes through two branches, and the
   two jobs fail. *)
Theorem C129_branches_refuted : Forall2 (fun s l => get_rxns s = Ok l) branch_sets [branches] /\ (forall r, In r branches -> plain r) /\ sharp branches
  /\ (forall u, (sumQ (fun x => amount x u) branches == if Nat.eqb u 0 then -2 else if Nat.eqb u 1 then -1 else if Nat.eqb u 2 then -1 else if Nat.eqb u 5 then 1 else 0)%Q)
  /\ forall k max, k <= 3 -> max <= 3 -> branch_jobs [5] (S k) (S max) = Err ValueError.
Proof. exact branches_missed. Qed.
Print Assumptions C129_branches_refuted.
