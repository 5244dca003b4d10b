(* C134: what adds up on the pathways found comes out balanced. *)
From Verif Require Import Prelude NumQ SumQ UtilsModel UtilsSpec ReactionModel ReactionSpec RxnSetModel RxnSetSpec PathModel SolverModel SolverSpec SolverCheck NetModel YenModel YenSpec ShortestPath FlowModel NetJobModel NetJobSpec
  SolveJobModel SolveJobSpec SolveJobCheck LinModel LinSpec PinvModel CapSpec CapCheck ChainModel ChainSpec ChainProofs ChainCheck ChainFindSpec ChainFindProofs ChainFindCheck.
From Verif Require RxnSetCheck NetJobCheck.
Open Scope nat_scope.

(* The precursors and targets determine a reaction, and == tells the reactions apart and finds multiples equal. Every sum of
   unrelated reactions, on the pathways found or among the reactions ys found between intermediates, that makes the reaction is
   returned by the two jobs; with filter_interdependent, if the reactions do not run in a circle.
   Missing: reactions that depend on each other (C122); fewer reactions than max_num_combos (refuted below). *)
Theorem C134_finds_partial : forall C, wf_chem C -> forall comp_of energy_of listed members, (forall us, NoDup us -> Permutation (listed us) us) -> (forall us, Permutation (members us) (seq 0 (length us))) ->
  forall arrange, arranges arrange -> forall argsort, (forall l, Permutation (argsort l) (seq 0 (length l))) -> forall shuffle, (forall l, Permutation (shuffle l) l) ->
  forall cpus, 2 <= cpus -> forall wait, valid_schedule wait -> forall xcost, (forall r, (0 <= xcost r)%Q) -> forall sp, (forall weight, shortest weight (sp weight)) -> forall xeq, (forall r, xeq r r = true) ->
  forall req waits1 waits2 uniq clean cost inter chunk rhash, (forall k, valid_schedule (waits1 k)) -> (forall k, valid_schedule (waits2 k)) ->
  (forall r, req r r = true) -> set_members req rhash uniq -> uniq [] = [] -> keeps_all req clean -> 1 <= chunk ->
  forall nmk smk max find fi sets ls fs ts k v,
  Forall2 (fun s l => get_rxns s = Ok l) sets ls -> let given := concat ls in
  (forall x y, In x (all_entries given) -> In y (all_entries given) -> uid x = uid y -> x = y) -> (forall r, In r given -> plain r) -> sharp given ->
  (forall r e, In r given -> In e (x_entries r) -> comp e = comp_of (uid e) /\ form e = red C (comp e)) ->
  (forall r, In r given -> x_entries r <> []) -> (forall r c, In r given -> In c (x_coeffs r) -> (1 # 100000000 < Qabs c)%Q) ->
  nm_precursors nmk = Some fs -> fs <> [] -> nm_targets nmk = Some ts -> ts <> [] -> nm_k nmk = Some k -> 0 < k ->
  sm_precursors smk = fs -> sm_targets smk = ts -> NoDup (fs ++ ts) -> (forall f, In f (fs ++ ts) -> red C f = f) ->
  only_combination C (fs ++ ts) v -> LinSpec.sides (length fs) v ->
  (forall f, In f (fs ++ ts) -> exists r e, In r given /\ In e (x_entries r) /\ form e = f) ->
  let epa := (fun u => energy_of u / natoms C (comp_of u))%Q in
  exists us rs m ps tes per net0 gs es ks t rxns, NoDup us /\ (forall u, In u us <-> exists e, In e (all_entries given) /\ uid e = u)
  /\ families m given rs /\ ((forall el, nm_open nmk = Some el -> m = Some [(el, nm_chempot nmk)]) /\ (nm_open nmk = None -> (forall r, In r given -> x_mu r = None) -> m = None))
  /\ Forall2 (lowest epa given) fs ps /\ Forall2 (lowest epa given) ts tes /\ Forall2 (fun t pathways => pathways_to xcost rs ps t k pathways) tes per
  /\ Forall2 (lowest epa given) (fs ++ ts) gs /\ Forall2 (stands_for (listed us)) gs es /\ (0 < t)%Q /\ multiple t v ks /\ parts net0 = combine es ks /\ environment (sm_open smk) (sm_chempot smk) net0
  /\ (forall r, In r rxns -> exists x, on_pathways xcost rs (concat per) x /\ r = rxn_of C comp_of energy_of listed us x)
  /\ (forall x, on_pathways xcost rs (concat per) x -> exists x' r, on_pathways xcost rs (concat per) x' /\ xeq x' x = true /\ In r rxns /\ req (rxn_of C comp_of energy_of listed us x') r = true)
  /\ forall ys, (find = true -> inter (numbered comp_of energy_of listed us) rxns net0 = Ok (map (rxn_of C comp_of energy_of listed us) ys)) -> (find = false -> ys = []) ->
     (forall y, In y ys -> plain y /\ x_entries y <> [] /\ (forall e, In e (x_entries y) -> In e (all_entries given)) /\ forall c, In c (x_coeffs y) -> (1 # 100000000 < Qabs c)%Q) ->
     (forall x y, In x rs -> In y rs -> xeq x y = true -> like x y) ->
     (forall x y, In x (rs ++ ys) -> In y (rs ++ ys) -> req (rxn_of C comp_of energy_of listed us x) (rxn_of C comp_of energy_of listed us y) = true -> like x y) ->
     (forall x y, In x (rs ++ ys) -> In y ys -> multiples x y \/ multiples y x -> req (rxn_of C comp_of energy_of listed us x) (rxn_of C comp_of energy_of listed us y) = true /\ req (rxn_of C comp_of energy_of listed us y) (rxn_of C comp_of energy_of listed us x) = true) ->
     (forall x, In x (rs ++ ys) -> req (rxn_of C comp_of energy_of listed us x) net0 = true -> amounts_of (listed us) x (turnover net0)) ->
     (forall x r, In x (rs ++ ys) -> environment (sm_open smk) (sm_chempot smk) r -> amounts_of (listed us) x (turnover r) -> req (rxn_of C comp_of energy_of listed us x) r = true) ->
     let allowed := fun x => (on_pathways xcost rs (concat per) x \/ In x ys) /\ ~ amounts_of (listed us) x (turnover net0) in
     forall ds, length ds = max -> (forall i j x y, i < j -> nth_error ds i = Some x -> nth_error ds j = Some y -> ~ like x y) -> (forall x, In x ds -> allowed x) ->
     forall xs ms, 1 <= length xs <= max -> (forall x, In x xs -> allowed x) -> unrelated xs ->
     (fi = true -> ~ circle (takes C comp_of) (gives C comp_of) (map comp (firstn (length fs) gs)) xs) ->
     length ms = length xs -> Forall (fun q => (1 # 1000000 <= q)%Q) ms ->
     (forall i u, nth_error (listed us) i = Some u -> (together ms xs u == turnover net0 i)%Q) ->
     exists paths q ms' ms0 xs0, both_jobs C comp_of energy_of listed members arrange argsort shuffle cpus wait xcost sp xeq (exact_solve C) (exact_rank C) req path_pinv waits1 waits2 uniq clean cost inter chunk nmk smk max find fi sets = Ok (net0, paths)
     /\ In q paths /\ p_coeffs q = Some ms' /\ Forall2 Qeq ms' ms0 /\ length ms0 = length xs0 /\ Permutation (combine ms xs) (combine ms0 xs0)
     /\ Forall2 (fun x r => exists r', amounts_of (listed us) x (turnover r') /\ environment (sm_open smk) (sm_chempot smk) r' /\ req r' r = true) xs0 (p_rxns q).
Proof. exact chain_finds. Qed.
Print Assumptions C134_finds_partial.

(* 3 LiO -> Li3O + O2 and Li3O -> LiO + 2 Li make 2 LiO -> O2 + 2 Li. *)
Example C134_demo : wf_chem lio /\ set_members alike (fun _ => 0) (fun l => l) /\ keeps_all alike (fun l => l) /\ only_combination lio ([0] ++ [2; 3]) [-2; 1; 2]%Q /\ LinSpec.sides 1 [-2; 1; 2]%Q
  /\ (exists ls, Forall2 (fun s l => get_rxns s = Ok l) sets ls /\ let given := concat ls in
  (forall x y, In x (all_entries given) -> In y (all_entries given) -> uid x = uid y -> x = y)
  /\ (forall r, In r given -> plain r) /\ sharp given /\ (forall r e, In r given -> In e (x_entries r) -> comp e = kind (uid e) /\ form e = red lio (comp e))
  /\ (forall f, In f ([0] ++ [2; 3]) -> red lio f = f /\ exists r e, In r given /\ In e (x_entries r) /\ form e = f))
  /\ (exists w ps, find_network 3 = Ok (w, two_steps, Some ps) /\ w_entries w = ids /\ forall x, In x two_steps -> on_pathways NetJobCheck.unit_cost two_steps ps x)
  /\ unrelated two_steps /\ forall i j x y, i < j -> nth_error two_steps i = Some x -> nth_error two_steps j = Some y -> ~ like x y.
Proof.
  split; [exact lio_wf|]. split; [apply all_members|]. split; [exact keeps_identity|]. split; [exact lio_only|]. split; [exact lio_sides|]. split; [exact both_hypotheses|].
  split; [exact find_network_run|]. split; [exact two_unrelated|exact two_unlike].
Qed.
Example C134_demo_run : exists net0 p, find_jobs 3 2 = Ok (net0, [p]) /\ option_map (map Qred) (p_coeffs p) = Some [1; 1]%Q
  /\ map (fun r => map (fun i => Qred (turnover r i)) [0; 1; 2; 3]) (p_rxns p) = [[-3; 1; 1; 0]; [1; -1; 0; 2]]%Q
  /\ (forall x y, In x two_steps -> In y two_steps -> by_data x y = true -> like x y)
  /\ (forall x y, In x two_steps -> In y two_steps -> alike (rxn_of lio kind level by_kind ids x) (rxn_of lio kind level by_kind ids y) = true -> like x y)
  /\ (forall x, In x two_steps -> alike (rxn_of lio kind level by_kind ids x) net0 = true -> amounts_of (by_kind ids) x (turnover net0))
  /\ (forall x r, In x two_steps -> amounts_of (by_kind ids) x (turnover r) -> alike (rxn_of lio kind level by_kind ids x) r = true)
  /\ (forall x, In x two_steps -> ~ amounts_of (by_kind ids) x (turnover net0))
  /\ forall i u, nth_error (by_kind ids) i = Some u -> (together [1; 1]%Q two_steps u == turnover net0 i)%Q.
Proof. exact find_run. Qed.

(* The same with 2 Li3O -> O2 + 6 Li found between intermediates, and filter_interdependent. *)
Example C134_demo_intermediates : exists net0 p p', inter_jobs 3 2 = Ok (net0, [p; p'])
  /\ map (fun q => option_map (map Qred) (p_coeffs q)) [p; p'] = [Some [2 # 3; 1 # 3]; Some [1; 1]]%Q
  /\ map (fun q => map (fun r => map (fun i => Qred (turnover r i)) [0; 1; 2; 3]) (p_rxns q)) [p; p'] = [[[-3; 1; 1; 0]; [0; -2; 1; 6]]; [[-3; 1; 1; 0]; [1; -1; 0; 2]]]%Q
  /\ plain third_step /\ (forall e, In e (x_entries third_step) -> In e (all_entries two_steps))
  /\ (forall x y, In x three_steps -> In y three_steps -> alike (rxn_of lio kind level by_kind ids x) (rxn_of lio kind level by_kind ids y) = true -> like x y)
  /\ (forall x y, In x three_steps -> In y [third_step] -> multiples x y \/ multiples y x ->
        alike (rxn_of lio kind level by_kind ids x) (rxn_of lio kind level by_kind ids y) = true /\ alike (rxn_of lio kind level by_kind ids y) (rxn_of lio kind level by_kind ids x) = true)
  /\ (forall x, In x three_steps -> alike (rxn_of lio kind level by_kind ids x) net0 = true -> amounts_of (by_kind ids) x (turnover net0))
  /\ (forall x r, In x three_steps -> amounts_of (by_kind ids) x (turnover r) -> alike (rxn_of lio kind level by_kind ids x) r = true)
  /\ (forall x, In x three_steps -> ~ amounts_of (by_kind ids) x (turnover net0))
  /\ unrelated [first_step; third_step] /\ ~ circle (takes lio kind) (gives lio kind) [0] [first_step; third_step]
  /\ forall i u, nth_error (by_kind ids) i = Some u -> (together [2 # 3; 1 # 3]%Q [first_step; third_step] u == turnover net0 i)%Q.
Proof. exact inter_run. Qed.

(* The same two reactions, with max_num_combos above their number: no pathway comes out, the second job fails. *)
Theorem C134_few_refuted : (exists w ps, find_network 3 = Ok (w, two_steps, Some ps) /\ w_entries w = ids /\ forall x, In x two_steps -> on_pathways NetJobCheck.unit_cost two_steps ps x)
  /\ unrelated two_steps
  /\ (exists net0 p, find_jobs 3 2 = Ok (net0, [p]) /\ forall i u, nth_error (by_kind ids) i = Some u -> (together [1; 1]%Q two_steps u == turnover net0 i)%Q)
  /\ forall max, max <= 3 -> find_jobs 3 (3 + max) = Err ValueError.
Proof. exact few_fail. Qed.
Print Assumptions C134_few_refuted.
