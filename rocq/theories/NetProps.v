(* C34-C39, C71, C72: theorems about reaction networks and the search for pathways. *)
From Verif Require Import Prelude NumQ EnumModel NetModel NetSpec NetProofs NetHistoryProofs YenModel YenSpec YenProofs YenOptProofs ShortestPath NetPathProofs NetCheck RouteSpec RouteProofs YenQueueProofs.
Open Scope nat_scope.

(* --- C34 --- *)
Theorem C34_build : forall rxns, let g := build rxns in
  distinct_nodes g
  /\ (forall i n, has g i n -> exists r, In r rxns /\ (fst n = Reactants /\ set_of (n_reactants r) (snd n) \/ fst n = Products /\ set_of (n_products r) (snd n)))
  /\ exists rxn_edges loops, Permutation (g_edges g) (rxn_edges ++ loops)
     /\ Forall2 (fun r e => exists i j x y, e = (i, j, Rxn r) /\ has g i (Reactants, x) /\ set_of (n_reactants r) x
                                            /\ has g j (Products, y) /\ set_of (n_products r) y) rxns rxn_edges
     /\ NoDup loops /\ forall e, In e loops <-> exists i j x, e = (i, j, Loopback) /\ has g i (Products, x) /\ has g j (Reactants, x).
Proof. exact build_spec. Qed.
Print Assumptions C34_build.

Example C34_demo : node_data (build [rr 0 [0] [2; 1]; rr 1 [1; 2] [0; 0]; rr 2 [0] [1; 2]]) = [(Reactants, [0]); (Products, [1; 2]); (Reactants, [1; 2]); (Products, [0])]
  /\ rev (g_edges (build [rr 0 [0] [2; 1]; rr 1 [1; 2] [0; 0]; rr 2 [0] [1; 2]])) =
     [(0, 1, Rxn (rr 0 [0] [2; 1])); (2, 3, Rxn (rr 1 [1; 2] [0; 0])); (0, 1, Rxn (rr 2 [0] [1; 2])); (1, 2, Loopback); (3, 0, Loopback)].
Proof. split; vm_compute; reflexivity. Qed.

(* --- C35 --- *)
(* Full claim: no edge is left over, for all histories (refuted below). *)
Theorem C35_history_partial : forall entries rxns, rxns <> [] -> forall ops, Forall (acceptable entries) ops ->
  exists w w2 g g2 stale, run_ops (net_build (new_network entries rxns)) ops = Ok w /\ run_ops (net_build (new_network entries rxns)) (last_calls ops) = Ok w2
  /\ w_graph w = Some g /\ w_graph w2 = Some g2 /\ w_precursors w = w_precursors w2 /\ w_target w = w_target w2
  /\ Permutation (node_data g) (node_data g2) /\ Permutation (data_edges g) (data_edges g2 ++ stale)
  /\ Forall (fun d => exists ps, In ps (precursors_of ops) /\ justified ps d) stale
  /\ ((forall a b, In a (precursors_of ops) -> In b (precursors_of ops) -> forall e, In e a <-> In e b) -> stale = [])
  /\ distinct_nodes g /\ closed g.
Proof. exact history_spec. Qed.
Print Assumptions C35_history_partial.

Theorem C35_setters : forall entries rxns, rxns <> [] -> forall ps t, ps <> [] -> is_subset ps entries -> In t entries ->
  exists w g x new, run_ops (net_build (new_network entries rxns)) [SetPrecursors ps; SetTarget t] = Ok w /\ w_graph w = Some g /\ set_of ps x
  /\ Permutation (node_data g) (node_data (build rxns) ++ [(Precursors, x); (Target, [t])])
  /\ Permutation (data_edges g) (data_edges (build rxns) ++ new) /\ NoDup new
  /\ forall d, In d new <->
       (exists y, In (Reactants, y) (node_data (build rxns)) /\ is_subset y ps /\ d = ((Precursors, x), (Reactants, y), PrecursorEdge))
       \/ (exists y, In (Products, y) (node_data (build rxns)) /\ In t y /\ d = ((Products, y), (Target, [t]), TargetEdge))
       \/ (justified ps d /\ In (fst (fst d)) (node_data (build rxns)) /\ In (snd (fst d)) (node_data (build rxns))).
Proof. exact setters_spec. Qed.
Print Assumptions C35_setters.

(* A loop-back edge of the old precursors stays and gives a pathway that uses an entry
   which is not available. *)
Theorem C35_stale_refuted : exists w w2 g g2 d,
  let ops := [SetPrecursors [0; 1]; SetPrecursors [0]; SetTarget 9] in
  Forall (acceptable [0; 1; 2; 9]) ops
  /\ made [0; 1; 2; 9] relay ops = Ok w /\ made [0; 1; 2; 9] relay (last_calls ops) = Ok w2 /\ w_graph w = Some g /\ w_graph w2 = Some g2
  /\ w_precursors w = Some [0] /\ d = ((Products, [2]), (Reactants, [1; 2]), Loopback)
  /\ In d (data_edges g) /\ ~ In d (data_edges g2) /\ ~ justified [0] d
  /\ (exists w', find_pathways (cost_by [1; 1]%Q) (dij [1; 1]%Q) w [9] 1 = Ok (w', [[(Rxn (rr 0 [0] [2]), 1%Q); (Rxn (rr 1 [1; 2] [9]), 1%Q)]]))
  /\ (exists w', find_pathways (cost_by [1; 1]%Q) (dij [1; 1]%Q) w2 [9] 1 = Ok (w', [])).
Proof. exact stale_witness. Qed.
Print Assumptions C35_stale_refuted.

(* An empty set of precursors leaves its node behind. *)
Theorem C35_empty_refuted : exists w w2 g g2,
  let ops := [SetPrecursors []; SetPrecursors [0]] in
  made [0; 1; 2; 9] relay ops = Ok w /\ made [0; 1; 2; 9] relay (last_calls ops) = Ok w2 /\ w_graph w = Some g /\ w_graph w2 = Some g2
  /\ In (Precursors, []) (node_data g) /\ In (Precursors, [0]) (node_data g) /\ ~ In (Precursors, []) (node_data g2).
Proof. exact empty_precursors_witness. Qed.
Print Assumptions C35_empty_refuted.

Example C35_demo : let ops := [SetTarget 2; SetPrecursors [1; 0]; SetTarget 9; SetPrecursors [0; 1; 1]] in
  relay <> [] /\ Forall (acceptable [0; 1; 2; 9]) ops /\ (forall a b, In a (precursors_of ops) -> In b (precursors_of ops) -> forall e, In e a <-> In e b)
  /\ exists w g, made [0; 1; 2; 9] relay ops = Ok w /\ w_graph w = Some g
  /\ node_data g = [(Reactants, [0]); (Products, [2]); (Reactants, [1; 2]); (Products, [9]); (Target, [9]); (Precursors, [0; 1])]
  /\ data_edges g = [((Products, [9]), (Target, [9]), TargetEdge); ((Products, [2]), (Reactants, [1; 2]), Loopback);
                     ((Precursors, [0; 1]), (Reactants, [0]), PrecursorEdge);
                     ((Reactants, [1; 2]), (Products, [9]), Rxn (rr 1 [1; 2] [9])); ((Reactants, [0]), (Products, [2]), Rxn (rr 0 [0] [2]))].
Proof.
  cbv zeta. split; [discriminate|]. split; [calls_ok|]. split.
  - intros a b Ha Hb e. cbn in Ha, Hb. destruct Ha as [<-|[<-|[]]], Hb as [<-|[<-|[]]]; cbn; tauto.
  - do 2 eexists. split; [vm_compute; reflexivity|]. split; [reflexivity|]. split; vm_compute; reflexivity.
Qed.

(* --- C36 --- *)
Theorem C36_paths : forall {E} (weight : E -> Q) sp, shortest weight sp -> forall es s t, non_negative weight es -> s <> t -> forall k,
  exists paths, yens_ksp weight sp es k s t = Ok paths
  /\ Forall (fun p => exists c, walk weight es s t p c) paths /\ NoDup paths /\ length paths <= Nat.max 1 k
  /\ (paths = [] <-> forall p c, ~ walk weight es s t p c)
  /\ (forall p rest, paths = p :: rest -> cheapest_walk weight es s t p).
Proof. exact @yens_general. Qed.
Print Assumptions C36_paths.

Theorem C36_find_pathways : forall entries rxns, rxns <> [] -> forall cost, (forall r, In r rxns -> (0 <= cost r)%Q) ->
  forall sp, shortest (cost_of cost) sp -> forall ops w ps targets k, Forall (acceptable entries) ops -> run_ops (net_build (new_network entries rxns)) ops = Ok w ->
  nth_error (rev (precursors_of ops)) 0 = Some ps -> Forall (fun t => In t entries) targets ->
  exists w' per x, set_of ps x /\ find_pathways cost sp w targets k = Ok (w', concat per) /\ run_ops w (map SetTarget targets) = Ok w' /\ length per = length targets
  /\ forall i t pathways, nth_error targets i = Some t -> nth_error per i = Some pathways ->
       exists w1 g s tn, run_ops w (map SetTarget (firstn (S i) targets)) = Ok w1 /\ w_graph w1 = Some g
       /\ has g s (Precursors, x) /\ has g tn (Target, [t]) /\ found cost g s tn k pathways.
Proof. exact find_pathways_spec. Qed.
Print Assumptions C36_find_pathways.

(* Without graphs: the pathways are the routes from the precursors to the targets. *)
Theorem C36_routes : forall entries rxns, rxns <> [] -> forall cost, (forall r, In r rxns -> (0 <= cost r)%Q) -> forall sp, shortest (cost_of cost) sp ->
  forall ops w ps targets k, Forall (acceptable entries) ops -> run_ops (net_build (new_network entries rxns)) ops = Ok w ->
  nth_error (rev (precursors_of ops)) 0 = Some ps -> (forall a, In a (precursors_of ops) -> forall e, In e a <-> In e ps) -> Forall (fun t => In t entries) targets ->
  exists w' per, find_pathways cost sp w targets k = Ok (w', concat per) /\ Forall2 (fun t pathways => routes_found cost rxns ps t k pathways) targets per.
Proof. exact routes_spec. Qed.
Print Assumptions C36_routes.

Example C36_routes_demo : (forall a, In a (precursors_of [SetPrecursors [0; 1]]) -> forall e, In e a <-> In e [0; 1]) /\ incl relay relay /\ route [0; 1] 9 [] relay
  /\ exists w, made [0; 1; 2; 9] relay [SetPrecursors [0; 1]] = Ok w.
Proof.
  split; [intros a [<-|[]] e; reflexivity|]. split; [apply incl_refl|]. split; [|eexists; vm_compute; reflexivity].
  split; [intros e [<-|[]]; left; reflexivity|]. split; [intros e [<-|[<-|[]]]; cbn; auto|]. left. reflexivity.
Qed.

(* What is assumed of the library can be met. *)
Example C36_demo_shortest : forall {E} (weight : E -> Q), shortest weight (search weight).
Proof. exact @search_shortest. Qed.
Example C36_demo : detour <> [] /\ (forall r, In r detour -> (0 <= cost_by detour_costs r)%Q) /\ Forall (acceptable [0; 1; 5; 6; 9]) [SetPrecursors [0; 1]]
  /\ exists w w', made [0; 1; 5; 6; 9] detour [SetPrecursors [0; 1]] = Ok w
  /\ find_pathways (cost_by detour_costs) (dij detour_costs) w [9; 1] 2 =
     Ok (w', [[(Rxn (rr 0 [1] [9; 6]), 1%Q)]; [(Rxn (rr 1 [0] [9; 5]), 2%Q)]; [(Rxn (rr 2 [0] [1]), (3#2)%Q)]]).
Proof.
  split; [discriminate|]. split.
  - intros r Hr. cbn in Hr. repeat (destruct Hr as [<-|Hr]; [vm_compute; discriminate|]). destruct Hr.
  - split; [calls_ok|]. do 2 eexists. split; [vm_compute; reflexivity|]. vm_compute. reflexivity.
Qed.

(* --- C37 --- *)
(* Full claim: for all graphs (refuted below). *)
Theorem C37_levelled_partial : forall {E} (weight : E -> Q) sp, shortest weight sp -> forall es s t, non_negative weight es -> s <> t ->
  no_parallel es -> levelled weight es s t -> forall k,
  exists paths, yens_ksp weight sp es k s t = Ok paths /\ k_cheapest weight es s t (Nat.max 1 k) paths.
Proof. exact @yens_optimal. Qed.
Print Assumptions C37_levelled_partial.

(* The first pathway is not more expensive than any route. *)
Theorem C37_first_partial : forall entries rxns, rxns <> [] -> forall cost, (forall r, In r rxns -> (0 <= cost r)%Q) -> forall sp, shortest (cost_of cost) sp ->
  forall ops w ps t k, distinct_sides rxns -> Forall (acceptable entries) ops -> run_ops (net_build (new_network entries rxns)) ops = Ok w ->
  nth_error (rev (precursors_of ops)) 0 = Some ps -> (forall a, In a (precursors_of ops) -> forall e, In e a <-> In e ps) -> In t entries ->
  forall rs, incl rs rxns -> route ps t [] rs ->
  exists w' l rest, find_pathways cost sp w [t] k = Ok (w', l :: rest) /\ (total l <= price cost rs)%Q.
Proof. exact first_cheapest. Qed.
Print Assumptions C37_first_partial.

Example C37_first_demo : distinct_sides detour /\ route [0; 1] 9 [] [rr 2 [0] [1]; rr 0 [1] [9; 6]] /\ incl [rr 2 [0] [1]; rr 0 [1] [9; 6]] detour
  /\ exists w w' l rest, made [0; 1; 5; 6; 9] detour [SetPrecursors [0; 1]] = Ok w
  /\ find_pathways (cost_by detour_costs) (dij detour_costs) w [9] 3 = Ok (w', l :: rest) /\ (total l == 1)%Q.
Proof.
  split; [sides_ok|]. split; [split; [intros e [<-|[]]; cbn; auto|]; split; [intros e [<-|[]]; cbn; auto|]; left; reflexivity|].
  split; [intros r [<-|[<-|[]]]; cbn; auto|].
  do 4 eexists. split; [vm_compute; reflexivity|]. split; vm_compute; reflexivity.
Qed.

(* Networks in which no pathway has a second step. *)
Theorem C37_one_step_partial : forall entries rxns, rxns <> [] -> forall cost sp ops w g s t k, (forall r, In r rxns -> (0 <= cost r)%Q) -> shortest (cost_of cost) sp ->
  distinct_sides rxns -> Forall (acceptable entries) ops -> run_ops (net_build (new_network entries rxns)) ops = Ok w -> w_graph w = Some g ->
  (forall i j, ~ In (i, j, Loopback) (g_edges g)) -> s <> t ->
  exists paths, yens_ksp (edge_weight cost) sp (g_edges g) k s t = Ok paths /\ k_cheapest (cost_of cost) (g_edges g) s t (Nat.max 1 k) paths.
Proof. exact one_step_cheapest. Qed.
Print Assumptions C37_one_step_partial.

(* A path is missed although a more expensive one is returned. *)
Theorem C37_missed_refuted : exists w g paths q c p d,
  made [0; 1; 5; 6; 9] detour [SetPrecursors [0; 1]; SetTarget 9] = Ok w /\ w_graph w = Some g /\ has g 7 (Precursors, [0; 1]) /\ has g 8 (Target, [9])
  /\ shortest (cost_of (cost_by detour_costs)) (dij detour_costs) /\ distinct_sides detour
  /\ yens_ksp (edge_weight (cost_by detour_costs)) (dij detour_costs) (g_edges g) 3 7 8 = Ok paths
  /\ walk (cost_of (cost_by detour_costs)) (g_edges g) 7 8 q c /\ NoDup q /\ ~ In q paths
  /\ In p paths /\ walk (cost_of (cost_by detour_costs)) (g_edges g) 7 8 p d /\ (c < d)%Q.
Proof. exact missed_witness. Qed.
Print Assumptions C37_missed_refuted.

(* A returned path goes round a loop and a path without a loop is missed. *)
Theorem C37_loops_refuted : exists w g paths p q c,
  made [0; 1; 5; 6; 7; 9] cycle [SetPrecursors [0]; SetTarget 9] = Ok w /\ w_graph w = Some g /\ has g 8 (Precursors, [0]) /\ has g 9 (Target, [9])
  /\ shortest (cost_of (cost_by cycle_costs)) (dij cycle_costs)
  /\ yens_ksp (edge_weight (cost_by cycle_costs)) (dij cycle_costs) (g_edges g) 3 8 9 = Ok paths
  /\ In p paths /\ ~ NoDup p /\ walk (cost_of (cost_by cycle_costs)) (g_edges g) 8 9 q c /\ NoDup q /\ ~ In q paths.
Proof. exact loops_witness. Qed.
Print Assumptions C37_loops_refuted.

(* The paths are not in order of their costs. *)
Theorem C37_unsorted_refuted : exists paths p q c d, shortest (fun e : Q => e) (search (fun e => e)) /\ non_negative (fun e : Q => e) ladder /\ no_parallel ladder
  /\ yens_ksp (fun e => e) (search (fun e => e)) ladder 4 0 9 = Ok paths /\ nth_error paths 2 = Some p /\ nth_error paths 3 = Some q
  /\ walk (fun e => e) ladder 0 9 p c /\ walk (fun e => e) ladder 0 9 q d /\ (d < c)%Q.
Proof. exact unsorted_witness. Qed.
Print Assumptions C37_unsorted_refuted.

(* The next path is the first new one of the queue, ordered by cost and then by nodes;
   there is none when the queue holds only known paths. *)
Theorem C37_queue : forall known queue next rest, take_new (length queue) known queue = (next, rest) ->
  match next with
  | Some p => ~ In p known /\ exists c, In (c, p) queue /\ forall x, In x queue -> ~ In (snd x) known -> ~ sooner x (c, p)
  | None => forall x, In x queue -> In (snd x) known
  end.
Proof. exact queue_order. Qed.
Print Assumptions C37_queue.
Example C37_queue_demo : let queue := [(2, [0; 5; 9]%nat); (1, [0; 4; 9]%nat); (1, [0; 3; 9]%nat); (1, [0; 2; 9]%nat)]%Q in
  fst (take_new (length queue) [[0; 2; 9]] queue) = Some [0; 3; 9] /\ sooner (1%Q, [0; 3; 9]) (1%Q, [0; 4; 9]).
Proof. split; [vm_compute; reflexivity|]. right. split; [reflexivity|]. right. exists [0], 3, [9], 4, [9]. repeat split; lia. Qed.

Definition direct : list nrxn := [rr 0 [0] [9; 5]; rr 1 [1] [9; 6]; rr 2 [0; 1] [9]].
Example C37_demo : exists w g, made [0; 1; 5; 6; 9] direct [SetPrecursors [0; 1]; SetTarget 9] = Ok w /\ w_graph w = Some g
  /\ distinct_sides direct /\ (forall i j, ~ In (i, j, Loopback) (g_edges g))
  /\ levelled (cost_of (cost_by [3; 2; 1]%Q)) (g_edges g) 6 7 /\ no_parallel (g_edges g)
  /\ yens_ksp (edge_weight (cost_by [3; 2; 1]%Q)) (dij [3; 2; 1]%Q) (g_edges g) 5 6 7 = Ok [[6; 4; 5; 7]; [6; 2; 3; 7]; [6; 0; 1; 7]].
Proof.
  do 2 eexists. split; [vm_compute; reflexivity|]. split; [reflexivity|]. split; [sides_ok|]. split; [intros i j; cbn; not_in|]. split.
  - apply (rank_levelled _ _ _ _ (fun i => nth i [1; 2; 1; 2; 1; 2; 0; 3] 0)). intros i j e He. cbn in He. repeat (destruct He as [He|He]; [injection He as <- <- _; reflexivity|]). destruct He.
  - split; [unfold no_parallel; cbn; repeat (apply NoDup_cons; [not_in|]); apply NoDup_nil|]. vm_compute. reflexivity.
Qed.

(* --- C38 --- *)
(* Full claim: also for reactions with the same reactants and products (refuted below). *)
Theorem C38_costs_partial : forall entries rxns, rxns <> [] -> forall cost ops w g s n t p c, Forall (acceptable entries) ops ->
  run_ops (net_build (new_network entries rxns)) ops = Ok w -> w_graph w = Some g ->
  has g s n -> fst n = Precursors -> walk (cost_of cost) (g_edges g) s t p c ->
  exists l, path_from_graph cost g p = Ok l /\ tells cost g s t p l /\ (distinct_sides rxns -> (total l == c)%Q).
Proof. exact pathway_cost. Qed.
Print Assumptions C38_costs_partial.

(* Nodes of the graph make a pathway unless a node of products is not joined to the node
   before it; the node before the first one is the last. *)
Theorem C38_missing : forall cost (g : net) p, (forall i, In i p -> exists n, has g i n) ->
  (path_from_graph cost g p = Err NoEdgeBetweenNodes <-> exists i j x, comes_after p i j /\ has g j (Products, x) /\ forall e, ~ In (i, j, e) (g_edges g))
  /\ (path_from_graph cost g p <> Err NoEdgeBetweenNodes -> exists l, path_from_graph cost g p = Ok l).
Proof. exact missing_edge. Qed.
Print Assumptions C38_missing.
(* [1; 0] is read as the edge from 0 to 1 *)
Example C38_missing_demo : let g := build [rr 0 [0] [2]; rr 1 [1; 2] [9]] in
  has g 0 (Reactants, [0]) /\ has g 1 (Products, [2]) /\ has g 3 (Products, [9])
  /\ path_from_graph (cost_by [2; 3]%Q) g [0; 3] = Err NoEdgeBetweenNodes
  /\ path_from_graph (cost_by [2; 3]%Q) g [1; 0] = Ok [(Rxn (rr 0 [0] [2]), 2%Q)].
Proof. repeat split. Qed.

Theorem C38_parallel_refuted : exists w g p c l,
  made [0; 9] twins [SetPrecursors [0]; SetTarget 9] = Ok w /\ w_graph w = Some g /\ has g 2 (Precursors, [0]) /\ has g 3 (Target, [9])
  /\ dij [1; 5]%Q (g_edges g) 2 3 = Some p /\ cheapest_walk (cost_of (cost_by [1; 5]%Q)) (g_edges g) 2 3 p /\ walk (cost_of (cost_by [1; 5]%Q)) (g_edges g) 2 3 p c
  /\ path_from_graph (cost_by [1; 5]%Q) g p = Ok l /\ l = [(Rxn (rr 1 [0] [9]), 5%Q)] /\ (c < total l)%Q.
Proof. exact twins_witness. Qed.
Print Assumptions C38_parallel_refuted.

Example C38_demo : exists w g p, made [0; 1; 2; 9] relay [SetPrecursors [0; 1]; SetTarget 9] = Ok w /\ w_graph w = Some g /\ has g 4 (Precursors, [0; 1])
  /\ walk (cost_of (cost_by [2; 3]%Q)) (g_edges g) 4 5 p 5%Q /\ distinct_sides relay
  /\ path_from_graph (cost_by [2; 3]%Q) g p = Ok [(Rxn (rr 0 [0] [2]), 2%Q); (Rxn (rr 1 [1; 2] [9]), 3%Q)].
Proof.
  do 2 eexists. exists [4; 0; 1; 2; 3; 5]. split; [vm_compute; reflexivity|]. split; [reflexivity|]. split; [reflexivity|].
  split; [apply simple_walk; vm_compute; auto 10|]. split; [sides_ok|]. vm_compute. reflexivity.
Qed.

(* --- C39 --- *)
Theorem C39_graph : forall {N E} (eqb : N -> N -> bool), (forall a b, eqb a b = true <-> a = b) ->
  forall order : list (nat * nat * E) -> list (nat * nat * E), (forall l, Permutation (order l) l) ->
  forall g : graph N E, distinct_nodes g -> closed g ->
  exists g' f, graph_from_dict eqb (graph_as_dict order g) = Ok g' /\ renumbered f g g' /\ g_free g' = [] /\ closed g' /\ distinct_nodes g'
  /\ g_slots g' = map Some (map snd (nodes g)).
Proof. exact @round_trip. Qed.
Print Assumptions C39_graph.

Theorem C39_network : forall entries rxns, rxns <> [] -> forall order ops w, (forall l, Permutation (order l) l) -> Forall (acceptable entries) ops ->
  run_ops (net_build (new_network entries rxns)) ops = Ok w ->
  exists w' g g', net_round_trip order w = Ok w' /\ w_graph w = Some g /\ w_graph w' = Some g' /\ renumbered (fun i => i) g g'
  /\ w_entries w' = w_entries w /\ w_rxns w' = w_rxns w /\ w_precursors w' = w_precursors w /\ w_target w' = w_target w.
Proof. exact reload_graph. Qed.
Print Assumptions C39_network.

(* A graph whose node 1 was removed. *)
Definition holed : graph nat nat := remove_node (add_edges_from (add_nodes_from empty_graph [50; 60; 70]) [(0, 1, 7); (2, 0, 8); (0, 2, 9)]) 1.
Example C39_demo : distinct_nodes holed /\ closed holed /\ nodes holed = [(0, 50); (2, 70)]
  /\ exists g', graph_from_dict Nat.eqb (graph_as_dict (@rev _) holed) = Ok g' /\ nodes g' = [(0, 50); (1, 70)] /\ g_edges g' = [(0, 1, 9); (1, 0, 8)].
Proof.
  split; [|split; [|split; [reflexivity|eexists; split; [vm_compute; reflexivity|split; reflexivity]]]].
  - intros i j n Hi Hj. unfold has in *. cbn in Hi, Hj. do 3 (destruct i as [|i]; [do 3 (destruct j as [|j]; [cbn in *; congruence|]); destruct j; discriminate|]). destruct i; discriminate.
  - intros i j e He. cbn in He. destruct He as [He|[He|[]]]; injection He as <- <- <-; split; eexists; reflexivity.
Qed.

(* --- C71 --- *)
(* Full claim: nothing is left over (refuted below). *)
Theorem C71_reload_partial : forall entries rxns, rxns <> [] -> forall order ops ops2 w, (forall l, Permutation (order l) l) ->
  Forall (acceptable entries) ops -> Forall (acceptable entries) ops2 -> run_ops (net_build (new_network entries rxns)) ops = Ok w ->
  exists w' w3 w2 g g2 stale, net_round_trip order w = Ok w' /\ run_ops w' ops2 = Ok w3
  /\ run_ops (net_build (new_network entries rxns)) (last_calls (ops ++ ops2)) = Ok w2
  /\ w_graph w3 = Some g /\ w_graph w2 = Some g2 /\ w_precursors w3 = w_precursors w2 /\ w_target w3 = w_target w2
  /\ Permutation (node_data g) (node_data g2) /\ Permutation (data_edges g) (data_edges g2 ++ stale)
  /\ Forall (fun d => exists ps, In ps (precursors_of (ops ++ ops2)) /\ justified ps d) stale.
Proof. exact reload_spec. Qed.
Print Assumptions C71_reload_partial.

(* Setting the same precursors again doubles the loop-back edge. *)
Theorem C71_reload_refuted : exists w w' w3 g g3,
  made [0; 1; 2; 9] relay [SetPrecursors [0; 1]; SetTarget 9] = Ok w /\ w_graph w = Some g
  /\ net_round_trip (fun l => l) w = Ok w' /\ set_precursors w' [0; 1] = Ok w3 /\ w_graph w3 = Some g3
  /\ set_precursors w [0; 1] = Ok w
  /\ length (filter (fun e => negb (is_rxn (snd e))) (data_edges g)) = 3 /\ length (filter (fun e => negb (is_rxn (snd e))) (data_edges g3)) = 4.
Proof. exact reload_witness. Qed.
Print Assumptions C71_reload_refuted.

Example C71_demo : exists w w' w3, made [0; 1; 2; 9] relay [SetPrecursors [0; 1]; SetTarget 9] = Ok w /\ net_round_trip (@rev _) w = Ok w'
  /\ Forall (acceptable [0; 1; 2; 9]) [SetPrecursors [0]; SetTarget 2] /\ run_ops w' [SetPrecursors [0]; SetTarget 2] = Ok w3.
Proof. do 3 eexists. split; [vm_compute; reflexivity|]. split; [vm_compute; reflexivity|]. split; [calls_ok|]. vm_compute. reflexivity. Qed.

(* --- C72 --- *)
(* Once precursors are set, a network that is built again accepts only the same
   precursors and then has no node for them. *)
Theorem C72_rebuild_refuted : forall entries rxns, rxns <> [] -> forall ops w ps qs, Forall (acceptable entries) ops ->
  run_ops (net_build (new_network entries rxns)) ops = Ok w -> nth_error (rev (precursors_of ops)) 0 = Some ps -> is_subset qs entries ->
  ((forall e, In e qs <-> In e ps) -> set_precursors (net_build w) qs = Ok (net_build w))
  /\ (~ (forall e, In e qs <-> In e ps) -> set_precursors (net_build w) qs = Err ValueError).
Proof. exact rebuilt. Qed.
Print Assumptions C72_rebuild_refuted.

(* The same for the target, which the network keeps. *)
Theorem C72_rebuild_target_refuted : forall entries rxns, rxns <> [] -> forall ops w t u, Forall (acceptable entries) ops ->
  run_ops (net_build (new_network entries rxns)) ops = Ok w -> nth_error (rev (targets_of ops)) 0 = Some t -> In u entries ->
  w_target (net_build w) = Some t /\ set_target (net_build w) t = Ok (net_build w) /\ (u <> t -> set_target (net_build w) u = Err ValueError).
Proof. exact rebuilt_target. Qed.
Print Assumptions C72_rebuild_target_refuted.

Example C72_demo : exists w w', made [0; 1; 2; 9] relay [SetPrecursors [0; 1]; SetTarget 9] = Ok w
  /\ set_precursors (net_build w) [0; 1] = Ok w' /\ find_pathways (cost_by [1; 1]%Q) (dij [1; 1]%Q) w' [9] 1 = Err TypeError
  /\ set_precursors (net_build w) [0] = Err ValueError /\ set_target (net_build w) 2 = Err ValueError.
Proof. do 2 eexists. split; [vm_compute; reflexivity|]. split; [vm_compute; reflexivity|]. split; [|split]; vm_compute; reflexivity. Qed.
