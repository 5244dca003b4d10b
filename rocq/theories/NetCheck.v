(* Concrete cases for the properties of reaction networks. *)
From Verif Require Import Prelude NumQ EnumModel EnumProofs NetModel NetSpec NetProofs YenModel YenSpec ShortestPath.
Open Scope nat_scope.

Definition rr (i : nat) (a b : list nat) : nrxn := {| n_id := i; n_reactants := a; n_products := b |}.
Definition cost_by (costs : list Q) (r : nrxn) : Q := nth (n_id r) costs 0%Q.
Definition made (entries : list nat) (rxns : list nrxn) (ops : list net_op) : result network := run_ops (net_build (new_network entries rxns)) ops.
Definition dij (costs : list Q) : list (nat * nat * payload) -> nat -> nat -> option (list nat) := search (cost_of (cost_by costs)).

Ltac calls_ok := repeat (apply Forall_cons; [first [split; [discriminate|intros ? ?; cbn in *; intuition]|cbn; auto 10]|]); apply Forall_nil.
Ltac not_in := let H := fresh in intros H; repeat (destruct H as [H|H]; [discriminate H|]); destruct H.

Lemma distinct_sides_by rxns : NoDup (map (fun r => (mkset (n_reactants r), mkset (n_products r))) rxns) -> distinct_sides rxns.
Proof.
  intros Hn i j r r' Hi Hj H1 H2. apply (proj1 (NoDup_nth_error _) Hn); [rewrite map_length; apply nth_error_Some; congruence|]. rewrite !nth_error_map, Hi, Hj. simpl. do 2 f_equal.
  - apply sorted_unique; [apply set_of_mkset|apply set_of_mkset|]. intros e. rewrite (proj2 (set_of_mkset _) e), (proj2 (set_of_mkset _) e). apply H1.
  - apply sorted_unique; [apply set_of_mkset|apply set_of_mkset|]. intros e. rewrite (proj2 (set_of_mkset _) e), (proj2 (set_of_mkset _) e). apply H2.
Qed.
Ltac sides_ok := apply distinct_sides_by; vm_compute; repeat (apply NoDup_cons; [not_in|]); apply NoDup_nil.

(* --- C35 --- *)
(* 0 -> 2 and 1 + 2 -> 9: with the precursors {0, 1} there is a way to 9, with {0} there
   is none. *)
Definition relay : list nrxn := [rr 0 [0] [2]; rr 1 [1; 2] [9]].
Lemma stale_witness : exists w w2 g g2 d,
  let ops := [SetPrecursors [0; 1]; SetPrecursors [0]; SetTarget 9] in
  Forall (acceptable [0; 1; 2; 9]) ops
  /\ made [0; 1; 2; 9] relay ops = Ok w /\ made [0; 1; 2; 9] relay (last_calls ops) = Ok w2 /\ w_graph w = Some g /\ w_graph w2 = Some g2
  /\ w_precursors w = Some [0] /\ d = ((Products, [2]), (Reactants, [1; 2]), Loopback)
  /\ In d (data_edges g) /\ ~ In d (data_edges g2) /\ ~ justified [0] d
  (* the pathways found: 1 + 2 -> 9 although 1 is neither a precursor nor made *)
  /\ (exists w', find_pathways (cost_by [1; 1]%Q) (dij [1; 1]%Q) w [9] 1 = Ok (w', [[(Rxn (rr 0 [0] [2]), 1%Q); (Rxn (rr 1 [1; 2] [9]), 1%Q)]]))
  /\ (exists w', find_pathways (cost_by [1; 1]%Q) (dij [1; 1]%Q) w2 [9] 1 = Ok (w', [])).
Proof.
  do 5 eexists. cbv zeta. split; [calls_ok|].
  split; [vm_compute; reflexivity|]. split; [vm_compute; reflexivity|]. split; [reflexivity|]. split; [reflexivity|]. split; [reflexivity|]. split; [reflexivity|].
  split; [vm_compute; auto 10|]. split; [vm_compute; not_in|]. split.
  { intros (a & b & H & H1 & _). injection H as <- <-. specialize (H1 1 (or_introl eq_refl)). cbn in H1. intuition discriminate. }
  split; eexists; vm_compute; reflexivity.
Qed.
Lemma empty_precursors_witness : exists w w2 g g2,
  let ops := [SetPrecursors []; SetPrecursors [0]] in
  made [0; 1; 2; 9] relay ops = Ok w /\ made [0; 1; 2; 9] relay (last_calls ops) = Ok w2 /\ w_graph w = Some g /\ w_graph w2 = Some g2
  /\ In (Precursors, []) (node_data g) /\ In (Precursors, [0]) (node_data g) /\ ~ In (Precursors, []) (node_data g2).
Proof.
  do 4 eexists. cbv zeta. split; [vm_compute; reflexivity|]. split; [vm_compute; reflexivity|]. split; [reflexivity|]. split; [reflexivity|].
  split; [vm_compute; auto 10|]. split; [vm_compute; auto 10|]. vm_compute. not_in.
Qed.

(* --- C37 --- *)
(* 1 -> 9 + 6, 0 -> 9 + 5, 0 -> 1, 0 + 1 -> 9 *)
Definition detour : list nrxn := [rr 0 [1] [9; 6]; rr 1 [0] [9; 5]; rr 2 [0] [1]; rr 3 [0; 1] [9]].
Definition detour_costs : list Q := [1; 2; 3#2; 10]%Q.
Lemma simple_walk (costs : list Q) es u t p c : In (p, c) (simple_walks (cost_of (cost_by costs)) (length es) es [] u t) -> walk (cost_of (cost_by costs)) es u t p c /\ NoDup p.
Proof. intros H. destruct (simple_sound (cost_of (cost_by costs)) (length es) es [] u t p c (fun x => x) H) as (H1 & H2 & _). auto. Qed.
Lemma missed_witness : exists w g paths q c p d,
  made [0; 1; 5; 6; 9] detour [SetPrecursors [0; 1]; SetTarget 9] = Ok w /\ w_graph w = Some g /\ has g 7 (Precursors, [0; 1]) /\ has g 8 (Target, [9])
  /\ shortest (cost_of (cost_by detour_costs)) (dij detour_costs) /\ distinct_sides detour
  /\ yens_ksp (edge_weight (cost_by detour_costs)) (dij detour_costs) (g_edges g) 3 7 8 = Ok paths
  /\ walk (cost_of (cost_by detour_costs)) (g_edges g) 7 8 q c /\ NoDup q /\ ~ In q paths
  /\ In p paths /\ walk (cost_of (cost_by detour_costs)) (g_edges g) 7 8 p d /\ (c < d)%Q.
Proof.
  do 3 eexists. exists [7; 2; 4; 0; 1; 8], (5#2)%Q, [7; 5; 6; 8], 10%Q. split; [vm_compute; reflexivity|]. split; [reflexivity|]. split; [reflexivity|]. split; [reflexivity|].
  split; [apply search_shortest|]. split.
  { sides_ok. }
  split; [vm_compute; reflexivity|].
  match goal with |- walk ?wt ?es _ _ _ _ /\ _ => assert (W : walk wt es 7 8 [7; 2; 4; 0; 1; 8] (5#2)%Q /\ NoDup [7; 2; 4; 0; 1; 8]) by (apply simple_walk; vm_compute; auto 10) end.
  destruct W as [W1 W2]. split; [exact W1|]. split; [exact W2|]. split; [not_in|]. split; [cbn; auto 10|]. split; [|reflexivity]. apply simple_walk. vm_compute. auto 10.
Qed.

(* 1 -> 9 + 6, 0 -> 1, 1 -> 0, 0 -> 9 + 5, 0 + 1 -> 9 + 7 *)
Definition cycle : list nrxn := [rr 0 [1] [9; 6]; rr 1 [0] [1]; rr 2 [1] [0]; rr 3 [0] [9; 5]; rr 4 [0; 1] [9; 7]].
Definition cycle_costs : list Q := [3; 1; 1; 1; 20]%Q.
Lemma loops_witness : exists w g paths p q c,
  made [0; 1; 5; 6; 7; 9] cycle [SetPrecursors [0]; SetTarget 9] = Ok w /\ w_graph w = Some g /\ has g 8 (Precursors, [0]) /\ has g 9 (Target, [9])
  /\ shortest (cost_of (cost_by cycle_costs)) (dij cycle_costs)
  /\ yens_ksp (edge_weight (cost_by cycle_costs)) (dij cycle_costs) (g_edges g) 3 8 9 = Ok paths
  /\ In p paths /\ ~ NoDup p /\ walk (cost_of (cost_by cycle_costs)) (g_edges g) 8 9 q c /\ NoDup q /\ ~ In q paths.
Proof.
  do 3 eexists. exists [8; 2; 3; 0; 4; 2; 5; 9], [8; 2; 3; 6; 7; 9], 21%Q. split; [vm_compute; reflexivity|]. split; [reflexivity|]. split; [reflexivity|]. split; [reflexivity|].
  split; [apply search_shortest|]. split; [vm_compute; reflexivity|]. split; [cbn; auto 10|]. split.
  { intros H. inversion H as [|? ? _ H']. inversion H' as [|? ? Hn _]. apply Hn. cbn. auto 10. }
  match goal with |- walk ?wt ?es _ _ _ _ /\ _ => assert (W : walk wt es 8 9 [8; 2; 3; 6; 7; 9] 21%Q /\ NoDup [8; 2; 3; 6; 7; 9]) by (apply simple_walk; vm_compute; auto 10) end.
  destruct W as [W1 W2]. split; [exact W1|]. split; [exact W2|]. not_in.
Qed.

(* An abstract graph without cycles or parallel edges; edges carry their weights. *)
Definition ladder : list (nat * nat * Q) :=
  [(0, 2, 0%Q); (2, 4, 1%Q); (4, 9, 0%Q); (0, 1, 0%Q); (1, 3, 2%Q); (3, 9, 0%Q); (1, 5, (3#2)%Q); (5, 2, 0%Q); (5, 6, 0%Q); (6, 9, 10%Q)].
Lemma unsorted_witness : exists paths p q c d, shortest (fun e : Q => e) (search (fun e => e)) /\ non_negative (fun e : Q => e) ladder /\ no_parallel ladder
  /\ yens_ksp (fun e => e) (search (fun e => e)) ladder 4 0 9 = Ok paths /\ nth_error paths 2 = Some p /\ nth_error paths 3 = Some q
  /\ walk (fun e => e) ladder 0 9 p c /\ walk (fun e => e) ladder 0 9 q d /\ (d < c)%Q.
Proof.
  do 3 eexists. exists (23#2)%Q, (5#2)%Q. split; [apply search_shortest|]. split.
  { intros e He. cbn in He. repeat (destruct He as [<-|He]; [vm_compute; discriminate|]). destruct He. }
  split.
  { unfold no_parallel, ladder. cbn [map fst]. repeat (constructor; [cbn; not_in|]). constructor. }
  split; [vm_compute; reflexivity|]. split; [reflexivity|]. split; [reflexivity|].
  assert (W : forall p c, In (p, c) (simple_walks (fun e : Q => e) (length ladder) ladder [] 0 9) -> walk (fun e : Q => e) ladder 0 9 p c).
  { intros p c H. apply (simple_sound (fun e : Q => e) (length ladder) ladder [] 0 9 p c (fun x => x) H). }
  split; [apply W; vm_compute; auto 10|]. split; [apply W; vm_compute; auto 10|reflexivity].
Qed.

(* --- C38 --- *)
Definition twins : list nrxn := [rr 0 [0] [9]; rr 1 [0] [9]].
Lemma twins_witness : exists w g p c l,
  made [0; 9] twins [SetPrecursors [0]; SetTarget 9] = Ok w /\ w_graph w = Some g /\ has g 2 (Precursors, [0]) /\ has g 3 (Target, [9])
  /\ dij [1; 5]%Q (g_edges g) 2 3 = Some p /\ cheapest_walk (cost_of (cost_by [1; 5]%Q)) (g_edges g) 2 3 p /\ walk (cost_of (cost_by [1; 5]%Q)) (g_edges g) 2 3 p c
  /\ path_from_graph (cost_by [1; 5]%Q) g p = Ok l /\ l = [(Rxn (rr 1 [0] [9]), 5%Q)] /\ (c < total l)%Q.
Proof.
  do 3 eexists. exists 1%Q. eexists. split; [vm_compute; reflexivity|]. split; [reflexivity|]. split; [reflexivity|]. split; [reflexivity|]. split; [vm_compute; reflexivity|].
  split.
  - match goal with |- cheapest_walk ?wt ?es _ _ ?p => assert (Hnn : non_negative wt es) end.
    { intros e He. vm_compute in He. repeat (destruct He as [<-|He]; [vm_compute; discriminate|]). destruct He. }
    match goal with |- cheapest_walk ?wt ?es _ _ ?p => pose proof (search_shortest wt es 2 3 Hnn ltac:(discriminate)) as H end.
    match type of H with match ?s with _ => _ end => assert (E : s = Some [2; 0; 1; 3]) by (vm_compute; reflexivity) end. rewrite E in H. apply H.
  - split; [apply simple_walk; vm_compute; auto 10|]. split; [vm_compute; reflexivity|]. split; reflexivity.
Qed.

(* --- C71 --- *)
Lemma reload_witness : exists w w' w3 g g3,
  made [0; 1; 2; 9] relay [SetPrecursors [0; 1]; SetTarget 9] = Ok w /\ w_graph w = Some g
  /\ net_round_trip (fun l => l) w = Ok w' /\ set_precursors w' [0; 1] = Ok w3 /\ w_graph w3 = Some g3
  /\ set_precursors w [0; 1] = Ok w
  /\ length (filter (fun e => negb (is_rxn (snd e))) (data_edges g)) = 3 /\ length (filter (fun e => negb (is_rxn (snd e))) (data_edges g3)) = 4.
Proof.
  do 5 eexists. split; [vm_compute; reflexivity|]. split; [reflexivity|]. split; [vm_compute; reflexivity|]. split; [vm_compute; reflexivity|]. split; [reflexivity|].
  split; [vm_compute; reflexivity|]. split; vm_compute; reflexivity.
Qed.
