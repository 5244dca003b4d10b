(* C154: searching paths in a network that is not set up raises. *)
From Verif Require Import Prelude NetModel YenModel NetErrorsProofs.
Open Scope nat_scope.

(* Without a graph ValueError, without precursors TypeError, with precursors but no target AttributeError, and TypeError when
   the node of either is not in the graph. *)
Theorem C154_unset : forall cost sp w k,
  (w_graph w = None -> k_shortest_paths cost sp w k = Err ValueError)
  /\ forall g, w_graph w = Some g -> nodes g <> [] ->
     (w_precursors w = None -> k_shortest_paths cost sp w k = Err TypeError)
     /\ (forall ps, w_precursors w = Some ps -> w_target w = None -> k_shortest_paths cost sp w k = Err AttributeError)
     /\ (forall ps t, w_precursors w = Some ps -> w_target w = Some t -> find_node node_eqb g (Precursors, ps) = None \/ find_node node_eqb g (Target, [t]) = None ->
         k_shortest_paths cost sp w k = Err TypeError).
Proof. exact unset. Qed.
Print Assumptions C154_unset.

(* Asking for pathways before precursors are set, or with none, whatever the targets. *)
Theorem C154_no_precursors : forall cost sp w targets k, w_precursors w = None \/ w_precursors w = Some [] -> find_pathways cost sp w targets k = Err AttributeError.
Proof. exact no_precursors. Qed.
Print Assumptions C154_no_precursors.

Definition one_edge : network := net_build (new_network [0; 1] [{| n_id := 0; n_reactants := [0]; n_products := [1] |}]).
Example C154_unset_demo : (exists g, w_graph one_edge = Some g /\ nodes g <> []) /\ w_precursors one_edge = None
  /\ (exists w ps, set_precursors one_edge [0] = Ok w /\ w_precursors w = Some ps /\ w_target w = None /\ exists g, w_graph w = Some g /\ nodes g <> []).
Proof.
  split; [eexists; split; [reflexivity|vm_compute; discriminate]|]. split; [reflexivity|].
  eexists _, _. split; [vm_compute; reflexivity|]. split; [reflexivity|]. split; [reflexivity|]. eexists. split; [reflexivity|vm_compute; discriminate].
Qed.
Example C154_no_precursors_demo : w_precursors one_edge = None /\ exists w, set_precursors one_edge [0] = Ok w /\ w_precursors w = Some [0].
Proof. split; [reflexivity|]. eexists. split; vm_compute; reflexivity. Qed.
