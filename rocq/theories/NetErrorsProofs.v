(* Proofs for C154: the search for paths in a network without precursors or target. *)
From Verif Require Import Prelude NetModel YenModel.
Open Scope nat_scope.

Lemma unset : forall cost sp w k,
  (w_graph w = None -> k_shortest_paths cost sp w k = Err ValueError)
  /\ forall g, w_graph w = Some g -> nodes g <> [] ->
     (w_precursors w = None -> k_shortest_paths cost sp w k = Err TypeError)
     /\ (forall ps, w_precursors w = Some ps -> w_target w = None -> k_shortest_paths cost sp w k = Err AttributeError)
     /\ (forall ps t, w_precursors w = Some ps -> w_target w = Some t -> find_node node_eqb g (Precursors, ps) = None \/ find_node node_eqb g (Target, [t]) = None ->
         k_shortest_paths cost sp w k = Err TypeError).
Proof.
  intros cost sp w k. split; [intros E; unfold k_shortest_paths, get_graph; rewrite E; reflexivity|]. intros g E N.
  assert (G : get_graph w = Ok g) by (unfold get_graph; rewrite E; destruct (nodes g); [destruct (N eq_refl)|reflexivity]).
  unfold k_shortest_paths. rewrite G. cbn [bind]. split; [intros ->; reflexivity|]. split; [intros ps -> ->; reflexivity|].
  intros ps t -> -> [->| ->]; [reflexivity|]. destruct (find_node _ _ _); reflexivity.
Qed.

Lemma no_precursors : forall cost sp w targets k, w_precursors w = None \/ w_precursors w = Some [] -> find_pathways cost sp w targets k = Err AttributeError.
Proof. intros cost sp w targets k [E|E]; unfold find_pathways; rewrite E; reflexivity. Qed.
