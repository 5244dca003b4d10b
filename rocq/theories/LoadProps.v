(* C114, C115: theorems about networks that are saved and loaded, and about their nodes. *)
From Coq Require Import String.
From Verif Require Import Prelude NumQ EnumModel NetModel NetSpec NetCheck YenModel YenSpec ShortestPath RouteSpec LoadModel LoadSpec LoadProofs LoadCheck.
Local Open Scope string_scope. Open Scope nat_scope. Open Scope list_scope.

(* --- C114 --- *)
(* A network read back from the dictionary itself finds the pathways of the original. *)
Theorem C114_memory_partial : forall entries rxns, rxns <> [] -> forall cost, (forall r, In r rxns -> (0 <= cost r)%Q) -> forall sp, shortest (cost_of cost) sp ->
  forall order ops l ps targets k, (forall x, Permutation (order x) x) -> Forall (acceptable entries) ops -> lrun_ops (lbuild (lnew entries rxns)) ops = Ok l ->
  nth_error (rev (precursors_of ops)) 0 = Some ps -> (forall a, In a (precursors_of ops) -> forall e, In e a <-> In e ps) -> Forall (fun t => In t entries) targets ->
  exists l' l'' per, reloaded false order l = Ok l' /\ lfind_pathways cost sp l' targets k = Ok (l'', concat per)
  /\ Forall2 (fun t pathways => routes_found cost rxns ps t k pathways) targets per.
Proof. exact memory_routes. Qed.
Print Assumptions C114_memory_partial.

(* Read from a file it does so after its precursors have been set again. *)
Theorem C114_file_partial : forall entries rxns, rxns <> [] -> forall cost, (forall r, In r rxns -> (0 <= cost r)%Q) -> forall sp, shortest (cost_of cost) sp ->
  forall file order ops l ps targets k, (forall x, Permutation (order x) x) -> Forall (acceptable entries) ops -> lrun_ops (lbuild (lnew entries rxns)) ops = Ok l ->
  ps <> [] -> is_subset ps entries -> (forall a, In a (precursors_of ops) -> forall e, In e a <-> In e ps) -> Forall (fun t => In t entries) targets ->
  exists l' l1 l2 per, reloaded file order l = Ok l' /\ lset_precursors l' ps = Ok l1 /\ lfind_pathways cost sp l1 targets k = Ok (l2, concat per)
  /\ Forall2 (fun t pathways => routes_found cost rxns ps t k pathways) targets per.
Proof. exact file_routes. Qed.
Print Assumptions C114_file_partial.

(* Without that the search fails, for every network with precursors and every target. *)
Theorem C114_file_refuted : forall entries rxns, rxns <> [] -> forall order ops l ps, (forall x, Permutation (order x) x) -> Forall (acceptable entries) ops ->
  lrun_ops (lbuild (lnew entries rxns)) ops = Ok l -> nth_error (rev (precursors_of ops)) 0 = Some ps ->
  exists l', reloaded true order l = Ok l' /\ forall cost sp t targets k, In t entries -> lfind_pathways cost sp l' (t :: targets) k = Err TypeError.
Proof. exact file_fails. Qed.
Print Assumptions C114_file_refuted.

(* Reading a dictionary takes its contents away: a second reading gives a network without
   graph, precursors and target. *)
Theorem C114_once_refuted : forall entries rxns, rxns <> [] -> forall file order ops l, (forall x, Permutation (order x) x) -> Forall (acceptable entries) ops ->
  lrun_ops (lbuild (lnew entries rxns)) ops = Ok l ->
  exists d l' d' l2 d2, stored file order l = Ok d /\ net_from_dict d = Ok (l', d') /\ l_graph l' <> None /\ net_from_dict d' = Ok (l2, d2)
  /\ l_precursors l2 = None /\ l_target l2 = None /\ l_graph l2 = None.
Proof. exact read_once. Qed.
Print Assumptions C114_once_refuted.

(* A network that has not been built cannot be saved. *)
Theorem C114_unbuilt_refuted : forall entries rxns file order, stored file order (lnew entries rxns) = Err AttributeError.
Proof. exact unbuilt. Qed.
Print Assumptions C114_unbuilt_refuted.

(* Built again, a network that was loaded refuses all precursors and all targets: it looks for
   the nodes of the old ones, which are gone. *)
Theorem C114_rebuild_refuted : forall entries rxns, rxns <> [] -> forall file order ops l l', (forall x, Permutation (order x) x) -> Forall (acceptable entries) ops ->
  lrun_ops (lbuild (lnew entries rxns)) ops = Ok l -> reloaded file order l = Ok l' ->
  (precursors_of ops <> [] -> forall ps, lset_precursors (lbuild l') ps = Err ValueError)
  /\ forall t, nth_error (rev (targets_of ops)) 0 = Some t -> l_target (lbuild l') = Some (if file then Raw t else Obj t)
     /\ forall u, u <> t \/ file = true -> lset_target (lbuild l') u = Err ValueError.
Proof. exact rebuilt_loaded. Qed.
Print Assumptions C114_rebuild_refuted.

(* Precursors that are not among the entries are refused, and without precursors there is no search. *)
Theorem C114_unknown : forall l ps e, In e ps -> ~ In e (l_entries l) -> (forall vs, l_precursors l = Some vs -> ~ In (Obj e) vs) -> lset_precursors l ps = Err ValueError.
Proof. exact unknown_precursor. Qed.
Print Assumptions C114_unknown.
Theorem C114_no_precursors : forall cost sp l targets k, l_precursors l = None \/ l_precursors l = Some [] -> lfind_pathways cost sp l targets k = Err AttributeError.
Proof. exact search_without. Qed.
Print Assumptions C114_no_precursors.

Example C114_demo : exists l l' l1 w w2 w3,
  Forall (acceptable [0; 1; 2; 9]) [SetPrecursors [0; 1]; SetTarget 9] /\ lmade [0; 1; 2; 9] relay [SetPrecursors [0; 1]; SetTarget 9] = Ok l
  /\ shortest (cost_of (cost_by [1; 1]%Q)) (dij [1; 1]%Q)
  /\ lfind_pathways (cost_by [1; 1]%Q) (dij [1; 1]%Q) l [9] 2 = Ok (w, [[(Rxn (rr 0 [0] [2]), 1%Q); (Rxn (rr 1 [1; 2] [9]), 1%Q)]])
  /\ reloaded true (@rev _) l = Ok l' /\ l_precursors l' = Some [Raw 0; Raw 1]
  /\ lfind_pathways (cost_by [1; 1]%Q) (dij [1; 1]%Q) l' [9] 2 = Err TypeError
  /\ lset_precursors l' [1; 0] = Ok l1
  /\ lfind_pathways (cost_by [1; 1]%Q) (dij [1; 1]%Q) l1 [9] 2 = Ok (w2, [[(Rxn (rr 0 [0] [2]), 1%Q); (Rxn (rr 1 [1; 2] [9]), 1%Q)]])
  /\ bind (reloaded false (@rev _) l) (fun l2 => lfind_pathways (cost_by [1; 1]%Q) (dij [1; 1]%Q) l2 [9] 2) = Ok (w3, [[(Rxn (rr 0 [0] [2]), 1%Q); (Rxn (rr 1 [1; 2] [9]), 1%Q)]]).
Proof.
  do 6 eexists. split; [calls_ok|]. split; [vm_compute; reflexivity|]. split; [apply search_shortest|]. split; [vm_compute; reflexivity|].
  split; [vm_compute; reflexivity|]. split; [reflexivity|]. split; [vm_compute; reflexivity|]. split; [vm_compute; reflexivity|]. split; vm_compute; reflexivity.
Qed.

Example C114_unknown_demo : exists l, lmade [0; 1; 2; 9] relay [SetPrecursors [0; 1]] = Ok l /\ l_precursors l = Some [Obj 0; Obj 1]
  /\ lset_precursors l [2; 1] <> Err ValueError /\ lset_precursors l [2; 7] = Err ValueError.
Proof. eexists. split; [vm_compute; reflexivity|]. split; [reflexivity|]. split; [vm_compute; discriminate|]. apply (C114_unknown _ _ 7); [right; left; reflexivity|cbn; intuition discriminate|intros vs [= <-]; cbn; intuition discriminate]. Qed.

(* --- C115 --- *)
(* Nodes are equal when they are of one kind and hold the same entries. *)
Theorem C115_equal : forall {E} (eqe : E -> E -> bool) (elems : E -> list string) (order : list string -> list string), equivalence eqe ->
  (forall a b, eqe a b = true -> forall s, In s (elems a) <-> In s (elems b)) -> (forall a b, (forall s, In s a <-> In s b) -> order a = order b) ->
  forall es k es' k' same, nentry_eq E eqe same (network_entry E eqe elems order es k) (network_entry E eqe elems order es' k') = true
  <-> k = k' /\ covered eqe es es' /\ covered eqe es' es.
Proof. exact @node_equal. Qed.
Print Assumptions C115_equal.

(* A node read back is equal to the one stored. *)
Theorem C115_reload_partial : forall {E} (eqe : E -> E -> bool) (elems : E -> list string) (order : list string -> list string), equivalence eqe ->
  (forall a b, eqe a b = true -> forall s, In s (elems a) <-> In s (elems b)) -> (forall a b, (forall s, In s a <-> In s b) -> order a = order b) ->
  forall es k, exists n, nentry_round_trip E eqe elems order (network_entry E eqe elems order es k) = Ok n
  /\ nentry_eq E eqe false (network_entry E eqe elems order es k) n = true
  /\ ne_chemsys E n = ne_chemsys E (network_entry E eqe elems order es k) /\ ne_elements E n = ne_elements E (network_entry E eqe elems order es k) /\ ne_kind E n = k.
Proof. exact @node_reload. Qed.
Print Assumptions C115_reload_partial.

(* A dummy node cannot be read back. *)
Theorem C115_dummy_refuted : forall {E} (eqe : E -> E -> bool) elems order, nentry_round_trip E eqe elems order (dummy_entry E) = Err TypeError.
Proof. reflexivity. Qed.
Print Assumptions C115_dummy_refuted.

(* dim, the "number of elements", is the length of the text of the chemical system. It is
   the number of elements only for one element with a symbol of one letter. *)
Theorem C115_dim_refuted : forall {E} (eqe : E -> E -> bool) (elems : E -> list string) (order : list string -> list string) es k, let n := network_entry E eqe elems order es k in
  Forall (fun s => s <> "") (ne_elements E n) -> ne_elements E n <> [] ->
  (ne_dim E n = List.length (ne_elements E n) <-> exists s, ne_elements E n = [s] /\ String.length s = 1).
Proof. exact @dim_wrong. Qed.
Print Assumptions C115_dim_refuted.
Theorem C115_letters_partial : forall {E} (eqe : E -> E -> bool) (elems : E -> list string) (order : list string -> list string) es k, let n := network_entry E eqe elems order es k in
  ne_dim E n = letters (ne_elements E n) + (List.length (ne_elements E n) - 1).
Proof. exact @dim_letters. Qed.
Print Assumptions C115_letters_partial.

Example C115_demo : equivalence Nat.eqb /\ (forall a b, Nat.eqb a b = true -> forall s, In s (sample_elems a) <-> In s (sample_elems b))
  /\ (forall a b, (forall s, In s a <-> In s b) -> sample_order a = sample_order b)
  /\ let n := network_entry nat Nat.eqb sample_elems sample_order [1; 0; 1] KReactants in
     ne_entries nat n = [1; 0] /\ ne_elements nat n = ["Y"; "Mn"; "O"] /\ ne_chemsys nat n = "Y-Mn-O" /\ ne_dim nat n = 6
     /\ nentry_eq nat Nat.eqb false n (network_entry nat Nat.eqb sample_elems sample_order [0; 1] KReactants) = true
     /\ nentry_eq nat Nat.eqb false n (network_entry nat Nat.eqb sample_elems sample_order [0; 1] KProducts) = false.
Proof. split; [exact sample_eq|]. split; [exact sample_elems_eq|]. split; [exact sample_order_eq|]. vm_compute. repeat split; reflexivity. Qed.
