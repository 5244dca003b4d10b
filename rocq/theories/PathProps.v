(* C40-C44, C73-C76: theorems about pathways and sets of pathways. *)
From Verif Require Import Prelude NumQ UtilsModel ReactionModel ReactionSpec ReactionCheck RxnSetModel RxnSetSpec RxnSetCheck PathModel PathSpec PathProofs PathCheck.
Open Scope nat_scope.

(* --- C40 --- *)
(* Full claim: also for open and closed reactions together (refuted below). *)
Theorem C40_round_trip_partial : forall req arrange (paths : list (path srxn)), arranges arrange -> (forall r, req r r = true) ->
  let rxns := flat_map p_rxns paths in
  (forall x y, In x (all_entries rxns) -> In y (all_entries rxns) -> uid x = uid y -> x = y) ->
  (forall r, In r rxns -> length (x_coeffs r) = length (x_entries r)) ->
  (forall r, In r rxns -> x_mu r = None) \/ (exists el q, forall r, In r rxns -> x_mu r = Some [(el, q)]) ->
  exists ps out, from_paths req arrange paths = Ok ps /\ pathset_len ps = length paths /\ get_paths ps = Ok out
  /\ Forall2 (fun p p' => Forall2 (fun r r' => req r' r = true /\ In r' rxns) (p_rxns p) (p_rxns p')
                          /\ p_costs p' = p_costs p /\ p_coeffs p' = p_coeffs p /\ p_balanced p' = false) paths out.
Proof. exact pathset_spec. Qed.
Print Assumptions C40_round_trip_partial.

Theorem C40_half_open_refuted : from_paths content_eqb arrange [half_open] = Err ValueError /\ (forall r, In r (p_rxns half_open) -> plain r).
Proof. exact half_open_path_witness. Qed.
Print Assumptions C40_half_open_refuted.

Example C40_demo : let rxns := flat_map p_rxns [step_path; bp (rev (p_rxns step_path))] in
  arranges arrange /\ (forall r, content_eqb r r = true)
  /\ (forall x y, In x (all_entries rxns) -> In y (all_entries rxns) -> uid x = uid y -> x = y)
  /\ (forall r, In r rxns -> length (x_coeffs r) = length (x_entries r)) /\ (forall r, In r rxns -> x_mu r = None)
  /\ exists ps out, from_paths content_eqb arrange [step_path; bp (rev (p_rxns step_path))] = Ok ps /\ get_paths ps = Ok out /\ map p_rxns out = [p_rxns step_path; rev (p_rxns step_path)].
Proof.
  cbv zeta. split; [exact arrange_arranges|]. split; [exact content_refl|]. split.
  - intros x y Hx Hy. cbn in Hx, Hy. repeat (destruct Hx as [<-|Hx]; [repeat (destruct Hy as [<-|Hy]; [cbn; intros E; (reflexivity || discriminate E)|]); destruct Hy|]). destruct Hx.
  - split; [intros r Hr; cbn in Hr; repeat (destruct Hr as [<-|Hr]; [reflexivity|]); destruct Hr|]. split; [intros r Hr; cbn in Hr; repeat (destruct Hr as [<-|Hr]; [reflexivity|]); destruct Hr|].
    do 2 eexists. split; [vm_compute; reflexivity|]. split; vm_compute; reflexivity.
Qed.

(* --- C41 --- *)
(* Full claim: also for different numbers of reactions (refuted below). *)
Theorem C41_equal_partial : forall {R} (req : R -> R -> bool), equivalence req -> forall p q : path R, same_shape p q ->
  exists b, path_eq req p q = Ok b
  /\ (b = true <-> Forall2 (fun a b => req a b = true) (p_rxns p) (p_rxns q) /\ (p_coeffs p <> None -> Forall2 near (p_costs p) (p_costs q))).
Proof. exact @path_eq_iff. Qed.
Print Assumptions C41_equal_partial.

Theorem C41_equivalence_partial : forall {R} (req : R -> R -> bool), equivalence req -> forall p q s : path R, p_coeffs p = None -> same_shape p q -> same_shape q s ->
  (path_eq req p q = Ok true -> path_eq req q p = Ok true) /\ (path_eq req p q = Ok true -> path_eq req q s = Ok true -> path_eq req p s = Ok true).
Proof. exact @basic_equivalence. Qed.
Print Assumptions C41_equivalence_partial.

Theorem C41_prefix_refuted : exists p q : path nat, path_eq Nat.eqb p q = Ok true /\ path_eq Nat.eqb q p = Ok true /\ length (p_rxns p) <> length (p_rxns q).
Proof. exact prefix_witness. Qed.
Print Assumptions C41_prefix_refuted.

Theorem C41_transitive_refuted : exists p q r : path nat, path_eq Nat.eqb p q = Ok true /\ path_eq Nat.eqb q r = Ok true /\ path_eq Nat.eqb p r = Ok false.
Proof. exact chain_witness. Qed.
Print Assumptions C41_transitive_refuted.

Theorem C41_symmetric_refuted : exists p q : path nat, same_shape p q /\ path_eq Nat.eqb p q = Ok true /\ path_eq Nat.eqb q p = Ok false.
Proof. exact one_way_witness. Qed.
Print Assumptions C41_symmetric_refuted.

Theorem C41_raises_refuted : exists p q : path nat, path_eq Nat.eqb p q = Err ValueError.
Proof. exact uneven_witness. Qed.
Print Assumptions C41_raises_refuted.

(* With different numbers of costs: a single cost is compared with each of the others, and otherwise the comparison raises. *)
Theorem C41_costs : forall {R} (req : R -> R -> bool) (p q : path R), p_coeffs p <> None -> p_coeffs q <> None ->
  (forall a b, In (a, b) (combine (p_rxns q) (p_rxns p)) -> req a b = true) -> length (p_costs p) <> length (p_costs q) ->
  (forall c, p_costs p = [c] -> exists b, path_eq req p q = Ok b /\ (b = true <-> Forall (near c) (p_costs q)))
  /\ (forall c, p_costs q = [c] -> exists b, path_eq req p q = Ok b /\ (b = true <-> Forall (fun a => near a c) (p_costs p)))
  /\ (length (p_costs p) <> 1 -> length (p_costs q) <> 1 -> path_eq req p q = Err ValueError).
Proof. exact @costs_broadcast. Qed.
Print Assumptions C41_costs.

Example C41_costs_demo : path_eq Nat.eqb (cp [1; 2] [3; 3]%Q [1; 1]%Q) (cp [1] [3]%Q [1]%Q) = Ok true /\ path_eq Nat.eqb (cp [1; 2] [3; 4]%Q [1; 1]%Q) (cp [1] [3]%Q [1]%Q) = Ok false
  /\ path_eq Nat.eqb (cp [1] [3]%Q [1]%Q) (cp [1; 2] [3; 4]%Q [1; 1]%Q) = Ok false /\ path_eq Nat.eqb (cp [1; 2] [3; 4]%Q [1; 1]%Q) (cp [1; 2; 3] [3; 4; 5]%Q [1; 1; 1]%Q) = Err ValueError.
Proof. repeat split; vm_compute; reflexivity. Qed.

(* A BasicPathway and a BalancedPathway are not equal, whichever is asked. *)
Theorem C41_classes : forall {R} (req : R -> R -> bool) (p q : path R), p_coeffs p = None -> p_coeffs q <> None -> path_eq req p q = Ok false /\ path_eq req q p = Ok false.
Proof. exact @classes_differ. Qed.
Print Assumptions C41_classes.
Example C41_classes_demo : path_eq Nat.eqb (bp [1; 2]) (cp [1; 2] [3; 3]%Q [1; 1]%Q) = Ok false /\ p_rxns (bp [1; 2]) = p_rxns (cp [1; 2] [3; 3]%Q [1; 1]%Q).
Proof. split; reflexivity. Qed.

Example C41_demo : equivalence Nat.eqb /\ same_shape (cp [1; 2] [1; 2]%Q [1; 1]%Q) (cp [1; 2] [1; 2]%Q [3; 1]%Q) /\ path_eq Nat.eqb (bp [1; 2]) (bp [1; 3]) = Ok false.
Proof. split; [exact nat_equivalence|]. split; [split; [split; discriminate|split; reflexivity]|reflexivity]. Qed.

(* --- C42 --- *)
Theorem C42_species : forall {R} (rs ps : R -> list nat) (p : path R),
  (forall c, In c (path_reactants rs ps p) <-> consumed rs p c /\ ~ formed ps p c)
  /\ (forall c, In c (path_products rs ps p) <-> formed ps p c /\ ~ consumed rs p c)
  /\ (forall c, In c (intermediates rs ps p) <-> formed ps p c /\ consumed rs p c)
  /\ (forall c, In c (path_comps rs ps p) <-> formed ps p c \/ consumed rs p c)
  /\ Permutation (path_comps rs ps p) (path_reactants rs ps p ++ intermediates rs ps p ++ path_products rs ps p)
  /\ NoDup (path_comps rs ps p).
Proof. exact @species_spec. Qed.
Print Assumptions C42_species.

Example C42_demo : path_reactants made_from makes (bp [0; 1; 2]) = [0] /\ intermediates made_from makes (bp [0; 1; 2]) = [11; 10] /\ path_products made_from makes (bp [0; 1; 2]) = [12].
Proof. repeat split. Qed.

(* --- C43 --- *)
Theorem C43_average : forall {R} (p : path R) ms, p_coeffs p = Some ms -> ms <> [] -> length (p_costs p) = length ms -> Forall (fun m => (0 < m)%Q) ms ->
  exists a, average_cost p = Ok a
  /\ (a * Qsum ms == Qsum (map (fun mc => fst mc * snd mc) (combine ms (p_costs p))))%Q
  /\ (forall lo hi, (forall c, In c (p_costs p) -> (lo <= c <= hi)%Q) -> (lo <= a <= hi)%Q)
  /\ (forall k, (0 < k)%Q -> exists a', average_cost (scaled_path k p) = Ok a' /\ (a' == a)%Q).
Proof. exact @average_spec. Qed.
Print Assumptions C43_average.

(* total_cost of BasicPathway; with equal multiplicities the average is the plain mean. *)
Theorem C43_total : forall {R} (p : path R), (p_costs p = [] -> (total_cost p == 0)%Q)
  /\ (forall c l, p_costs p = c :: l -> (total_cost p == c + total_cost {| p_rxns := p_rxns p; p_costs := l; p_coeffs := p_coeffs p; p_balanced := p_balanced p |})%Q)
  /\ (forall m a, p_coeffs p = Some (repeat m (length (p_costs p))) -> (0 < m)%Q -> average_cost p = Ok a -> (a * inject_Z (Z.of_nat (length (p_costs p))) == total_cost p)%Q).
Proof. exact @total_spec. Qed.
Print Assumptions C43_total.

Example C43_total_demo : total_cost (cp [1; 2] [3; 4]%Q [2; 2]%Q) = 7%Q /\ exists a, average_cost (cp [1; 2] [3; 4]%Q [2; 2]%Q) = Ok a /\ (a == 7 # 2)%Q.
Proof. split; [reflexivity|]. eexists. split; vm_compute; reflexivity. Qed.
Example C43_demo : exists a, average_cost step_path = Ok a /\ (a == 11 # 3)%Q.
Proof. eexists. split; vm_compute; reflexivity. Qed.

(* --- C44 --- *)
(* Full claim: exactly the interdependent ones (refuted below). *)
Theorem C44_circular_partial : forall {R} (rs ps cs : R -> list nat) (req : R -> R -> bool), (forall a b, req a b = true <-> a = b) ->
  forall p prec, contains_interdependent req rs ps cs p prec = true <-> circular rs ps prec p.
Proof. exact @contains_iff. Qed.
Print Assumptions C44_circular_partial.

Theorem C44_never_missed_partial : forall {R} (rs ps cs : R -> list nat) (req : R -> R -> bool), (forall a b, req a b = true <-> a = b) ->
  forall p prec, interdependent rs ps cs prec p -> contains_interdependent req rs ps cs p prec = true.
Proof. exact @never_missed. Qed.
Print Assumptions C44_never_missed_partial.

(* The phase is also made from the precursors by another reaction. *)
Theorem C44_recycled_refuted : contains_interdependent Nat.eqb made_from makes phases (bp [0; 1; 2]) [0] = true
  /\ ~ interdependent made_from makes phases [0] (bp [0; 1; 2]).
Proof. exact recycled_witness. Qed.
Print Assumptions C44_recycled_refuted.

Example C44_demo : contains_interdependent Nat.eqb made_from makes phases (bp [0; 3; 4]) [0] = true /\ interdependent made_from makes phases [0] (bp [0; 3; 4]).
Proof. exact needing_witness. Qed.
Example C44_demo_false : contains_interdependent Nat.eqb made_from makes phases (bp [0; 1]) [0] = false.
Proof. reflexivity. Qed.

(* --- C73 --- *)
(* Full claim: also for different multiplicities and numbers of reactions. *)
Theorem C73_hash_partial : forall {R} (req : R -> R -> bool), equivalence req -> forall (rhash : R -> nat) (p q : path R),
  (forall a b, req a b = true -> rhash a = rhash b) -> same_shape p q -> p_coeffs p = p_coeffs q ->
  path_eq req p q = Ok true -> hash_key rhash p = hash_key rhash q.
Proof. exact @equal_hash. Qed.
Print Assumptions C73_hash_partial.

Theorem C73_multiplicities_refuted : exists p q : path nat, path_eq Nat.eqb p q = Ok true /\ same_shape p q /\ hash_key (fun r => r) p <> hash_key (fun r => r) q.
Proof. exact hash_witness. Qed.
Print Assumptions C73_multiplicities_refuted.

Example C73_demo : path_eq Nat.eqb (cp [1; 2] [1; 2]%Q [1; 1]%Q) (cp [1; 2] [1; 2]%Q [1; 1]%Q) = Ok true.
Proof. reflexivity. Qed.

(* --- C74 --- *)
(* Full claim: for all multiplicities (refuted below). *)
Theorem C74_unit_energy_partial : forall C es kss net n p, (forall ks, In ks kss -> length ks = length es) -> length net = length es ->
  (forall j, j < length es -> (nth j net 0 == weighted (repeat 1 (length kss)) kss j)%Q) ->
  p_rxns p = map (fun ks => RComputed (computed_init C es ks n)) kss ->
  exists e e', path_energy C p = Ok e /\ energy C (RComputed (computed_init C es net n)) = Ok e' /\ (e == e')%Q.
Proof. exact unit_energy. Qed.
Print Assumptions C74_unit_energy_partial.

(* What the energy of the net reaction is. *)
Theorem C74_net_energy : forall C es kss ms net n, (forall ks, In ks kss -> length ks = length es) -> length ms = length kss -> length net = length es ->
  (forall j, j < length es -> (nth j net 0 == weighted ms kss j)%Q) ->
  exists e Es, energy C (RComputed (computed_init C es net n)) = Ok e
  /\ mapM (energy C) (map (fun ks => RComputed (computed_init C es ks n)) kss) = Ok Es
  /\ (e == Qsum (map (fun mE => fst mE * snd mE) (combine ms Es)))%Q /\ length Es = length ms.
Proof. exact net_energy. Qed.
Print Assumptions C74_net_energy.

Theorem C74_multiplicity_refuted : exists p e e', let es := titanate_entries in let ks := [-1; -1; 1; 1]%Q in
  p = cp [RComputed (computed_init ReactionCheck.demo es ks (Some 0))] [1%Q] [2%Q] /\ path_energy ReactionCheck.demo p = Ok e
  /\ energy ReactionCheck.demo (RComputed (computed_init ReactionCheck.demo es (map (fun k => 2 * k)%Q ks) (Some 0))) = Ok e'
  /\ conserving ReactionCheck.demo (c_base (computed_init ReactionCheck.demo es ks (Some 0))) /\ (e == -2)%Q /\ (e' == -4)%Q.
Proof. exact energy_witness. Qed.
Print Assumptions C74_multiplicity_refuted.

(* The energy per atom of a pathway is the sum of those of its steps, *)
Theorem C74_per_atom : forall C (p : path rxn) es, Forall2 (fun r e => energy_per_atom C r = Ok e) (p_rxns p) es ->
  exists v, path_energy_per_atom C p = Ok v /\ (v == Qsum es)%Q.
Proof. exact path_per_atom. Qed.
Print Assumptions C74_per_atom.

(* which is not the energy per atom of the net reaction, even if every step occurs once. *)
Theorem C74_per_atom_refuted : exists p e e', let es := titanate_entries in let ks := [-1; -1; 1; 1]%Q in let r := RComputed (computed_init ReactionCheck.demo es ks (Some 0)) in
  p = cp [r; r] [1%Q; 1%Q] [1%Q; 1%Q] /\ path_energy_per_atom ReactionCheck.demo p = Ok e
  /\ energy_per_atom ReactionCheck.demo (RComputed (computed_init ReactionCheck.demo es (map (fun k => 2 * k)%Q ks) (Some 0))) = Ok e' /\ conserving ReactionCheck.demo (c_base (computed_init ReactionCheck.demo es ks (Some 0)))
  /\ (e == 2 * e')%Q /\ ~ (e == e')%Q.
Proof. exact per_atom_witness. Qed.
Print Assumptions C74_per_atom_refuted.

Example C74_demo : forall j, j < 3 -> (nth j [-2; 1; 1]%Q 0 == weighted (repeat 1%Q 2) [[-1; 1; 0]; [-1; 0; 1]]%Q j)%Q.
Proof. intros [|[|[|j]]] H; [reflexivity|reflexivity|reflexivity|lia]. Qed.

(* --- C75 --- *)
Theorem C75_flag_refuted : exists ps p, from_paths content_eqb arrange [step_path] = Ok ps /\ get_paths ps = Ok [p]
  /\ p_balanced step_path = true /\ p_balanced p = false
  /\ p_rxns p = p_rxns step_path /\ p_costs p = [3; 4]%Q /\ p_coeffs p = Some [1; 2]%Q.
Proof. exact flag_lost_witness. Qed.
Print Assumptions C75_flag_refuted.

(* --- C76 --- *)
(* The matrix is never returned for a pathway with a phase. *)
Theorem C76_comp_matrix_refuted : forall {R} (rs ps : R -> list nat) (p : path R),
  (exists c, formed ps p c \/ consumed rs p c) -> get_comp_matrix rs ps p = Err AttributeError.
Proof. exact @comp_matrix_fails. Qed.
Print Assumptions C76_comp_matrix_refuted.

(* What get_coeff_vector_for_rxn returns for one reaction: the first coefficient of the
   phase, 0 for a phase the reaction does not have. *)
Theorem C76_vector_partial : forall (p : path brxn) r, length (coeffs r) = length (comps r) ->
  exists v, get_coeff_vector_for_rxn p r = Ok v
  /\ Forall2 (fun c k => (~ In c (comps r) /\ k = 0%Q)
       \/ (exists i, nth_error (comps r) i = Some c /\ (forall j, j < i -> nth_error (comps r) j <> Some c) /\ nth_error (coeffs r) i = Some k))
       (path_comps reactants products p) v.
Proof. exact vector_spec. Qed.
Print Assumptions C76_vector_partial.

Example C76_vector_demo : get_coeff_vector_for_rxn (cp [titanate] [1%Q] [1%Q]) (basic_init ReactionCheck.demo [9; 5; 12] [-2; 1; 3]%Q None None) = Ok [-2; 0; 0; 3]%Q.
Proof. vm_compute. reflexivity. Qed.
Example C76_demo : formed makes (bp [0; 1]) 11.
Proof. exists 1. cbn. auto. Qed.
