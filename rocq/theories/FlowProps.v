(* C103 and C104: the flow that finds pathways. *)
From Coq Require Import QArith List Bool.
Import ListNotations.
From Verif Require Import FlowModel FlowSpec FlowProofs.
Open Scope nat_scope.
Open Scope list_scope.

(* --- C103 --- *)
(* Every argument of a job is given or the output of an earlier job of the kind that has it. *)
Theorem C103_wired : forall reduced elements elem_formula arrange m precursors targets given,
  wired given (flow_make reduced elements elem_formula arrange m precursors targets given).
Proof. exact flow_wired. Qed.
Print Assumptions C103_wired.

(* All enumerations use the same entries: the given ones, or else those of the first job. *)
Theorem C103_entries : forall reduced elements elem_formula arrange m precursors targets (given : bool),
  Forall (fun s => s = if given then Given else Out 0 Entries) (entry_sources (flow_make reduced elements elem_formula arrange m precursors targets given)).
Proof. exact flow_sources. Qed.
Print Assumptions C103_entries.

(* The first job fetches the chemical system of the precursors and targets, and keeps them. *)
Theorem C103_formulas : forall reduced elements elem_formula arrange m precursors targets, (forall l x, In x (arrange l) <-> In x l) ->
  exists mk chemsys, nth_error (flow_make reduced elements elem_formula arrange m precursors targets false) 0 = Some (GetEntries mk chemsys)
  /\ (forall f, In f (em_formulas mk) <-> In f (em_formulas (fm_entry m)) \/ exists g, In g (precursors ++ targets) /\ f = reduced g)
  /\ (forall x, In x chemsys <-> exists g, In g (precursors ++ targets) /\ In x (elements (reduced g))).
Proof. exact flow_formulas. Qed.
Print Assumptions C103_formulas.

(* One network with the base reactions, and one for each chemical potential, at that potential,
   with the base reactions and those of the enumeration at that potential.
   Missing: flows without the minimising enumerators. *)
Theorem C103_networks_partial : forall reduced elements elem_formula arrange m precursors targets given, fm_minimize m = true ->
  exists base rest, networks (flow_make reduced elements elem_formula arrange m precursors targets given) = (fm_network m, [Some base]) :: rest
  /\ (In (MinGibbs (fm_minimize_kw m)) base /\ (fm_basic m = true -> In (Basic (fm_basic_kw m)) base
        /\ forall e, fm_open m = Some e -> In (BasicOpen [elem_formula e] (fm_basic_kw m)) base))
  /\ Forall2 (fun p n => network_under (fm_network m) (fst n) p /\ snd n = [Some base; Some [MinGrand (fst p) (snd p) (fm_minimize_kw m)]]) (potentials m) rest.
Proof. exact flow_networks. Qed.
Print Assumptions C103_networks_partial.

(* Each network has its solver, with the same potential. *)
Theorem C103_solvers_partial : forall reduced elements elem_formula arrange m precursors targets given, fm_minimize m = true ->
  match fm_solver m with
  | None => solvers (flow_make reduced elements elem_formula arrange m precursors targets given) = []
  | Some sm => exists rest, solvers (flow_make reduced elements elem_formula arrange m precursors targets given) = (sm, Some (fm_network m), Some (fm_network m)) :: rest
      /\ Forall2 (fun p s => solver_under sm (fst (fst s)) p /\ exists mk, network_under (fm_network m) mk p /\ snd (fst s) = Some mk /\ snd s = Some mk) (potentials m) rest
  end.
Proof. exact flow_solvers. Qed.
Print Assumptions C103_solvers_partial.

(* Without the minimising enumerators the chemical potentials are dropped. *)
Theorem C103_chempots_refuted : exists m, length (potentials m) = 2 /\ forall reduced elements elem_formula arrange ps ts given,
  length (networks (flow_make reduced elements elem_formula arrange m ps ts given)) = 1.
Proof. exact chempots_witness. Qed.
Print Assumptions C103_chempots_refuted.

Example C103_demo : fm_minimize (oxide_flow true) = true /\ length (potentials (oxide_flow true)) = 2
  /\ length (flow_make S (fun f => [f]) S (fun l => l) (oxide_flow true) [1; 2] [3] false) = 10.
Proof. repeat split; reflexivity. Qed.

(* --- C104 --- *)
(* The networks look for what the network maker says. *)
Theorem C104_sought_partial : forall reduced elements elem_formula arrange m ps ts given,
  nm_precursors (fm_network m) = Some (map reduced ps) -> nm_targets (fm_network m) = Some (map reduced ts) ->
  sought (flow_make reduced elements elem_formula arrange m ps ts given) <> []
  /\ Forall (fun s => s = (Some (map reduced ps), Some (map reduced ts))) (sought (flow_make reduced elements elem_formula arrange m ps ts given)).
Proof. exact flow_sought_set. Qed.
Print Assumptions C104_sought_partial.

(* What is given to make is not passed on: with default settings no pathway is looked for. *)
Theorem C104_ignored_refuted : exists m, nm_k (fm_network m) = Some 10 /\ forall reduced elements elem_formula arrange ps ts given,
  sought (flow_make reduced elements elem_formula arrange m ps ts given) = repeat (None, None) 3.
Proof. exact ignored_witness. Qed.
Print Assumptions C104_ignored_refuted.

(* With entries given, the flow is the same for all precursors and targets. *)
Theorem C104_same_refuted : forall reduced elements elem_formula arrange m ps ts ps' ts',
  flow_make reduced elements elem_formula arrange m ps ts true = flow_make reduced elements elem_formula arrange m ps' ts' true.
Proof. exact flow_ignores. Qed.
Print Assumptions C104_same_refuted.

Example C104_demo : exists m, nm_precursors (fm_network m) = Some (map S [1; 2]) /\ nm_targets (fm_network m) = Some (map S [4]) /\ fm_minimize m = true.
Proof.
  exists {| fm_entry := {| em_formulas := [] |}; fm_network := {| nm_precursors := Some [2; 3]; nm_targets := Some [5]; nm_k := Some 10; nm_open := None; nm_chempot := 0%Q |};
    fm_solver := None; fm_open := None; fm_chempots := None; fm_basic := true; fm_minimize := true; fm_basic_kw := 0; fm_minimize_kw := 0 |}. repeat split.
Qed.
