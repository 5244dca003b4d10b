(* Model of PathwaySolverMaker of jobs/core.py and of get_computed_rxn of
   enumerators/utils.py: formulas, pathways and entries go in; the net reaction and the
   balanced pathways come out. Put together from the models of the reactions, of
   GibbsEntrySet and of PathwaySolver. A formula is the number of its composition. *)
From Verif Require Import Prelude NumQ UtilsModel ReactionModel PathModel SolverModel FlowModel.
From Verif Require EntrySetModel.
Open Scope nat_scope.

Section SolveJob.
Variable C : chem.
(* The pseudo-inverse solution and the rank inside BasicReaction._balance_coeffs for given
   reactants and products, reactions/basic.py:366-421 *)
Variable lsq : list nat -> list nat -> list nat -> list Q.
Variable rank : list nat -> list nat -> nat.
(* entries.entries_list, and the order in which the set is iterated *)
Variable ents : list entry.
Variable members : list nat.

(* jobs/core.py:621-632 __post_init__ *)
Definition post_init (mk : solver_maker) : result brxn :=
  bind (basic_balance C (sm_precursors mk) (sm_targets mk) (lsq (sm_precursors mk) (sm_targets mk)) (rank (sm_precursors mk) (sm_targets mk))) (fun r =>
  if balanced r then Ok r else Err ValueError).

(* entries/entry_set.py:211-220 get_min_entry_by_formula *)
Definition no_entry : entry := {| e_id := 0; e_comp := 0; e_energy := 0%Q |}.
Definition entry_at (i : nat) : entry := nth i ents no_entry.
Definition formula_at (i : nat) : nat := red C (e_comp (entry_at i)).
Definition epa_at (i : nat) : Q := (e_energy (entry_at i) / natoms C (e_comp (entry_at i)))%Q.
Definition ground (f : nat) : result entry :=
  bind (EntrySetModel.get_min_entry formula_at epa_at members (red C f)) (fun i => Ok (entry_at i)).

(* enumerators/utils.py:32-54 get_computed_rxn, jobs/core.py:656-658 for the chemical
   potentials; reactions/open.py:66-105 OpenComputedReaction.balance *)
Definition net_rxn_of (open : option nat) (chempot : Q) (b : brxn) : result rxn :=
  bind (mapM ground (reactants b)) (fun res =>
  bind (mapM ground (products b)) (fun pes =>
  let rc := map (fun e => red C (e_comp e)) res in
  let pc := map (fun e => red C (e_comp e)) pes in
  bind (computed_balance C res pes (lsq rc pc) (rank rc pc)) (fun c =>
  Ok (match open with None => RComputed c | Some e => ROpen {| o_base := c; chempots := [(e, chempot)] |} end)))).

(* What the solver uses of a reaction: get_entry_idx_vector (a BasicReaction has none),
   reactants, products, compositions, the compositions of the reactant entries *)
Definition computed_of (r : rxn) : option crxn :=
  match r with RBasic _ => None | RComputed c => Some c | ROpen o => Some (o_base o) end.
Definition vector_of (r : rxn) : result (list Q) :=
  match computed_of r with Some c => get_entry_idx_vector c (length ents) | None => Err AttributeError end.
Definition precursor_comps (r : rxn) : list nat :=
  match computed_of r with Some c => map e_comp (reactant_entries c) | None => [] end.
(* pathways/solver.py:304-316 *)
Definition rebuilt (open : option nat) (chempot : Q) (nz : list (nat * Q)) : rxn :=
  let c := rebuild_computed C ents nz in
  match open with None => RComputed c | Some e => ROpen {| o_base := c; chempots := [(e, chempot)] |} end.

Variable req : rxn -> rxn -> bool.                        (* ==, assumed not to raise *)
Variable pinv : matrix -> list Q -> list Q.
Variable waits1 waits2 : nat -> nat -> list nat -> list nat * list nat.
Variable uniq : list (path rxn) -> list (path rxn).
Variable clean : list rxn -> list rxn.                    (* ReactionSet.from_rxns(_, filter_duplicates=True) *)
Variable cost : rxn -> Q.                                 (* self.cost_function *)
Variable inter : list entry -> list rxn -> rxn -> result (list rxn).                (* _find_intermediate_rxns for the entries and reactions of the solver and the net reaction *)
Variable chunk : nat.                                     (* PathwaySolver's chunk_size, 100000 *)
Variable cpus : nat.

(* jobs/core.py:635-675 make up to the document, solver.py:135-340 solve. [find]:
   find_intermediate_rxns; [fi]: filter_interdependent. *)
Definition solve_job (mk : solver_maker) (max : nat) (find fi : bool) (pathways : list (path rxn)) : result (rxn * list (path rxn)) :=
  bind (post_init mk) (fun b =>
  let rxns := solver_init req pathways in
  bind (net_rxn_of (sm_open mk) (sm_chempot mk) b) (fun net =>
  if negb (balanced (base_of net)) then Err ValueError else
  bind (if find then bind (inter ents (map fst rxns) net) (fun l => Ok (with_intermediates req cost rxns l)) else Ok rxns) (fun rxns =>
  bind (solve req vector_of (rebuilt (sm_open mk) (sm_chempot mk)) (fun r => reactants (base_of r)) (fun r => products (base_of r))
          (fun r => comps (base_of r)) precursor_comps pinv waits1 waits2 uniq (clean (map fst rxns)) rxns net true chunk None cpus max fi) (fun paths =>
  Ok (net, paths))))).
End SolveJob.
