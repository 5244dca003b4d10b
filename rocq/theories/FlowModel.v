(* Model of NetworkFlowMaker.make in flows/core.py: which jobs the flow has, and which outputs
   each of them is given.  Names of jobs, the flow's name and what the jobs compute are not
   part of this model; formulas and elements are numbers. *)
From Coq Require Import QArith List Bool.
Import ListNotations.
Open Scope nat_scope.
Open Scope list_scope.

(* The enumerators flows/core.py builds; [kw] stands for the dictionary of keyword arguments.
   enumerators/basic.py, enumerators/minimize.py *)
Inductive enumerator :=
| Basic (kw : nat)
| BasicOpen (open_phases : list nat) (kw : nat)
| MinGibbs (kw : nat)
| MinGrand (open_elem : nat) (mu : Q) (kw : nat).

(* GetEntrySetMaker (jobs/core.py:53-104), only formulas_to_include *)
Record entry_maker := { em_formulas : list nat }.
(* NetworkMaker (jobs/core.py:509-517), without name and cost function *)
Record network_maker := { nm_precursors : option (list nat); nm_targets : option (list nat); nm_k : option nat; nm_open : option nat; nm_chempot : Q }.
(* PathwaySolverMaker (jobs/core.py:602-613), without the options that the flow leaves alone *)
Record solver_maker := { sm_precursors : list nat; sm_targets : list nat; sm_open : option nat; sm_chempot : Q }.

(* What a job puts out: .output.entries, .output.rxns, .output.paths, .output.network.entries *)
Inductive output := Entries | Rxns | Paths | NetworkEntries.
(* An argument of a job: an object given by the user, or an output of the job at a position of
   the flow (jobflow's OutputReference). *)
Inductive source := Given | Out (job : nat) (o : output).

Inductive job :=
| GetEntries (mk : entry_maker) (chemsys : list nat)
| Enumerate (enumerators : list enumerator) (entries : source)
| BuildNetwork (mk : network_maker) (rxn_sets : list source)
| Solve (mk : solver_maker) (pathways entries : source).

(* The fields of NetworkFlowMaker, flows/core.py:82-92; the enumeration maker passes what it is
   given on. *)
Record flow_maker := { fm_entry : entry_maker; fm_network : network_maker; fm_solver : option solver_maker;
  fm_open : option nat; fm_chempots : option (list Q); fm_basic : bool; fm_minimize : bool; fm_basic_kw : nat; fm_minimize_kw : nat }.

Section Flow.
Variable reduced : nat -> nat.                      (* Composition(f).reduced_formula *)
Variable elements : nat -> list nat.                (* Composition(f).elements *)
Variable elem_formula : nat -> nat.                 (* Composition(str(e)).reduced_formula, so O2 for O *)
Variable arrange : list nat -> list nat.            (* list(set(...)): some order *)

(* flows/core.py:120-136 and 94-96 for open_formula *)
Definition base_enumerators (m : flow_maker) : list enumerator :=
  (if fm_basic m then Basic (fm_basic_kw m) :: match fm_open m with Some e => [BasicOpen [elem_formula e] (fm_basic_kw m)] | None => [] end else [])
  ++ (if fm_minimize m then [MinGibbs (fm_minimize_kw m)] else []).

(* network_maker.update_kwargs, flows/core.py:164-171, and solver_maker.update_kwargs 172-180 *)
Definition network_at (mk : network_maker) (e : nat) (mu : Q) : network_maker :=
  {| nm_precursors := nm_precursors mk; nm_targets := nm_targets mk; nm_k := nm_k mk; nm_open := Some e; nm_chempot := mu |}.
Definition solver_at (mk : solver_maker) (e : nat) (mu : Q) : solver_maker :=
  {| sm_precursors := sm_precursors mk; sm_targets := sm_targets mk; sm_open := Some e; sm_chempot := mu |}.

(* One round of the loop, flows/core.py:157-215 *)
Definition at_chempot (m : flow_maker) (entries : source) (base_set : source) (e : nat) (jobs : list job) (mu : Q) : list job :=
  let i := length jobs in
  let jobs := jobs ++ [Enumerate [MinGrand e mu (fm_minimize_kw m)] entries; BuildNetwork (network_at (fm_network m) e mu) [base_set; Out i Rxns]] in
  match fm_solver m with
  | Some sm => jobs ++ [Solve (solver_at sm e mu) (Out (i + 1) Paths) (Out (i + 1) NetworkEntries)]
  | None => jobs
  end.

(* flows/core.py:98-217 make; [given]: entries is not None *)
Definition flow_make (m : flow_maker) (precursors targets : list nat) (given : bool) : list job :=
  let precursor_formulas := map reduced precursors in
  let target_formulas := map reduced targets in
  let chemsys := arrange (flat_map elements (precursor_formulas ++ target_formulas)) in
  let jobs := if given then []
    else [GetEntries {| em_formulas := arrange (em_formulas (fm_entry m) ++ precursor_formulas ++ target_formulas) |} chemsys] in
  let entries := if given then Given else Out 0 Entries in
  let base := length jobs in
  let jobs := jobs ++ [Enumerate (base_enumerators m) entries] in
  let base_set := Out base Rxns in
  let net := length jobs in
  let jobs := jobs ++ [BuildNetwork (fm_network m) [base_set]] in
  let jobs := match fm_solver m with Some sm => jobs ++ [Solve sm (Out net Paths) (Out net NetworkEntries)] | None => jobs end in
  if fm_minimize m then
    match fm_open m, fm_chempots m with
    | Some e, Some mus => fold_left (at_chempot m entries base_set e) mus jobs
    | _, _ => jobs
    end
  else jobs.
End Flow.
