(* Model of PathwaySolver._find_intermediate_rxns with both of its options, use_basic_enumerator and
   use_minimize_enumerator (pathways/solver.py:342-403), for a closed system: as IntModel, and the
   MinimizeGibbsEnumerator of MinJoinModel is run too. *)
From Verif Require Import Prelude NumQ UtilsModel ReactionModel RxnSetModel PathModel SolverModel SolveJobModel EnumModel EnumLinkModel MinModel JoinModel MinJoinModel IntModel.
From Verif Require EntrySetModel.
Open Scope nat_scope.

Section IntMin.
Variable C : chem.
(* As in IntModel *)
Variable lsq : list nat -> list nat -> list nat -> list Q.
Variable lrank : list nat -> list nat -> nat.
Context {D P : Type}.
Variable diagram : list nat -> D.
(* As in MinJoinModel *)
Variable build : list nat -> result P.
Variable kinks : P -> nat -> nat -> result (list (list nat * list nat)).
Variable pair_order : list nat -> list nat.
Variable arrange : list sentry -> list sentry.
Variable argsort : list Q -> list nat.
Variable shuffle : list nat -> list nat.
Variable wait : nat -> list (list (list (list nat * list nat) * D)) -> list (list (list (list nat * list nat) * D)) * list (list (list (list nat * list nat) * D)).
Variable mwait : nat -> list (list (list (list nat * list nat) * option (list nat * P))) ->
  list (list (list (list nat * list nat) * option (list nat * P))) * list (list (list (list nat * list nat) * option (list nat * P))).
Variable order : list nat -> list nat.
Variable chunk jobs : nat.                     (* MIN_CHUNK_SIZE, MAX_NUM_JOBS of enumerators/basic.py *)
Variable mchunk mjobs : nat.                   (* and of enumerators/minimize.py:28-29 *)

(* solver.py:377: BasicEnumerator(targets=target_formulas), and what it finds *)
Definition basic_finder (ts : list nat) : enumerator :=
  {| en_options := default_options chunk jobs; en_precursors := []; en_targets := ts; en_open := None; en_duplicates := false |}.
Definition basic_objects (ents : list entry) (mids ts : list nat) : result (list object) :=
  let ent := with_index ents in
  let form i := red C (e_comp (ent i)) in
  enumerated C ent (fun r p => lsq (map form r) (map form p)) (fun r p => lrank (map form r) (map form p)) diagram wait mids (basic_finder ts).
(* solver.py:389-391: MinimizeGibbsEnumerator(targets=target_formulas), whose defaults
   (enumerators/minimize.py:31-45) are those of the BasicEnumerator, and what it finds *)
Definition min_finder (ts : list nat) : minimizer :=
  {| mi_options := default_options mchunk mjobs; mi_precursors := []; mi_targets := ts; mi_duplicates := false |}.
Definition min_objects (ents : list entry) (mids ts : list nat) : result (list object) :=
  let ent := with_index ents in
  let form i := red C (e_comp (ent i)) in
  let epa i := (e_energy (ent i) / natoms C (e_comp (ent i)))%Q in
  gibbs_enumerated C ent (fun r p => lsq (map form r) (map form p)) (fun r p => lrank (map form r) (map form p)) build kinks pair_order epa mwait mids (min_finder ts).

(* solver.py:342-403; in line 396 the energy of every reaction found by either is read. *)
Definition find_with_options (cutoff : Q) (use_basic use_min : bool) (ents : list entry) (rxns : list rxn) (net : rxn) : result (list rxn) :=
  let ent := with_index ents in
  let form i := red C (e_comp (ent i)) in
  let epa i := (e_energy (ent i) / natoms C (e_comp (ent i)))%Q in
  bind (targets_of net) (fun targets =>
  bind (intermediates C order ents rxns targets) (fun mids =>
  bind (mapM (fun e => EntrySetModel.get_min_entry form epa mids (red C (e_comp e))) targets) (fun ts =>
  let basic := set_of_objects C ent arrange argsort shuffle mids false (basic_objects ents mids ts) in
  let mini := set_of_objects C ent arrange argsort shuffle mids false (min_objects ents mids ts) in
  bind (if use_basic then bind basic get_rxns else Ok []) (fun xs =>
  bind (if use_min then bind mini get_rxns else Ok []) (fun xs' =>
  bind (mapM (fun x => computed_energy_per_atom C (object_of C ents x)) (xs ++ xs')) (fun _ =>
  bind (find_intermediate_rxns argsort shuffle arrange (below C ents cutoff) (arrange (map (fun i => set_entry C (ent i)) mids)) None 0%Q use_basic use_min basic basic mini mini) (fun kept =>
  bind (get_rxns kept) (fun ys =>
  Ok (map (fun x => RComputed (object_of C ents x)) ys))))))))).
End IntMin.
