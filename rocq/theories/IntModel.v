(* Model of PathwaySolver._find_intermediate_rxns with its enumerator (pathways/solver.py:342-403)
   for a closed system and the default use_basic_enumerator=True, use_minimize_enumerator=False:
   SolverModel has the four enumerators as arguments, here the BasicEnumerator of JoinModel is run.
   An entry is known by its index, which add_rxn_set keeps (reactions/reaction_set.py:303-334). *)
From Verif Require Import Prelude NumQ UtilsModel ReactionModel RxnSetModel PathModel SolverModel SolveJobModel EnumModel EnumLinkModel JoinModel.
From Verif Require EntrySetModel.
Open Scope nat_scope.

Section Int.
Variable C : chem.
(* As in SolveJobModel, for given formulas *)
Variable lsq : list nat -> list nat -> list nat -> list Q.
Variable lrank : list nat -> list nat -> nat.
(* As in JoinModel *)
Context {D : Type}.
Variable diagram : list nat -> D.
Variable arrange : list sentry -> list sentry.
Variable argsort : list Q -> list nat.
Variable shuffle : list nat -> list nat.
Variable wait : nat -> list (list (list (list nat * list nat) * D)) -> list (list (list (list nat * list nat) * D)) * list (list (list (list nat * list nat) * D)).
Variable order : list nat -> list nat.         (* the order in which the set is iterated *)
Variable chunk jobs : nat.                     (* MIN_CHUNK_SIZE, MAX_NUM_JOBS of enumerators/basic.py *)

(* The entry with this index; other numbers do not occur. *)
Definition with_index (ents : list entry) (i : nat) : entry := nth i ents {| e_id := i; e_comp := 0; e_energy := 0%Q |}.

(* rxn.entries; a BasicReaction has none *)
Definition entries_of (r : rxn) : result (list entry) :=
  match computed_of r with Some c => Ok (c_entries c) | None => Err AttributeError end.
(* net_rxn.product_entries, solver.py:181 *)
Definition targets_of (net : rxn) : result (list entry) :=
  match computed_of net with Some c => Ok (product_entries c) | None => Err AttributeError end.
(* e.is_element *)
Definition is_element (e : entry) : bool := Nat.eqb (length (ReactionModel.elems C (e_comp e))) 1.

(* solver.py:352-359: the entries of the reactions, the targets, and the elements *)
Definition intermediates (ents : list entry) (rxns : list rxn) (targets : list entry) : result (list nat) :=
  bind (mapM entries_of rxns) (fun ess =>
  Ok (order (nodup Nat.eq_dec (map e_id (concat ess ++ targets ++ filter is_element ents))))).

(* enumerators/basic.py:45-119: BasicEnumerator(targets=target_formulas) *)
Definition default_options : options :=
  {| o_n := 2; o_pfunc := IsSuperset; o_tfunc := Intersection; o_chemsys := None; o_chunk := chunk; o_jobs := jobs;
     o_unbalanced := true; o_changed := true; o_constraints := 1 |}.

(* energy_per_atom of a reaction of the set *)
Definition object_of (ents : list entry) (x : srxn) : crxn :=
  computed_init C (map (fun e => with_index ents (uid e)) (x_entries x)) (x_coeffs x) None.
Definition below (ents : list entry) (cutoff : Q) (x : srxn) : bool :=
  match computed_energy_per_atom C (object_of ents x) with Ok v => Qlt_bool v cutoff | Err _ => false end.

(* solver.py:342-403. The targets of the enumerator are looked up by formula among the
   intermediates (entries/utils.py:99-120, enumerators/basic.py:329-366); they are there. The energy
   of every reaction found is read in line 396. *)
Definition find_intermediates (cutoff : Q) (ents : list entry) (rxns : list rxn) (net : rxn) : result (list rxn) :=
  let ent := with_index ents in
  let form i := red C (e_comp (ent i)) in
  let epa i := (e_energy (ent i) / natoms C (e_comp (ent i)))%Q in
  bind (targets_of net) (fun targets =>
  bind (intermediates ents rxns targets) (fun mids =>
  bind (mapM (fun e => EntrySetModel.get_min_entry form epa mids (red C (e_comp e))) targets) (fun ts =>
  let en := {| en_options := default_options; en_precursors := []; en_targets := ts; en_open := None; en_duplicates := false |} in
  let found := enumerate_set C ent (fun r p => lsq (map form r) (map form p)) (fun r p => lrank (map form r) (map form p)) diagram arrange argsort shuffle wait mids en in
  bind found (fun s =>
  bind (get_rxns s) (fun xs =>
  bind (mapM (fun x => computed_energy_per_atom C (object_of ents x)) xs) (fun _ =>
  bind (find_intermediate_rxns argsort shuffle arrange (below ents cutoff) (arrange (map (fun i => set_entry C (ent i)) mids)) None 0%Q true false found found found found) (fun kept =>
  bind (get_rxns kept) (fun ys =>
  Ok (map (fun x => RComputed (object_of ents x)) ys))))))))).
End Int.
