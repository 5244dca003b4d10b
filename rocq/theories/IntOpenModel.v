(* Model of PathwaySolver._find_intermediate_rxns for an open element and its chemical potential
   (pathways/solver.py:342-403): as IntMinModel, and a BasicOpenEnumerator is run too, whose open phase
   is the open element. The result of the MinimizeGrandPotentialEnumerator is an argument: it is
   dropped in line 394. *)
From Verif Require Import Prelude NumQ UtilsModel ReactionModel RxnSetModel PathModel SolverModel SolveJobModel EnumModel EnumLinkModel MinModel JoinModel MinJoinModel IntModel IntMinModel.
From Verif Require EntrySetModel.
Open Scope nat_scope.

Section IntOpen.
Variable C : chem.
(* As in IntMinModel *)
Variable lsq : list nat -> list nat -> list nat -> list Q.
Variable lrank : list nat -> list nat -> nat.
Context {D P : Type}.
Variable diagram : list nat -> D.
Variable build : list nat -> result P.
Variable kinks : P -> nat -> nat -> result (list (list nat * list nat)).
Variable pair_order : list nat -> list nat.
Variable arrange : list sentry -> list sentry.
Variable argsort : list Q -> list nat.
Variable shuffle : list nat -> list nat.
Variable wait owait : nat -> list (list (list (list nat * list nat) * D)) -> list (list (list (list nat * list nat) * D)) * list (list (list (list nat * list nat) * D)).
Variable mwait : nat -> list (list (list (list nat * list nat) * option (list nat * P))) ->
  list (list (list (list nat * list nat) * option (list nat * P))) * list (list (list (list nat * list nat) * option (list nat * P))).
Variable order : list nat -> list nat.
Variable chunk jobs : nat.
Variable mchunk mjobs : nat.
Variable grand : list nat -> list nat -> result rset.   (* solver.py:389-394: of the intermediates, for the targets *)
Variable open_elem : nat.
Variable chempot : Q.
Variable gas : nat.                                     (* Composition(str(self.open_elem)).reduced_formula *)

(* solver.py:380-383: BasicOpenEnumerator(open_phases=[_], targets=target_formulas), whose other
   defaults (enumerators/basic.py:439-462) are those of the BasicEnumerator, and what it finds *)
Definition gas_finder (ts : list nat) : enumerator :=
  {| en_options := default_options chunk jobs; en_precursors := []; en_targets := ts; en_open := Some [gas]; en_duplicates := false |}.
Definition gas_objects (ents : list entry) (mids ts : list nat) : result (list object) :=
  let ent := with_index ents in
  let form i := red C (e_comp (ent i)) in
  enumerated C ent (fun r p => lsq (map form r) (map form p)) (fun r p => lrank (map form r) (map form p)) diagram owait mids (gas_finder ts).

(* energy_per_atom of a reaction of the set, which is an OpenComputedReaction
   (reactions/reaction_set.py:587-594) *)
Definition grand_per_atom (ents : list entry) (x : srxn) : result Q :=
  open_energy_per_atom C {| o_base := object_of C ents x; chempots := [(open_elem, chempot)] |}.
Definition grand_below (ents : list entry) (cutoff : Q) (x : srxn) : bool :=
  match grand_per_atom ents x with Ok v => Qlt_bool v cutoff | Err _ => false end.
(* A reaction of the set that is returned: from_rxns has found its open element again *)
Definition given_back (ents : list entry) (x : srxn) : rxn :=
  match x_mu x with
  | Some mu => ROpen {| o_base := object_of C ents x; chempots := mu |}
  | None => RComputed (object_of C ents x)
  end.

(* solver.py:342-403; in line 396 the energy of every reaction in the set is read. *)
Definition find_open (cutoff : Q) (use_basic use_min : bool) (ents : list entry) (rxns : list rxn) (net : rxn) : result (list rxn) :=
  let ent := with_index ents in
  let form i := red C (e_comp (ent i)) in
  let epa i := (e_energy (ent i) / natoms C (e_comp (ent i)))%Q in
  bind (targets_of net) (fun targets =>
  bind (intermediates C order ents rxns targets) (fun mids =>
  bind (mapM (fun e => EntrySetModel.get_min_entry form epa mids (red C (e_comp e))) targets) (fun ts =>
  let basic := set_of_objects C ent arrange argsort shuffle mids false (basic_objects C lsq lrank diagram wait chunk jobs ents mids ts) in
  let open := set_of_objects C ent arrange argsort shuffle mids false (gas_objects ents mids ts) in
  let mini := set_of_objects C ent arrange argsort shuffle mids false (min_objects C lsq lrank build kinks pair_order mwait mchunk mjobs ents mids ts) in
  bind (if use_basic then bind basic get_rxns else Ok []) (fun xs =>
  bind (if use_basic then bind open get_rxns else Ok []) (fun xs' =>
  bind (if use_min then bind mini get_rxns else Ok []) (fun xs'' =>
  bind (mapM (grand_per_atom ents) (xs ++ xs' ++ xs'')) (fun _ =>
  bind (find_intermediate_rxns argsort shuffle arrange (grand_below ents cutoff) (arrange (map (fun i => set_entry C (ent i)) mids)) (Some open_elem) chempot use_basic use_min basic open mini (grand mids ts)) (fun kept =>
  bind (get_rxns kept) (fun ys =>
  Ok (map (given_back ents) ys)))))))))).
End IntOpen.
