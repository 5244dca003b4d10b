(* Model of the part of a flow that an open element and a chemical potential add (flows/core.py:177-216): a
   MinimizeGrandPotentialEnumerator on the same entries, the network job with its reactions and those of the base
   enumeration, and the solver job. *)
From Verif Require Import Prelude NumQ UtilsModel ReactionModel EnumModel EnumLinkModel RxnSetModel RunModel PathModel SolverModel NetModel YenModel FlowModel NetJobModel SolveJobModel ChainModel MinModel JoinModel MinJoinModel IntModel IntMinModel AnyWholeModel IntOpenModel OpenWholeModel.
Open Scope nat_scope.

Section GrandJoin.
Variable C : chem.
Variable ent : nat -> entry.
Variable solve : list nat -> list nat -> list nat -> list Q.
Variable rank : list nat -> list nat -> nat.
Context {G : Type}.
(* GrandPotentialPhaseDiagram for the element and the potential, of compositions and energies, and the kinks of a
   GrandPotentialInterfacialReactivity (enumerators/utils.py:71-89) *)
Variable grand_diagram : nat -> Q -> list (nat * Q) -> result G.
Variable grand_interface : G -> nat -> nat -> result (list (list nat * list nat)).
Variable order : list nat -> list nat.
Variable arrange : list sentry -> list sentry.
Variable argsort : list Q -> list nat.
Variable shuffle : list nat -> list nat.
Variable gwait : nat -> list (list (list (list nat * list nat) * option (list nat * G))) ->
  list (list (list (list nat * list nat) * option (list nat * G))) * list (list (list (list nat * list nat) * option (list nat * G))).
Variable gas_of : nat -> nat.
Notation elems := (fun i => ReactionModel.elems C (e_comp (ent i))).
Notation formula := (fun i => red C (e_comp (ent i))).
Notation epa := (fun i => e_energy (ent i) / natoms C (e_comp (ent i)))%Q.

(* basic.py:121-270 enumerate() of a MinimizeGrandPotentialEnumerator (minimize.py:144-248), whose open_phases are the
   reduced formula of the element (minimize.py:215). OpenComputedReaction.balance (open.py:66-105) balances like
   ComputedReaction.balance; the objects here are without the chemical potentials. *)
Definition grand_enumerated (el : nat) (mu : Q) (entries : list nat) (m : minimizer) : result (list object) :=
  let op := phases_open C ent entries [gas_of el] in
  let keys := map fst (combos_dict elems (mi_options m) entries (mi_precursors m) (mi_targets m) op) in
  bind (mapM (system_diagram elems (diagram_of (grand_diagram el mu) ent) entries) keys) (fun ds =>
  keep_rxns (see_object C) elems minimize_iterable minimize_iter_length (grand_react elems formula epa (kinks_of grand_interface ent) (balance_object C ent solve rank) order el)
    (fun k => lookup list_eqb k (combine keys ds)) (mi_options m) entries (mi_precursors m) (mi_targets m) op [] gwait).
(* basic.py:270 for reactions with chempots = {element: potential} (open.py:105) *)
Definition open_set_rxn (el : nat) (mu : Q) (x : object) : srxn :=
  {| x_entries := map (set_entry C) (c_entries (ro_rxn x)); x_coeffs := coeffs (c_base (ro_rxn x)); x_data := ro_constraints x; x_mu := Some [(el, mu)] |}.
Definition grand_set (el : nat) (mu : Q) (entries : list nat) (m : minimizer) : result rset :=
  bind (grand_enumerated el mu entries m) (fun xs =>
  bind (from_rxns arrange (map (open_set_rxn el mu) xs) (map (fun i => set_entry C (ent i)) entries) None 0%Q) (fun s =>
  if mi_duplicates m then filter_duplicates argsort shuffle s [] else Ok s)).
(* jobs/core.py:217-240 with this enumerator alone (flows/core.py:202-207) *)
Definition grand_enumeration (el : nat) (mu : Q) (entries : list nat) (m : minimizer) : result (option rset) :=
  run_enumerators argsort shuffle [grand_set el mu entries m].
End GrandJoin.

Section GrandWhole.
Variable C : chem.
Variable ent : nat -> entry.
(* As in OpenWholeModel and above *)
Variable solve : list nat -> list nat -> list nat -> list Q.
Variable rank : list nat -> list nat -> nat.
Context {D P G : Type}.
Variable diagram : list nat -> D.
Variable phase_diagram : list (nat * Q) -> result P.
Variable interface : P -> nat -> nat -> result (list (list nat * list nat)).
Variable grand_diagram : nat -> Q -> list (nat * Q) -> result G.
Variable grand_interface : G -> nat -> nat -> result (list (list nat * list nat)).
Variable pair_order : list nat -> list nat.
Variable arrange : list sentry -> list sentry.
Variable argsort : list Q -> list nat.
Variable shuffle : list nat -> list nat.
Variable wait owait : nat -> list (list (list (list nat * list nat) * D)) -> list (list (list (list nat * list nat) * D)) * list (list (list (list nat * list nat) * D)).
Variable mwait : nat -> list (list (list (list nat * list nat) * option (list nat * P))) ->
  list (list (list (list nat * list nat) * option (list nat * P))) * list (list (list (list nat * list nat) * option (list nat * P))).
Variable gwait : nat -> list (list (list (list nat * list nat) * option (list nat * G))) ->
  list (list (list (list nat * list nat) * option (list nat * G))) * list (list (list (list nat * list nat) * option (list nat * G))).
Variable listed members : list nat -> list nat.
Variable cpus : nat.
Variable nwait : nat -> list (nat * list (option (list nat)) * result (list nat)) ->
  list (nat * list (option (list nat)) * result (list nat)) * list (nat * list (option (list nat)) * result (list nat)).
Variable xcost : srxn -> Q.
Variable sp : (payload -> Q) -> list (nat * nat * payload) -> nat -> nat -> option (list nat).
Variable xeq : srxn -> srxn -> bool.
Variable lsq : list nat -> list nat -> list nat -> list Q.
Variable lrank : list nat -> list nat -> nat.
Variable req : rxn -> rxn -> bool.
Variable pinv : matrix -> list Q -> list Q.
Variable waits1 waits2 : nat -> nat -> list nat -> list nat * list nat.
Variable uniq : list (path rxn) -> list (path rxn).
Variable clean : list rxn -> list rxn.
Variable cost : rxn -> Q.
Variable chunk : nat.
Variable iorder : list nat -> list nat.
Variable ichunk ijobs mchunk mjobs : nat.
Variable cutoff : Q.
Variables use_basic use_min : bool.
Variable gas_of : nat -> nat.
Variable grand : nat -> Q -> list entry -> list nat -> list nat -> result rset.

(* flows/core.py:180-194: the makers with the element and the potential *)
Definition network_at (el : nat) (mu : Q) (mk : network_maker) : network_maker :=
  {| nm_precursors := nm_precursors mk; nm_targets := nm_targets mk; nm_k := nm_k mk; nm_open := Some el; nm_chempot := mu |}.
Definition solver_at (el : nat) (mu : Q) (mk : solver_maker) : solver_maker :=
  {| sm_precursors := sm_precursors mk; sm_targets := sm_targets mk; sm_open := Some el; sm_chempot := mu |}.
(* flows/core.py:162-165 and one round of 178-216: what the solver job of that round gives. The enumeration for the
   element comes first here; if both fail, its exception is the one seen. *)
Definition chempot_flow (ens : list any_enumerator) (m : minimizer) (el : nat) (mu : Q) (entries : list nat) (nmk : network_maker) (smk : solver_maker) (max : nat) (find fi : bool) : result (rxn * list (path rxn)) :=
  bind (grand_enumeration C ent solve rank grand_diagram grand_interface pair_order arrange argsort shuffle gwait gas_of el mu entries m) (fun o =>
  match o with
  | None => Err AttributeError
  | Some s =>
      open_whole_flow C ent solve rank diagram phase_diagram interface pair_order arrange argsort shuffle wait owait mwait listed members cpus nwait xcost sp xeq lsq lrank req pinv waits1 waits2 uniq clean cost chunk iorder ichunk ijobs mchunk mjobs cutoff use_basic use_min gas_of grand
        ens entries [s] (network_at el mu nmk) (solver_at el mu smk) max find fi
  end).
End GrandWhole.
