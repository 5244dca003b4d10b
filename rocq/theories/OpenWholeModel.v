(* Model of a flow from entries to balanced pathways for an open element and its chemical potential
   (flows/core.py:177-216): the base enumeration, to whose reactions those of a further enumeration (with the
   MinimizeGrandPotentialEnumerator) are added, the network job with both sets and the solver job, which
   looks for reactions between intermediates with the open element. Put together from MinJoinModel,
   ChainModel and IntOpenModel. *)
From Verif Require Import Prelude NumQ UtilsModel ReactionModel RxnSetModel PathModel SolverModel NetModel YenModel FlowModel NetJobModel SolveJobModel ChainModel RunModel MinModel JoinModel MinJoinModel IntModel IntMinModel AnyWholeModel IntOpenModel.
Open Scope nat_scope.

Section OpenWhole.
Variable C : chem.
Variable ent : nat -> entry.
(* As in AnyWholeModel *)
Variable solve : list nat -> list nat -> list nat -> list Q.
Variable rank : list nat -> list nat -> nat.
Context {D P : Type}.
Variable diagram : list nat -> D.
Variable phase_diagram : list (nat * Q) -> result P.
Variable interface : P -> nat -> nat -> result (list (list nat * list nat)).
Variable pair_order : list nat -> list nat.
Variable arrange : list sentry -> list sentry.
Variable argsort : list Q -> list nat.
Variable shuffle : list nat -> list nat.
Variable wait owait : nat -> list (list (list (list nat * list nat) * D)) -> list (list (list (list nat * list nat) * D)) * list (list (list (list nat * list nat) * D)).
Variable mwait : nat -> list (list (list (list nat * list nat) * option (list nat * P))) ->
  list (list (list (list nat * list nat) * option (list nat * P))) * list (list (list (list nat * list nat) * option (list nat * P))).
Variable listed members : list nat -> list nat.
Variable cpus : nat.
Variable nwait : nat -> list (nat * list (option (list nat)) * result (list nat)) ->
  list (nat * list (option (list nat)) * result (list nat)) * list (nat * list (option (list nat)) * result (list nat)).
Variable xcost : srxn -> Q.
Variable sp : (payload -> Q) -> list (nat * nat * payload) -> nat -> nat -> option (list nat).
Variable xeq : srxn -> srxn -> bool.
Variable lsq : list nat -> list nat -> list nat -> list Q.
Variable lrank : list nat -> list nat -> nat.
Variable req : rxn -> rxn -> bool.
Variable pinv : matrix -> list Q -> list Q.
Variable waits1 waits2 : nat -> nat -> list nat -> list nat * list nat.
Variable uniq : list (path rxn) -> list (path rxn).
Variable clean : list rxn -> list rxn.
Variable cost : rxn -> Q.
Variable chunk : nat.
Variable order : list nat -> list nat.
Variable ichunk ijobs mchunk mjobs : nat.
Variable cutoff : Q.
Variables use_basic use_min : bool.
(* Composition(str(open_elem)).reduced_formula, and what the MinimizeGrandPotentialEnumerator of
   solver.py:389-394 gives for the element, the potential, the entries, the intermediates and the targets *)
Variable gas_of : nat -> nat.
Variable grand : nat -> Q -> list entry -> list nat -> list nat -> result rset.

(* pathways/solver.py:342-403 *)
Definition search_between (smk : solver_maker) (ents : list entry) (rxns : list rxn) (net : rxn) : result (list rxn) :=
  match sm_open smk with
  | None => find_between C diagram phase_diagram interface pair_order arrange argsort shuffle wait mwait lsq lrank order ichunk ijobs mchunk mjobs cutoff use_basic use_min ents rxns net
  | Some el => find_open C lsq lrank diagram (diagram_of phase_diagram (with_index ents)) (kinks_of interface (with_index ents)) pair_order arrange argsort shuffle wait owait mwait order ichunk ijobs mchunk mjobs
      (grand el (sm_chempot smk) ents) el (sm_chempot smk) (gas_of el) cutoff use_basic use_min ents rxns net
  end.

(* flows/core.py:162-216; further is the list of the sets that come after the base set in
   line 208: one, or none in line 167. *)
Definition open_whole_flow (ens : list any_enumerator) (entries : list nat) (further : list rset) (nmk : network_maker) (smk : solver_maker) (max : nat) (find fi : bool) : result (rxn * list (path rxn)) :=
  bind (any_enumeration C ent solve rank diagram (diagram_of phase_diagram ent) (kinks_of interface ent) pair_order (fun i => e_energy (ent i) / natoms C (e_comp (ent i)))%Q arrange argsort shuffle wait mwait ens entries) (fun o =>
  match o with
  | None => Err AttributeError
  | Some s =>
      both_jobs C (fun i => e_comp (ent i)) (fun i => e_energy (ent i)) listed members arrange argsort shuffle cpus nwait xcost sp xeq lsq lrank req pinv waits1 waits2 uniq clean cost (search_between smk) chunk nmk smk max find fi (s :: further)
  end).
End OpenWhole.
