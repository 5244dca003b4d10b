(* Model of a flow from entries to balanced pathways with every enumerator for closed systems: the
   enumerators of the flow may minimise, and the solver looks for reactions between intermediates with
   both of its options (flows/core.py:140-178). Put together from MinJoinModel, ChainModel and IntMinModel. *)
From Verif Require Import Prelude NumQ UtilsModel ReactionModel RxnSetModel PathModel SolverModel NetModel YenModel FlowModel NetJobModel SolveJobModel ChainModel RunModel MinModel JoinModel MinJoinModel IntModel IntMinModel.
Open Scope nat_scope.

Section AnyWhole.
Variable C : chem.
Variable ent : nat -> entry.
(* As in JoinModel *)
Variable solve : list nat -> list nat -> list nat -> list Q.
Variable rank : list nat -> list nat -> nat.
Context {D P : Type}.
Variable diagram : list nat -> D.
(* pymatgen: PhaseDiagram of entries (enumerators/basic.py:611-634), of which the composition and the
   energy count, and InterfacialReactivity(...).get_kinks() of two compositions
   (enumerators/minimize.py:102-112, enumerators/utils.py:79-88); the kinks name reduced formulas. *)
Variable phase_diagram : list (nat * Q) -> result P.
Variable interface : P -> nat -> nat -> result (list (list nat * list nat)).
Variable pair_order : list nat -> list nat.
Variable arrange : list sentry -> list sentry.
Variable argsort : list Q -> list nat.
Variable shuffle : list nat -> list nat.
Variable wait : nat -> list (list (list (list nat * list nat) * D)) -> list (list (list (list nat * list nat) * D)) * list (list (list (list nat * list nat) * D)).
Variable mwait : nat -> list (list (list (list nat * list nat) * option (list nat * P))) ->
  list (list (list (list nat * list nat) * option (list nat * P))) * list (list (list (list nat * list nat) * option (list nat * P))).
(* As in ChainModel *)
Variable listed members : list nat -> list nat.
Variable cpus : nat.
Variable nwait : nat -> list (nat * list (option (list nat)) * result (list nat)) ->
  list (nat * list (option (list nat)) * result (list nat)) * list (nat * list (option (list nat)) * result (list nat)).
Variable xcost : srxn -> Q.
Variable sp : (payload -> Q) -> list (nat * nat * payload) -> nat -> nat -> option (list nat).
Variable xeq : srxn -> srxn -> bool.
Variable lsq : list nat -> list nat -> list nat -> list Q.
Variable lrank : list nat -> list nat -> nat.
Variable req : rxn -> rxn -> bool.
Variable pinv : matrix -> list Q -> list Q.
Variable waits1 waits2 : nat -> nat -> list nat -> list nat * list nat.
Variable uniq : list (path rxn) -> list (path rxn).
Variable clean : list rxn -> list rxn.
Variable cost : rxn -> Q.
Variable chunk : nat.
(* As in IntMinModel *)
Variable order : list nat -> list nat.
Variable ichunk ijobs mchunk mjobs : nat.
Variable cutoff : Q.
Variables use_basic use_min : bool.

(* enumerators/basic.py:611-634 and enumerators/minimize.py:102-112, for the entries known by their numbers *)
Definition diagram_of (of : nat -> entry) (s : list nat) : result P := phase_diagram (map (fun i => (e_comp (of i), e_energy (of i))) s).
Definition kinks_of (of : nat -> entry) (pd : P) (a b : nat) : result (list (list nat * list nat)) := interface pd (e_comp (of a)) (e_comp (of b)).

(* pathways/solver.py:342-403 *)
Definition find_between (ents : list entry) (rxns : list rxn) (net : rxn) : result (list rxn) :=
  find_with_options C lsq lrank diagram (diagram_of (with_index ents)) (kinks_of (with_index ents)) pair_order arrange argsort shuffle wait mwait order ichunk ijobs mchunk mjobs cutoff use_basic use_min ents rxns net.

(* flows/core.py:162-178, as [whole_flow] *)
Definition any_whole_flow (ens : list any_enumerator) (entries : list nat) (nmk : network_maker) (smk : solver_maker) (max : nat) (find fi : bool) : result (rxn * list (path rxn)) :=
  bind (any_enumeration C ent solve rank diagram (diagram_of ent) (kinks_of ent) pair_order (fun i => e_energy (ent i) / natoms C (e_comp (ent i)))%Q arrange argsort shuffle wait mwait ens entries) (fun o =>
  match o with
  | None => Err AttributeError
  | Some s =>
      both_jobs C (fun i => e_comp (ent i)) (fun i => e_energy (ent i)) listed members arrange argsort shuffle cpus nwait xcost sp xeq lsq lrank req pinv waits1 waits2 uniq clean cost find_between chunk nmk smk max find fi [s]
  end).
End AnyWhole.
