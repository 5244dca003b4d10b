(* Model of a flow from entries to balanced pathways: the enumerators run, the network is
   built and searched, and the pathways are balanced (flows/core.py:140-178). Put together from
   JoinModel and ChainModel; an entry is known by its number, which is its unique id. *)
From Verif Require Import Prelude NumQ UtilsModel ReactionModel RxnSetModel PathModel SolverModel NetModel YenModel FlowModel NetJobModel SolveJobModel ChainModel RunModel JoinModel.
Open Scope nat_scope.

Section Whole.
Variable C : chem.
Variable ent : nat -> entry.
(* As in JoinModel *)
Variable solve : list nat -> list nat -> list nat -> list Q.
Variable rank : list nat -> list nat -> nat.
Context {D : Type}.
Variable diagram : list nat -> D.
Variable arrange : list sentry -> list sentry.
Variable argsort : list Q -> list nat.
Variable shuffle : list nat -> list nat.
Variable wait : nat -> list (list (list (list nat * list nat) * D)) -> list (list (list (list nat * list nat) * D)) * list (list (list (list nat * list nat) * D)).
(* As in ChainModel *)
Variable listed members : list nat -> list nat.
Variable cpus : nat.
Variable nwait : nat -> list (nat * list (option (list nat)) * result (list nat)) ->
  list (nat * list (option (list nat)) * result (list nat)) * list (nat * list (option (list nat)) * result (list nat)).
Variable xcost : srxn -> Q.
Variable sp : (payload -> Q) -> list (nat * nat * payload) -> nat -> nat -> option (list nat).
Variable xeq : srxn -> srxn -> bool.
Variable lsq : list nat -> list nat -> list nat -> list Q.
Variable lrank : list nat -> list nat -> nat.
Variable req : rxn -> rxn -> bool.
Variable pinv : matrix -> list Q -> list Q.
Variable waits1 waits2 : nat -> nat -> list nat -> list nat * list nat.
Variable uniq : list (path rxn) -> list (path rxn).
Variable clean : list rxn -> list rxn.
Variable cost : rxn -> Q.
Variable inter : list entry -> list rxn -> rxn -> result (list rxn).
Variable chunk : nat.

(* flows/core.py:162-178: the reactions go to the network job, its pathways and entries to
   the solver. Without enumerators the set is None, which has no get_rxns. *)
Definition whole_flow (ens : list enumerator) (entries : list nat) (nmk : network_maker) (smk : solver_maker) (max : nat) (find fi : bool) : result (rxn * list (path rxn)) :=
  bind (enumeration_job C ent solve rank diagram arrange argsort shuffle wait ens entries) (fun o =>
  match o with
  | None => Err AttributeError
  | Some s =>
      both_jobs C (fun i => e_comp (ent i)) (fun i => e_energy (ent i)) listed members arrange argsort shuffle cpus nwait xcost sp xeq lsq lrank req pinv waits1 waits2 uniq clean cost inter chunk nmk smk max find fi [s]
  end).
End Whole.
