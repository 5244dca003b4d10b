(* Model of the first part of a flow with a MinimizeGibbsEnumerator among its enumerators
   (jobs/core.py:217-240, enumerators/minimize.py:25-125). *)
From Verif Require Import Prelude NumQ UtilsModel ReactionModel EnumModel EnumLinkModel RxnSetModel RunModel NetModel YenModel FlowModel NetJobModel EntrySetModel MinModel JoinModel.
Open Scope nat_scope.

(* enumerators/minimize.py:31-93: what a MinimizeGibbsEnumerator is made with; there is no n,
   which is 2 (basic.py:50). *)
Record minimizer := { mi_options : options; mi_precursors : list nat; mi_targets : list nat; mi_duplicates : bool }.
(* One of the enumerators of jobs/core.py:217. *)
Inductive any_enumerator := Basic (en : enumerator) | Minimize (m : minimizer).
Definition any_duplicates (a : any_enumerator) : bool := match a with Basic en => en_duplicates en | Minimize m => mi_duplicates m end.

Section MinJoin.
Variable C : chem.
Variable ent : nat -> entry.
Variable solve : list nat -> list nat -> list nat -> list Q.
Variable rank : list nat -> list nat -> nat.
Context {D P : Type}.
Variable diagram : list nat -> D.
Variable build : list nat -> result P.
Variable kinks : P -> nat -> nat -> result (list (list nat * list nat)).
Variable order : list nat -> list nat.
Variable epa : nat -> Q.
Variable arrange : list sentry -> list sentry.
Variable argsort : list Q -> list nat.
Variable shuffle : list nat -> list nat.
Variable wait : nat -> list (list (list (list nat * list nat) * D)) -> list (list (list (list nat * list nat) * D)) * list (list (list (list nat * list nat) * D)).
Variable mwait : nat -> list (list (list (list nat * list nat) * option (list nat * P))) ->
  list (list (list (list nat * list nat) * option (list nat * P))) * list (list (list (list nat * list nat) * option (list nat * P))).
Notation elems := (fun i => ReactionModel.elems C (e_comp (ent i))).
Notation formula := (fun i => red C (e_comp (ent i))).

(* enumerators/utils.py:50-57 with reactions/computed.py:49-79 balance *)
Definition balance_object (r p : list nat) : result object :=
  bind (real_balance C ent solve rank r p) (fun x =>
  Ok {| ro_rxn := x; ro_constraints := num_constraints (length r) (length p) (rank r p) |}).
(* basic.py:121-270 enumerate() of a MinimizeGibbsEnumerator: as [min_enumerate], with the
   reactions kept *)
Definition gibbs_enumerated (entries : list nat) (m : minimizer) : result (list object) :=
  let keys := map fst (combos_dict elems (mi_options m) entries (mi_precursors m) (mi_targets m) []) in
  bind (mapM (system_diagram elems build entries) keys) (fun ds =>
  keep_rxns (see_object C) elems minimize_iterable minimize_iter_length (gibbs_react formula epa kinks balance_object order)
    (fun k => lookup list_eqb k (combine keys ds)) (mi_options m) entries (mi_precursors m) (mi_targets m) [] [] mwait).
Definition any_enumerated (entries : list nat) (a : any_enumerator) : result (list object) :=
  match a with
  | Basic en => enumerated C ent solve rank diagram wait entries en
  | Minimize m => gibbs_enumerated entries m
  end.
(* jobs/core.py:217-240 *)
Definition any_enumeration (ens : list any_enumerator) (entries : list nat) : result (option rset) :=
  run_enumerators argsort shuffle (map (fun a => set_of_objects C ent arrange argsort shuffle entries (any_duplicates a) (any_enumerated entries a)) ens).

(* flows/core.py:162-168 *)
Variable cpus : nat.
Variable nwait : nat -> list (nat * list (option (list nat)) * result (list nat)) ->
  list (nat * list (option (list nat)) * result (list nat)) * list (nat * list (option (list nat)) * result (list nat)).
Variable cost : srxn -> Q.
Variable sp : (payload -> Q) -> list (nat * nat * payload) -> nat -> nat -> option (list nat).
Definition any_flow (ens : list any_enumerator) (entries : list nat) (mk : network_maker)
  : result (network * list srxn * option (list (list (payload * Q)))) :=
  bind (any_enumeration ens entries) (search_set C ent arrange argsort shuffle cpus nwait epa cost sp mk).
End MinJoin.
