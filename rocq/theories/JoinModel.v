(* Model of the first part of a flow: the enumerators run over a set of entries, the
   reactions are joined, and the network is built from them and searched
   (flows/core.py:140-168, jobs/core.py:217-240 and 519-567). Where EnumModel follows what
   _react reads off a reaction, the reactions themselves are kept here. *)
From Verif Require Import Prelude NumQ UtilsModel ReactionModel EnumModel EnumLinkModel RxnSetModel RunModel NetModel YenModel FlowModel NetJobModel.
Open Scope nat_scope.

(* enumerators/basic.py:540-607 _react and 121-270 enumerate(), as in EnumModel, with the
   objects: [see x] is what the filters read off x. *)
Section Objects.
Context {D X : Type}.
Variable see : X -> erxn.
Variable elems : nat -> list nat.
Variable iterable : list (list nat) -> list (list nat) -> list (list nat * list nat).
Variable iter_length : list (list nat) -> list (list nat) -> nat.
Variable react : list nat -> list nat -> D -> result (list X).
Variable diagram : list nat -> D.
Notation job := (list (list (list nat * list nat) * D)).

Definition keep_pair (o : options) (precursors targets open_entries : list nat) (t : D) (rp : list nat * list nat) : result (list X) :=
  if consider o precursors targets open_entries (fst rp) (snd rp)
  then bind (react (fst rp) (snd rp) t) (fun rs => Ok (filter (fun x => accept o precursors targets open_entries (see x)) rs))
  else Ok [].
Definition keep_chunk (o : options) (precursors targets open_entries : list nat) (chunk : job) : result (list X) :=
  bind (mapM (fun lt => bind (mapM (keep_pair o precursors targets open_entries (snd lt)) (fst lt)) (fun ls => Ok (concat ls))) chunk)
       (fun ls => Ok (concat ls)).
Definition keep_rxns (o : options) (entries precursors targets open_entries : list nat) (opens : list (list nat))
    (wait : nat -> list job -> list job * list job) : result (list X) :=
  let d := combos_dict elems o entries precursors targets open_entries in
  let total := fold_right (fun kv n => iter_length (snd kv) opens + n) 0 d in
  bind (build_jobs (o_chunk o) (o_jobs o) total (map (fun kv => (diagram (fst kv), iterable (snd kv) opens)) d)) (fun jobs =>
  bind (to_iterator wait (keep_chunk o precursors targets open_entries) jobs) (fun done =>
  bind (mapM (fun r => r) done) (fun ls => Ok (concat ls)))).
End Objects.

(* A ComputedReaction with data["num_constraints"]. *)
Record object := { ro_rxn : crxn; ro_constraints : nat }.

(* A BasicEnumerator (enumerators/basic.py:51-119): its options, precursors and targets as
   entries, and filter_duplicates; or a BasicOpenEnumerator (basic.py:424-535), which has
   open_phases, here the reduced formulas, as well. *)
Record enumerator := { en_options : options; en_precursors : list nat; en_targets : list nat; en_open : option (list nat); en_duplicates : bool }.

Section Join.
Variable C : chem.
Variable ent : nat -> entry.                                   (* the entry with this number *)
Variable solve : list nat -> list nat -> list nat -> list Q.   (* the pseudo-inverse solutions *)
Variable rank : list nat -> list nat -> nat.
Context {D : Type}.
Variable diagram : list nat -> D.
Variable arrange : list sentry -> list sentry.                 (* sorted(set(_), key=composition) *)
Variable argsort : list Q -> list nat.
Variable shuffle : list nat -> list nat.
Variable wait : nat -> list (list (list (list nat * list nat) * D)) -> list (list (list (list nat * list nat) * D)) * list (list (list (list nat * list nat) * D)).

Definition see_object (x : object) : erxn := seen_by_react C (ro_rxn x) (ro_constraints x).

(* enumerators/basic.py:316-320 _react_function; reactions/computed.py:49-79 balance and
   172-176 reverse, which passes the data on *)
Definition react_objects (r p : list nat) (t : D) : result (list object) :=
  bind (real_balance C ent solve rank r p) (fun x =>
  let nc := num_constraints (length r) (length p) (rank r p) in
  Ok [{| ro_rxn := x; ro_constraints := nc |}; {| ro_rxn := computed_reverse C x; ro_constraints := nc |}]).

(* What reactions/reaction_set.py:130-165 takes from an entry and from a reaction. *)
Definition set_entry (e : entry) : sentry := {| uid := e_id e; comp := e_comp e; form := red C (e_comp e) |}.
Definition set_rxn (x : object) : srxn :=
  {| x_entries := map set_entry (c_entries (ro_rxn x)); x_coeffs := coeffs (c_base (ro_rxn x)); x_data := ro_constraints x; x_mu := None |}.

(* enumerators/basic.py:361-363 open_entries: the entries with one of these formulas *)
Definition phases_open (entries phases : list nat) : list nat :=
  filter (fun i => existsb (Nat.eqb (red C (e_comp (ent i)))) phases) entries.
(* enumerators/basic.py:121-270 enumerate() of a BasicEnumerator, and of a
   BasicOpenEnumerator, which has its own _get_open_combos, _get_rxn_iterable and
   _rxn_iter_length (basic.py:513-535) *)
Definition enumerated (entries : list nat) (en : enumerator) : result (list object) :=
  match en_open en with
  | None => keep_rxns see_object (fun i => ReactionModel.elems C (e_comp (ent i))) basic_iterable basic_iter_length react_objects diagram
      (en_options en) entries (en_precursors en) (en_targets en) [] [] wait
  | Some phases => let op := phases_open entries phases in
      keep_rxns see_object (fun i => ReactionModel.elems C (e_comp (ent i))) open_iterable open_iter_length react_objects diagram
      (en_options en) entries (en_precursors en) (en_targets en) op (open_combos op) wait
  end.
(* basic.py:270: the set of the reactions found, without duplicates if that is asked for *)
Definition set_of_objects (entries : list nat) (duplicates : bool) (found : result (list object)) : result rset :=
  bind found (fun xs =>
  bind (from_rxns arrange (map set_rxn xs) (map (fun i => set_entry (ent i)) entries) None 0%Q) (fun s =>
  if duplicates then filter_duplicates argsort shuffle s [] else Ok s)).
Definition enumerate_set (entries : list nat) (en : enumerator) : result rset :=
  set_of_objects entries (en_duplicates en) (enumerated entries en).

(* jobs/core.py:217-240 ReactionEnumerationMaker.make: the reactions *)
Definition enumeration_job (ens : list enumerator) (entries : list nat) : result (option rset) :=
  run_enumerators argsort shuffle (map (enumerate_set entries) ens).

(* flows/core.py:162-168: the network job is given the one set. Without enumerators the set
   is None, which has no get_rxns. *)
Variable cpus : nat.
Variable nwait : nat -> list (nat * list (option (list nat)) * result (list nat)) ->
  list (nat * list (option (list nat)) * result (list nat)) * list (nat * list (option (list nat)) * result (list nat)).
Variable epa : nat -> Q.
Variable cost : srxn -> Q.
Variable sp : (payload -> Q) -> list (nat * nat * payload) -> nat -> nat -> option (list nat).
Definition search_set (mk : network_maker) (o : option rset) : result (network * list srxn * option (list (list (payload * Q)))) :=
  match o with
  | None => Err AttributeError
  | Some s => network_job arrange argsort shuffle cpus nwait (fun i => red C (e_comp (ent i))) epa cost sp mk [s]
  end.
Definition enumerate_and_search (ens : list enumerator) (entries : list nat) (mk : network_maker)
  : result (network * list srxn * option (list (list (payload * Q)))) :=
  bind (enumeration_job ens entries) (search_set mk).
End Join.
