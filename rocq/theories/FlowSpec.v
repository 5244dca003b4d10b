(* What is asked of the flow that finds pathways. *)
From Coq Require Import QArith List Bool.
Import ListNotations.
From Verif Require Import FlowModel.
Open Scope nat_scope.
Open Scope list_scope.

(* The outputs a job of each kind has, and the arguments of a job. *)
Definition has_output (j : job) (o : output) : Prop :=
  match j, o with
  | GetEntries _ _, Entries | Enumerate _ _, Rxns | BuildNetwork _ _, Paths | BuildNetwork _ _, NetworkEntries => True
  | _, _ => False
  end.
Definition arguments (j : job) : list source :=
  match j with GetEntries _ _ => [] | Enumerate _ s => [s] | BuildNetwork _ ss => ss | Solve _ p s => [p; s] end.

(* Every argument is given by the user or is an output of an earlier job. *)
Definition wired (given : bool) (jobs : list job) : Prop :=
  forall i j s, nth_error jobs i = Some j -> In s (arguments j) ->
  match s with
  | Given => given = true
  | Out n o => n < i /\ exists j', nth_error jobs n = Some j' /\ has_output j' o
  end.

(* The networks of a flow: how each is built, and the enumerators whose reactions it has. *)
Definition enumerated (jobs : list job) (s : source) : option (list enumerator) :=
  match s with Out n Rxns => match nth_error jobs n with Some (Enumerate es _) => Some es | _ => None end | _ => None end.
Definition networks (jobs : list job) : list (network_maker * list (option (list enumerator))) :=
  flat_map (fun j => match j with BuildNetwork mk ss => [(mk, map (enumerated jobs) ss)] | _ => [] end) jobs.

(* The solvers of a flow, with the networks their pathways and their entries are from. *)
Definition from_network (jobs : list job) (o : output) (s : source) : option network_maker :=
  match s with Out n o' => match nth_error jobs n with Some (BuildNetwork mk _) => match o, o' with Paths, Paths | NetworkEntries, NetworkEntries => Some mk | _, _ => None end | _ => None end | _ => None end.
Definition solvers (jobs : list job) : list (solver_maker * option network_maker * option network_maker) :=
  flat_map (fun j => match j with Solve sm p s => [(sm, from_network jobs Paths p, from_network jobs NetworkEntries s)] | _ => [] end) jobs.

(* The chemical potentials at which the flow is to look. *)
Definition potentials (m : flow_maker) : list (nat * Q) :=
  match fm_open m, fm_chempots m with Some e, Some mus => map (fun mu => (e, mu)) mus | _, _ => [] end.

(* The same settings at a chemical potential. *)
Definition network_under (mk mk' : network_maker) (p : nat * Q) : Prop :=
  nm_precursors mk' = nm_precursors mk /\ nm_targets mk' = nm_targets mk /\ nm_k mk' = nm_k mk /\ nm_open mk' = Some (fst p) /\ nm_chempot mk' = snd p.
Definition solver_under (sm sm' : solver_maker) (p : nat * Q) : Prop :=
  sm_precursors sm' = sm_precursors sm /\ sm_targets sm' = sm_targets sm /\ sm_open sm' = Some (fst p) /\ sm_chempot sm' = snd p.

(* The entries the enumerations use. *)
Definition entry_sources (jobs : list job) : list source := flat_map (fun j => match j with Enumerate _ s => [s] | _ => [] end) jobs.

(* What a flow asks its networks to look for. *)
Definition sought (jobs : list job) : list (option (list nat) * option (list nat)) :=
  flat_map (fun j => match j with BuildNetwork mk _ => [(nm_precursors mk, nm_targets mk)] | _ => [] end) jobs.
