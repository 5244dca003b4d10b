(* Model of NetworkMaker.make of jobs/core.py: reaction sets go in; the network, its
   reactions and the pathways come out. Put together from the models of ReactionSet,
   GibbsEntrySet and ReactionNetwork. Formulas are reduced already. *)
From Verif Require Import Prelude NumQ UtilsModel RxnSetModel NetModel YenModel FlowModel.
From Verif Require EntrySetModel.
Open Scope nat_scope.

(* reactions/computed.py:43-44 reactant_entries and product_entries *)
Definition reactant_entries (r : srxn) : list sentry := map fst (filter (fun ec => Qlt_bool (snd ec) 0) (combine (x_entries r) (x_coeffs r))).
Definition product_entries (r : srxn) : list sentry := map fst (filter (fun ec => Qlt_bool 0 (snd ec)) (combine (x_entries r) (x_coeffs r))).
(* The reactions as the model of the network sees them: n_id is the position. *)
Definition net_rxn (i : nat) (r : srxn) : nrxn :=
  {| n_id := i; n_reactants := map uid (reactant_entries r); n_products := map uid (product_entries r) |}.
Definition net_rxns (rs : list srxn) : list nrxn := map (fun ir => net_rxn (fst ir) (snd ir)) (enumerate rs).

Section Job.
Variable arrange : list sentry -> list sentry.            (* sorted(set(_), key=composition) *)
Variable argsort : list Q -> list nat.                    (* np.argsort *)
Variable shuffle : list nat -> list nat.                  (* order inside a group *)
Variable cpus : nat.                                      (* ray.cluster_resources()["CPU"] *)
Variable wait : nat -> list (nat * list (option (list nat)) * result (list nat)) ->
  list (nat * list (option (list nat)) * result (list nat)) * list (nat * list (option (list nat)) * result (list nat)). (* ray.wait *)
Variable formula : nat -> nat.                            (* reduced formula of an entry *)
Variable epa : nat -> Q.                                  (* energy_per_atom of an entry *)
Variable cost : srxn -> Q.                                (* self.cost_function *)
Variable sp : (payload -> Q) -> list (nat * nat * payload) -> nat -> nat -> option (list nat). (* rx.dijkstra_shortest_paths *)

(* network.py:326-344: the cost of an edge is that of its reaction *)
Definition cost_at (rs : list srxn) (n : nrxn) : Q := match nth_error rs (n_id n) with Some r => cost r | None => 0%Q end.
Definition weight_at (rs : list srxn) (p : payload) : Q := match p with Rxn n => cost_at rs n | _ => 0%Q end.

(* network.py:130-133 and 191-195: a formula stands for its ground state *)
Definition named (w : network) (f : nat) : result nat := EntrySetModel.get_min_entry formula epa (w_entries w) f.

(* jobs/core.py:519-567; network/base.py:39-49 for the entries of the network. The lists of
   precursors and targets and the number of pathways are false when None, empty or 0. All
   targets are looked up before the first search (network.py looks each up in its turn). *)
Definition network_job (mk : network_maker) (rxn_sets : list rset) : result (network * list srxn * option (list (list (payload * Q)))) :=
  bind (mapM get_rxns rxn_sets) (fun ls =>
  bind (from_rxns arrange (concat ls) [] (nm_open mk) (nm_chempot mk)) (fun all =>
  bind (filter_duplicates_parallel argsort shuffle cpus wait all []) (fun all =>
  bind (get_rxns all) (fun rs =>
  let w := net_build (new_network (map uid (r_entries all)) (net_rxns rs)) in
  bind (match nm_precursors mk with
        | Some (f :: fs) => bind (get_graph w) (fun _ => bind (mapM (named w) (f :: fs)) (set_precursors w))
        | _ => Ok w
        end) (fun w =>
  bind (match nm_targets mk with
        | Some (f :: _) => bind (get_graph w) (fun _ => bind (named w f) (set_target w))
        | _ => Ok w
        end) (fun w =>
  match nm_k mk, nm_targets mk with
  | Some (S k), Some (f :: fs) =>
      if truthy (w_precursors w)
      then bind (mapM (named w) (f :: fs)) (fun ts =>
           bind (find_pathways (cost_at rs) (sp (weight_at rs)) w ts (S k)) (fun wp => Ok (fst wp, rs, Some (snd wp))))
      else Err AttributeError
  | _, _ => Ok (w, rs, None)
  end)))))).
End Job.
