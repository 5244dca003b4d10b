(* Model of the two jobs of a flow that follow each other: the job that builds a network and
   finds pathways, and the job that balances them (flows/core.py:138-155 and 164-215,
   jobs/core.py:519-567 and 635-675). The outputs are passed on as they are; that storing
   them between the jobs changes nothing is the subject of C114, C116, C117 and C128. An entry is
   known by its unique id. *)
From Verif Require Import Prelude NumQ UtilsModel ReactionModel RxnSetModel PathModel SolverModel NetModel YenModel FlowModel NetJobModel SolveJobModel.
Open Scope nat_scope.

Section Chain.
Variable C : chem.
Variable comp_of : nat -> nat.                            (* the composition of an entry *)
Variable energy_of : nat -> Q.                            (* the energy of an entry *)
Variable listed : list nat -> list nat.                   (* entries_list, entries/entry_set.py:557-560 *)
Variable members : list nat -> list nat.                  (* the order in which the set is iterated *)

(* e.composition.reduced_formula, e.energy_per_atom *)
Definition formula_of (u : nat) : nat := red C (comp_of u).
Definition epa_of (u : nat) : Q := (energy_of u / natoms C (comp_of u))%Q.

(* entries/entry_set.py:197-209 build_indices, called in network/base.py:39-41: the number
   of an entry is its position in the list. An id that is not in the list gets the length. *)
Fixpoint position (u : nat) (l : list nat) : nat := match l with [] => 0 | v :: l' => if Nat.eqb v u then 0 else S (position u l') end.
Definition entry_of (us : list nat) (u : nat) : entry := {| e_id := position u (listed us); e_comp := comp_of u; e_energy := energy_of u |}.
Definition numbered (us : list nat) : list entry := map (entry_of us) (listed us).

(* reactions/reaction_set.py:583-596: the reaction object *)
Definition rxn_of (us : list nat) (x : srxn) : rxn :=
  let c := computed_init C (map (fun e => entry_of us (uid e)) (x_entries x)) (x_coeffs x) None in
  match x_mu x with None => RComputed c | Some mu => ROpen {| o_base := c; chempots := mu |} end.

(* network.py:242-261: the pathway through the reactions of the edges *)
Definition basic_path (rs : list srxn) (p : list (payload * Q)) : result (path srxn) :=
  bind (mapM (fun pc => match fst pc with Rxn n => index rs (n_id n) | _ => Err AttributeError end) p) (fun xs =>
  Ok {| p_rxns := xs; p_costs := map snd p; p_coeffs := None; p_balanced := false |}).
Definition path_of (us : list nat) (p : path srxn) : path rxn :=
  {| p_rxns := map (rxn_of us) (p_rxns p); p_costs := p_costs p; p_coeffs := p_coeffs p; p_balanced := p_balanced p |}.

(* As in NetJobModel *)
Variable arrange : list sentry -> list sentry.
Variable argsort : list Q -> list nat.
Variable shuffle : list nat -> list nat.
Variable cpus : nat.
Variable wait : nat -> list (nat * list (option (list nat)) * result (list nat)) ->
  list (nat * list (option (list nat)) * result (list nat)) * list (nat * list (option (list nat)) * result (list nat)).
Variable xcost : srxn -> Q.
Variable sp : (payload -> Q) -> list (nat * nat * payload) -> nat -> nat -> option (list nat).
Variable xeq : srxn -> srxn -> bool.                      (* ==, assumed not to raise *)
(* As in SolveJobModel *)
Variable lsq : list nat -> list nat -> list nat -> list Q.
Variable rank : list nat -> list nat -> nat.
Variable req : rxn -> rxn -> bool.
Variable pinv : matrix -> list Q -> list Q.
Variable waits1 waits2 : nat -> nat -> list nat -> list nat * list nat.
Variable uniq : list (path rxn) -> list (path rxn).
Variable clean : list rxn -> list rxn.
Variable cost : rxn -> Q.
Variable inter : list entry -> list rxn -> rxn -> result (list rxn).
Variable chunk : nat.

(* The pathways found and the entries of the network are given to the solver. Without
   pathways the solver is given None, which has no paths. *)
Definition both_jobs (nmk : network_maker) (smk : solver_maker) (max : nat) (find fi : bool) (rxn_sets : list rset) : result (rxn * list (path rxn)) :=
  bind (network_job arrange argsort shuffle cpus wait formula_of epa_of xcost sp nmk rxn_sets) (fun out =>
  let '(w, rs, found) := out in
  match found with
  | None => Err AttributeError
  | Some pathways =>
      bind (mapM (basic_path rs) pathways) (fun ps =>
      bind (from_paths xeq arrange ps) (fun set =>
      bind (get_paths set) (fun ps =>
      let us := w_entries w in
      solve_job C lsq rank (numbered us) (members us) req pinv waits1 waits2 uniq clean cost inter chunk cpus smk max find fi (map (path_of us) ps))))
  end).
End Chain.
