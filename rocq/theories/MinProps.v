(* C93: the minimising enumerators. *)
From Verif Require Import Prelude NumQ UtilsModel UtilsSpec ReactionModel RxnSetSpec RxnSetCheck EnumModel EnumSpec EnumCheck EntrySetModel EntrySetSpec MinModel MinSpec MinProofs MinCheck.
Open Scope nat_scope.

(* MinimizeGibbsEnumerator: whatever the order in which sets are iterated and jobs are
   completed, the list holds the sound and wanted reactions at the kinks of the
   interface of each combination of one or two entries, taken in the phase diagram of
   the chemical system of that combination and made of its lowest entries. *)
Theorem C93_gibbs : forall P elems formula epa (build : list nat -> result P) kinks balance order o entries pre tar wait,
  (forall l, Permutation (order l) l) -> (forall rs ps, rs <> [] -> ps <> [] -> exists x, balance rs ps = Ok x) ->
  NoDup entries -> (forall e, In e entries -> elems e <> []) -> o_changed o = true -> o_n o = 2 ->
  good_interfaces elems formula build kinks entries [] -> 1 <= o_chunk o -> 1 <= o_jobs o -> valid_schedule wait ->
  exists out, min_enumerate elems build (gibbs_react formula epa kinks balance order) o entries pre tar [] wait = Ok out
  /\ interface_reactions elems formula epa build kinks balance o entries pre tar [] out.
Proof. intros P elems formula epa build kinks balance order o entries pre tar wait Ho Hb. exact (gibbs_complete elems formula epa build kinks balance order Ho Hb o entries pre tar wait). Qed.
Print Assumptions C93_gibbs.

(* MinimizeGrandPotentialEnumerator, when all entries of the open element alone are open
   phases: the same. *)
Theorem C93_grand : forall P elems formula epa (build : list nat -> result P) kinks balance order open_elem o entries pre tar op wait,
  (forall l, Permutation (order l) l) -> (forall rs ps, rs <> [] -> ps <> [] -> exists x, balance rs ps = Ok x) ->
  NoDup entries -> (forall e, In e entries -> elems e <> []) -> o_changed o = true -> o_n o = 2 ->
  incl op entries -> (forall e, In e entries -> elems e = [open_elem] -> In e op) ->
  good_interfaces elems formula build kinks entries op -> 1 <= o_chunk o -> 1 <= o_jobs o -> valid_schedule wait ->
  exists out, min_enumerate elems build (grand_react elems formula epa kinks balance order open_elem) o entries pre tar op wait = Ok out
  /\ interface_reactions elems formula epa build kinks balance o entries pre tar op out.
Proof. intros P elems formula epa build kinks balance order open_elem o entries pre tar op wait Ho Hb. exact (grand_complete elems formula epa build kinks balance order Ho Hb open_elem o entries pre tar op wait). Qed.
Print Assumptions C93_grand.

(* An entry of the open element alone is no reactant of it: such a combination gives
   nothing, and does not stop the enumeration. *)
Theorem C93_open_element : forall P elems formula epa kinks (balance : list nat -> list nat -> result erxn) order open_elem reactants products entries (pd : P) e,
  (forall l, Permutation (order l) l) -> In e reactants -> elems e = [open_elem] ->
  grand_react elems formula epa kinks balance order open_elem reactants products (Some (entries, pd)) = Ok [].
Proof. exact @grand_open_element. Qed.
Print Assumptions C93_open_element.

(* One chemical system whose diagram cannot be built stops the whole enumeration. *)
Theorem C93_missing_diagram : forall P elems (build : list nat -> result P) react o entries pre tar op wait c k s e,
  (forall e, In e entries -> elems e <> []) -> o_n o = 2 ->
  combination entries op c -> searched elems o pre tar op c -> chemsys_of elems (flat_map elems op) c k -> within elems entries k s -> build s = Err e ->
  exists e', min_enumerate elems build react o entries pre tar op wait = Err e'.
Proof. exact @missing_diagram. Qed.
Print Assumptions C93_missing_diagram.

(* Li2O, Li, O2 and LiO: with the modelled ComputedReaction the hypotheses hold for O2
   open. The decomposition of LiO is found once for each of its three combinations, the
   oxidation of Li for the two without LiO. With the target Li alone nothing is left. *)
Example C93_demo :
  (forall rs ps, rs <> [] -> ps <> [] -> exists x, min_balance rs ps = Ok x)
  /\ NoDup min_entries_list /\ (forall e, In e min_entries_list -> min_elems e <> [])
  /\ (forall e, In e min_entries_list -> min_elems e = [1] -> In e [7])
  /\ good_interfaces min_elems (fun e => e) min_build min_kinks min_entries_list [7]
  /\ min_demo [] [7] true = Ok [oxide_rxn; lio_rxn; oxide_rxn; lio_rxn; lio_rxn]
  /\ min_demo [4] [7] true = Ok [].
Proof.
  split; [exact min_balance_ok|]. split; [exact min_nodup|]. split; [exact min_elems_nonempty|]. split; [exact min_open_phases|]. split; [exact min_good|].
  split; vm_compute; reflexivity.
Qed.

Example C93_demo_open_element : grand_react min_elems (fun e => e) (fun _ => 0%Q) min_kinks min_balance (fun l => l) 1 [4; 7] [] (Some (min_entries_list, tt)) = Ok []
  /\ min_elems 7 = [1].
Proof. split; reflexivity. Qed.

(* Without a lithium entry the Li-O system cannot be built. *)
Example C93_demo_missing : exists e, min_enumerate min_elems min_build (gibbs_react (fun e => e) (fun _ => 0%Q) min_kinks min_balance (fun l => l))
  demo_options [0; 7; 8] [] [] [] lifo_any = Err e.
Proof. eexists. vm_compute. reflexivity. Qed.
