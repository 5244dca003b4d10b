(* C93: the minimising enumerators with any setting of the flags. *)
From Verif Require Import Prelude NumQ UtilsModel UtilsSpec ReactionModel RxnSetSpec RxnSetCheck EnumModel EnumSpec EnumCheck EntrySetModel EntrySetSpec MinModel MinSpec MinProofs MinCheck
  EnumAnySpec EnumAnyCheck MinAnySpec MinAnyProofs MinAnyCheck.
Open Scope nat_scope.

(* As C93_gibbs and C93_grand: a reaction in which phases change their side is dropped
   if remove_changed asks for it, and kept otherwise. *)
Theorem C93_gibbs_any_flags : forall P elems formula epa (build : list nat -> result P) kinks balance order,
  (forall l, Permutation (order l) l) -> (forall rs ps, rs <> [] -> ps <> [] -> exists x, balance rs ps = Ok x) ->
  forall o entries pre tar wait, NoDup entries -> (forall e, In e entries -> elems e <> []) -> o_n o = 2 ->
  good_interfaces elems formula build kinks entries [] -> 1 <= o_chunk o -> 1 <= o_jobs o -> valid_schedule wait ->
  exists out, min_enumerate elems build (gibbs_react formula epa kinks balance order) o entries pre tar [] wait = Ok out
  /\ interface_kept elems formula epa build kinks balance o entries pre tar [] out.
Proof. exact @gibbs_any. Qed.
Print Assumptions C93_gibbs_any_flags.

Theorem C93_grand_any_flags : forall P elems formula epa (build : list nat -> result P) kinks balance order,
  (forall l, Permutation (order l) l) -> (forall rs ps, rs <> [] -> ps <> [] -> exists x, balance rs ps = Ok x) ->
  forall open_elem o entries pre tar op wait, NoDup entries -> (forall e, In e entries -> elems e <> []) -> o_n o = 2 ->
  incl op entries -> (forall e, In e entries -> elems e = [open_elem] -> In e op) ->
  good_interfaces elems formula build kinks entries op -> 1 <= o_chunk o -> 1 <= o_jobs o -> valid_schedule wait ->
  exists out, min_enumerate elems build (grand_react elems formula epa kinks balance order open_elem) o entries pre tar op wait = Ok out
  /\ interface_kept elems formula epa build kinks balance o entries pre tar op out.
Proof. exact @grand_any. Qed.
Print Assumptions C93_grand_any_flags.

(* The oxide balanced the wrong way round is returned only without the flag. *)
Example C93_any_flags_demo :
  (forall rs ps, rs <> [] -> ps <> [] -> exists x, turned_balance rs ps = Ok x)
  /\ NoDup min_entries_list /\ (forall e, In e min_entries_list -> min_elems e <> [])
  /\ (forall e, In e min_entries_list -> min_elems e = [1] -> In e [7])
  /\ good_interfaces min_elems (fun e => e) min_build min_kinks min_entries_list [7]
  /\ turned_demo true [4] = Ok []
  /\ exists a, turned_demo false [4] = Ok [a; a] /\ er_reactants a = [0] /\ er_products a = [4; 7] /\ er_errors a = Some 3.
Proof.
  split; [intros; apply balance_seen_ok; assumption|]. split; [exact min_nodup|]. split; [exact min_elems_nonempty|]. split; [exact min_open_phases|]. split; [exact min_good|].
  split; [vm_compute; reflexivity|]. eexists. split; [vm_compute; reflexivity|]. repeat split.
Qed.
