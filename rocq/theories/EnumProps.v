(* C30-C33, C66, C70: theorems about the enumerators and the expanded phase diagrams. *)
From Verif Require Import Prelude NumQ UtilsModel UtilsSpec ReactionModel ReactionSpec RxnSetModel RxnSetSpec RxnSetCheck EnumModel EnumSpec EnumProofs EnumReactProofs EnumLinkModel EnumRealProofs
  RunModel RunProofs ReactionCheck EnumCheck.
Open Scope nat_scope.

(* --- C30 --- *)
(* Full claim: at most mj jobs in every case (refuted below). *)
Theorem C30_jobs_partial : forall {T R} cs mj (items : list (T * list R)), 1 <= cs -> 1 <= mj ->
  exists jobs size, build_jobs cs mj (length (tagged items)) items = Ok jobs
  /\ concat (map contents jobs) = tagged items /\ cs <= size
  /\ Forall (fun j => length (contents j) = size) (removelast jobs) /\ Forall (fun j => length (contents j) <= size) jobs
  /\ length jobs <= mj + 1
  /\ (length (tagged items) <> mj * cs \/ Forall (fun i => snd i <> []) items -> length jobs <= mj).
Proof. exact @jobs_spec. Qed.
Print Assumptions C30_jobs_partial.

Theorem C30_diagrams : forall {K D} (key_eqb : K -> K -> bool) (diagram : K -> D) cpus wait keys,
  (forall a b, key_eqb a b = true <-> a = b) -> 1 <= cpus -> valid_schedule wait ->
  exists d, build_pd_dict diagram cpus wait keys = Ok d /\ length d = length keys
  /\ forall k, In k keys -> lookup key_eqb k d = Some (diagram k).
Proof. exact @pd_dict_spec. Qed.
Print Assumptions C30_diagrams.

Theorem C30_job_limit_refuted : exists (items : list (nat * list (list nat * list nat))) jobs,
  items = map (fun kv => (fst kv, basic_iterable (snd kv) [])) small_dict
  /\ build_jobs 1 1 (length (tagged items)) items = Ok jobs /\ length jobs = 2.
Proof. exact job_limit_witness. Qed.
Print Assumptions C30_job_limit_refuted.

Example C30_demo : exists jobs, build_jobs 2 100 (length (tagged [(7, [1; 2; 3]); (8, [4; 5])])) [(7, [1; 2; 3]); (8, [4; 5])] = Ok jobs
  /\ map contents jobs = [[(7, 1); (7, 2)]; [(7, 3); (8, 4)]; [(8, 5)]].
Proof. eexists. split; [vm_compute; reflexivity|reflexivity]. Qed.
Example C30_demo_diagrams : exists d, build_pd_dict S 2 lifo_any [4; 5; 6] = Ok d /\ length d = 3 /\ lookup Nat.eqb 5 d = Some 6.
Proof. eexists. split; [vm_compute; reflexivity|split; reflexivity]. Qed.

(* --- C31 --- *)
Theorem C31_complete : forall {D} C ent solve rank (diagram : list nat -> D) o entries pre tar wait, wf_chem C ->
  (forall c e, In e (ReactionModel.elems C c) -> (1#100 < amt C (red C c) e)%Q) -> (forall i, e_id (ent i) = i) ->
  (forall r p c, length (solve r p c) = length r + length p) ->
  NoDup entries -> (forall e, In e entries -> ReactionModel.elems C (e_comp (ent e)) <> []) -> o_changed o = true ->
  1 <= o_chunk o -> 1 <= o_jobs o -> valid_schedule wait ->
  exists out, enumerate_rxns (fun i => ReactionModel.elems C (e_comp (ent i))) basic_iterable basic_iter_length
                (basic_react (forward_rxn C ent solve rank) (backward_rxn C ent solve rank)) diagram o entries pre tar [] [] wait = Ok out
  /\ all_reactions o pre tar [] (forward_rxn C ent solve rank) (backward_rxn C ent solve rank)
       (fun r p => basic_pair entries (o_n o) r p /\ disjoint r p
                   /\ system_ok (fun i => ReactionModel.elems C (e_comp (ent i))) o [] r) out.
Proof. exact @basic_real_complete. Qed.
Print Assumptions C31_complete.

(* The same with any balancing method. *)
Theorem C31_complete_any_balance : forall {D} elems o entries pre tar balance backward (diagram : list nat -> D) wait,
  NoDup entries -> (forall e, In e entries -> elems e <> []) -> good_balance elems balance backward -> o_changed o = true ->
  1 <= o_chunk o -> 1 <= o_jobs o -> valid_schedule wait ->
  exists out, enumerate_rxns elems basic_iterable basic_iter_length (basic_react balance backward) diagram o
                entries pre tar [] [] wait = Ok out
  /\ all_reactions o pre tar [] balance backward
       (fun r p => basic_pair entries (o_n o) r p /\ disjoint r p /\ system_ok elems o [] r) out.
Proof. exact @basic_complete. Qed.
Print Assumptions C31_complete_any_balance.

Example C31_demo : demo_enumerate demo_options [] [] = Ok [titanate_rxn; titanate_back]
  /\ demo_enumerate demo_options [9; 10] [12] = Ok [titanate_rxn].
Proof. split; vm_compute; reflexivity. Qed.
Example C31_demo_hyps : wf_chem ReactionCheck.demo
  /\ (forall c e, In e (ReactionModel.elems ReactionCheck.demo c) -> (1#100 < amt ReactionCheck.demo (red ReactionCheck.demo c) e)%Q)
  /\ (forall r p c, length (demo_solve r p c) = length r + length p)
  /\ (forall e, In e [9; 10; 11; 12] -> ReactionModel.elems ReactionCheck.demo (e_comp (plain_entry e)) <> [])
  /\ o_changed demo_options = true /\ @valid_schedule (list (list (list nat * list nat) * list nat)) lifo_any.
Proof.
  split; [exact ReactionCheck.demo_wf|]. split; [exact demo_big|]. split; [exact demo_solve_length|]. split; [exact demo_entries_elems|].
  split; [reflexivity|exact lifo_any_valid].
Qed.

(* Two polymorphs react: not added up they look unbalanced, and remove_unbalanced drops it. *)
Example C31_demo_polymorphs : twin_enumerate true = Ok [] /\ exists a b, twin_enumerate false = Ok [a; b]
  /\ er_reactants a = [8; 15] /\ er_products a = [0; 7] /\ er_errors a = Some 0 /\ er_balanced a = false.
Proof. split; [vm_compute; reflexivity|]. do 2 eexists. split; [vm_compute; reflexivity|]. repeat split. Qed.

(* --- C32 --- *)
Theorem C32_partition : forall elems oe combos,
  let d := group_by_chemsys elems combos oe in
  NoDup (map fst d) /\ Permutation (flat_map snd d) combos
  /\ (forall k cs, In (k, cs) d -> cs <> [] /\ picks (fun c => chemsys_of elems oe c k) combos cs)
  /\ (forall c, In c combos -> exists k cs, In (k, cs) d /\ In c cs /\ chemsys_of elems oe c k).
Proof. exact group_by_chemsys_spec. Qed.
Print Assumptions C32_partition.

Example C32_demo : group_by_chemsys (fun e => [e; 2]) [[5]; [1; 5]; [2]; [5; 2]] [0] =
  [([0; 2; 5], [[5]; [5; 2]]); ([0; 1; 2; 5], [[1; 5]]); ([0; 2], [[2]])].
Proof. vm_compute. reflexivity. Qed.

(* --- C33 --- *)
Theorem C33_expand_pd : forall elems, (forall e, NoDup (elems e)) -> forall entries,
  let d := expand_pd elems entries in
  (forall e, In e entries -> exists k es, In (k, es) d /\ (forall x, In x (elems e) -> In x k) /\ In e es)
  /\ (forall k es, In (k, es) d -> picks (fun e => forall x, In x (elems e) -> In x k) entries es /\ es <> [])
  /\ ForallOrdPairs (fun a b => ~ (forall x, In x (fst b) -> In x (fst a)) /\ ~ (forall x, In x (fst a) -> In x (fst b))) d
  /\ (forall e_hull e, In e entries -> exists k es, In (k, es) d /\ In e es /\ get_e_above_hull elems e_hull entries e = Ok (e_hull es e)).
Proof. exact expand_pd_spec. Qed.
Print Assumptions C33_expand_pd.

(* Elements, binaries and a ternary; the second system is not part of the first. *)
Example C33_demo : let elems := fun e => nth e [[0]; [1]; [2]; [0; 1]; [2; 0; 1]; [3]; [3; 0]] [] in
  expand_pd elems [0; 1; 2; 3; 4; 5; 6] = [([0; 1; 2], [0; 1; 2; 3; 4]); ([0; 3], [0; 5; 6])] /\ forall e, NoDup (elems e).
Proof.
  split; [vm_compute; reflexivity|]. intros e. do 7 (destruct e as [|e]; [repeat constructor; simpl; intuition discriminate|]).
  destruct e; constructor.
Qed.

(* --- C66 --- *)
(* Full claim: also when the sets have different open elements (refuted below), when
   the tolerance confuses reactions, and with zero coefficients. *)
Theorem C66_union_partial : forall argsort shuffle,
  (forall l, Permutation (argsort l) (seq 0 (length l))) -> (forall l, Permutation (shuffle l) l) ->
  forall es op mu sets rss, sets <> [] -> NoDup es ->
  Forall2 (fun s rs => well_formed s /\ get_rxns s = Ok rs /\ r_entries s = es /\ r_open s = op /\ r_chempot s = mu) sets rss ->
  (forall r, In r (concat rss) -> plain r) -> sharp (concat rss) ->
  exists s out, run_enumerators argsort shuffle (map Ok sets) = Ok (Some s) /\ get_rxns s = Ok out /\ r_entries s = es
  /\ (exists rest, Permutation (concat rss) (out ++ rest))
  /\ (forall r, In r (concat rss) -> exists r', In r' out /\ multiples r r')
  /\ ForallOrdPairs (fun r r' => ~ multiples r r') out.
Proof. exact run_spec. Qed.
Print Assumptions C66_union_partial.

Theorem C66_open_reactions_refuted : exists a b r s out, well_formed a /\ well_formed b /\ r_entries a = r_entries b /\ get_rxns b = Ok [r]
  /\ x_mu r <> None /\ run_enumerators argsort (fun l => l) [Ok a; Ok b] = Ok (Some s) /\ get_rxns s = Ok out
  /\ forall r', In r' out -> x_mu r' = None.
Proof. exact open_becomes_closed_witness. Qed.
Print Assumptions C66_open_reactions_refuted.

Example C66_demo : exists s out, run_enumerators argsort (fun l => l) [Ok demo_set; Ok demo_set] = Ok (Some s) /\ get_rxns s = Ok out
  /\ map x_data out = [10; 13; 11] /\ well_formed demo_set /\ NoDup (r_entries demo_set)
  /\ exists rs, get_rxns demo_set = Ok rs /\ (forall r, In r rs -> plain r) /\ sharp rs.
Proof.
  do 2 eexists. split; [vm_compute; reflexivity|]. split; [vm_compute; reflexivity|]. split; [vm_compute; reflexivity|].
  split; [exact RxnSetCheck.demo_wf|]. split; [exact demo_nodup|]. destruct demo_list as (rs & H1 & H2 & H3 & _). exists rs. tauto.
Qed.

(* --- C70 --- *)
(* Full claim: open phases may be on both sides, or absent (refuted below). *)
Theorem C70_open_complete_partial : forall {D} C ent solve rank (diagram : list nat -> D) o entries pre tar op wait, wf_chem C ->
  (forall c e, In e (ReactionModel.elems C c) -> (1#100 < amt C (red C c) e)%Q) -> (forall i, e_id (ent i) = i) ->
  (forall r p c, length (solve r p c) = length r + length p) ->
  NoDup entries -> NoDup op -> (forall e, In e entries \/ In e op -> ReactionModel.elems C (e_comp (ent e)) <> []) -> o_changed o = true ->
  1 <= o_chunk o -> 1 <= o_jobs o -> valid_schedule wait ->
  exists out, enumerate_rxns (fun i => ReactionModel.elems C (e_comp (ent i))) open_iterable open_iter_length
                (basic_react (forward_rxn C ent solve rank) (backward_rxn C ent solve rank)) diagram o entries pre tar op (open_combos op) wait = Ok out
  /\ all_reactions o pre tar op (forward_rxn C ent solve rank) (backward_rxn C ent solve rank)
       (fun r p => (exists solids, NoDup solids /\ (forall e, In e solids <-> In e entries /\ ~ In e op) /\ subseq solids entries
                                   /\ open_pair solids op (o_n o) r p)
                   /\ disjoint r p /\ system_ok (fun i => ReactionModel.elems C (e_comp (ent i))) o (flat_map (fun i => ReactionModel.elems C (e_comp (ent i))) op) r) out.
Proof. exact @open_real_complete. Qed.
Print Assumptions C70_open_complete_partial.

(* TiO2 and CO2 open: BaCO3 + TiO2 -> BaTiO3 + CO2 is missed. *)
Theorem C70_both_sides_refuted : exists entries op r p out,
  let els := fun i => ReactionModel.elems ReactionCheck.demo (e_comp (plain_entry i)) in
  let forward := forward_rxn ReactionCheck.demo plain_entry demo_solve (fun _ _ => 3) in
  let backward := backward_rxn ReactionCheck.demo plain_entry demo_solve (fun _ _ => 3) in
  incl (r ++ p) entries /\ disjoint r p /\ (exists e, In e r /\ In e op) /\ (exists e, In e p /\ In e op)
  /\ length r <= o_n demo_options /\ length p <= o_n demo_options
  /\ system_ok els demo_options (flat_map els op) r
  /\ sound_rxn demo_options (forward r p) /\ wanted demo_options [] [] op (forward r p)
  /\ enumerate_rxns els open_iterable open_iter_length (basic_react forward backward) (fun k => k) demo_options
       entries [] [] op (open_combos op) lifo_any = Ok out
  /\ out = [].
Proof. exact open_both_sides_witness. Qed.
Print Assumptions C70_both_sides_refuted.

(* O2 open: the same reaction is missed, because it does not involve O2. *)
Theorem C70_no_open_phase_refuted : exists entries op r p out,
  let els := fun i => ReactionModel.elems ReactionCheck.demo (e_comp (plain_entry i)) in
  let forward := forward_rxn ReactionCheck.demo plain_entry demo_solve (fun _ _ => 3) in
  let backward := backward_rxn ReactionCheck.demo plain_entry demo_solve (fun _ _ => 3) in
  incl (r ++ p) entries /\ disjoint r p /\ (forall e, In e (r ++ p) -> ~ In e op)
  /\ length r <= o_n demo_options /\ length p <= o_n demo_options
  /\ system_ok els demo_options (flat_map els op) r
  /\ sound_rxn demo_options (forward r p) /\ wanted demo_options [] [] op (forward r p)
  /\ enumerate_rxns els open_iterable open_iter_length (basic_react forward backward) (fun k => k) demo_options
       entries [] [] op (open_combos op) lifo_any = Ok out
  /\ out = [].
Proof. exact open_no_open_witness. Qed.
Print Assumptions C70_no_open_phase_refuted.

(* 2 Li2O -> 4 Li + O2 and its reverse. *)
Example C70_demo : exists a b, li2o_enumerate = Ok [a; b] /\ er_reactants a = [0] /\ er_products a = [4; 7]
  /\ er_reactants b = [4; 7] /\ er_products b = [0].
Proof. do 2 eexists. split; [vm_compute; reflexivity|]. repeat split. Qed.
