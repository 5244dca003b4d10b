(* C142: a flow with minimising enumerators. *)
From Verif Require Import Prelude NumQ UtilsModel UtilsSpec ReactionModel ReactionSpec EnumModel EnumSpec EnumLinkModel EnumCheck RxnSetModel RxnSetSpec RxnSetCheck LinModel LinSpec LinProofs LinBalanceProofs LinCheck NetModel YenModel YenSpec ShortestPath FlowModel NetJobModel NetJobSpec NetJobCheck RunModel MinSpec JoinModel JoinSpec JoinProofs JoinCheck MinJoinModel MinJoinSpec MinJoinProofs MinJoinCheck.
Open Scope list_scope.
Open Scope nat_scope.

(* --- C142 --- *)
(* Enumerating. The reactions of the set are balanced reactions that a BasicEnumerator looks at or that are at a kink of an
   interface a MinimizeGibbsEnumerator looks at; the ones that are determined by their phases are all there, and none is
   there twice. A phase that stays what it is (the ends of an interface) is not among them. Missing: kinks of phases that
   react in more than one way, kinks that depend on the order of the two phases, phases of one formula that are equally
   stable, chemical potentials, and reactions that are multiples of one another only up to the tolerance. *)
Theorem C142_enumerate_partial : forall C, wf_chem C -> (forall c e, In e (ReactionModel.elems C c) -> (1 # 100 < amt C (red C c) e)%Q) ->
  forall ent, (forall i, e_id (ent i) = i) -> forall P (build : list nat -> result P) kinks order, (forall l, Permutation (order l) l) ->
  forall epa mwait, valid_schedule mwait -> forall entries, NoDup entries -> (forall e, In e entries -> ReactionModel.elems C (e_comp (ent e)) <> []) ->
  good_interfaces (fun i => ReactionModel.elems C (e_comp (ent i))) (fun i => red C (e_comp (ent i))) build kinks entries [] -> tidy_kinks kinks ->
  forall D (diagram : list nat -> D) wait, valid_schedule wait -> entries <> [] ->
  forall arrange, arranges arrange -> forall argsort, (forall l, Permutation (argsort l) (seq 0 (length l))) -> forall shuffle, (forall l, Permutation (shuffle l) l) ->
  forall ens, ens <> [] -> (forall a, In a ens -> any_usable a) ->
  (forall outs, Forall2 (fun a xs => any_enumerated C ent (entry_solve C ent) (entry_rank C ent) diagram build kinks order epa wait mwait entries a = Ok xs) ens outs -> sharp (map (set_rxn C) (concat outs))) ->
  exists s out, any_enumeration C ent (entry_solve C ent) (entry_rank C ent) diagram build kinks order epa arrange argsort shuffle wait mwait ens entries = Ok (Some s) /\ get_rxns s = Ok out
  /\ r_entries s = arrange (map (in_set C ent) entries)
  /\ (forall x, In x out -> plain x /\ exists a r p, In a ens /\ any_looks C ent build kinks epa entries a r p /\ turns C ent r p x)
  /\ (forall r p, any_reacts C ent build kinks epa entries ens r p -> exists x, In x out /\ turns C ent r p x)
  /\ ForallOrdPairs (fun x y => ~ multiples x y) out.
Proof. exact @any_enumeration_spec. Qed.
Print Assumptions C142_enumerate_partial.

(* Enumerating and searching. Missing as above, and as in C133_pathways_partial. *)
Theorem C142_pathways_partial : forall C, wf_chem C -> (forall c e, In e (ReactionModel.elems C c) -> (1 # 100 < amt C (red C c) e)%Q) ->
  forall ent, (forall i, e_id (ent i) = i) -> forall P (build : list nat -> result P) kinks order, (forall l, Permutation (order l) l) ->
  forall epa mwait, valid_schedule mwait -> forall entries, NoDup entries -> (forall e, In e entries -> ReactionModel.elems C (e_comp (ent e)) <> []) ->
  good_interfaces (fun i => ReactionModel.elems C (e_comp (ent i))) (fun i => red C (e_comp (ent i))) build kinks entries [] -> tidy_kinks kinks ->
  forall D (diagram : list nat -> D) wait, valid_schedule wait -> entries <> [] ->
  forall arrange, arranges arrange -> forall argsort, (forall l, Permutation (argsort l) (seq 0 (length l))) -> forall shuffle, (forall l, Permutation (shuffle l) l) ->
  forall cpus, 2 <= cpus -> forall nwait, valid_schedule nwait -> forall cost, (forall r, (0 <= cost r)%Q) -> forall sp, (forall weight, shortest weight (sp weight)) ->
  forall ens mk ps ts k, ens <> [] -> (forall a, In a ens -> any_usable a) ->
  (forall outs, Forall2 (fun a xs => any_enumerated C ent (entry_solve C ent) (entry_rank C ent) diagram build kinks order epa wait mwait entries a = Ok xs) ens outs -> sharp (map (set_rxn C) (concat outs))) ->
  incl (ps ++ ts) entries -> most_stable C ent epa entries (ps ++ ts) ->
  nm_precursors mk = Some (map (fun i => red C (e_comp (ent i))) ps) -> ps <> [] -> nm_targets mk = Some (map (fun i => red C (e_comp (ent i))) ts) -> ts <> [] ->
  nm_k mk = Some k -> 0 < k ->
  (forall i, In i (ps ++ ts) -> exists r p, any_reacts C ent build kinks epa entries ens r p /\ In i (r ++ p)) ->
  exists w rs per, any_flow C ent (entry_solve C ent) (entry_rank C ent) diagram build kinks order epa arrange argsort shuffle wait mwait cpus nwait cost sp ens entries mk = Ok (w, rs, Some (concat per))
  /\ (forall x, In x rs -> plain x /\ exists a r p, In a ens /\ any_looks C ent build kinks epa entries a r p /\ turns C ent r p x)
  /\ (forall r p, any_reacts C ent build kinks epa entries ens r p -> exists x, In x rs /\ turns C ent r p x)
  /\ Forall2 (fun t pathways => pathways_to cost rs (map (in_set C ent) ps) (in_set C ent t) k pathways
                               /\ ((exists l, route (any_reacts C ent build kinks epa entries ens) ps t [] l) -> pathways <> [])) ts per.
Proof. exact @any_flow_spec. Qed.
Print Assumptions C142_pathways_partial.

(* The manganese oxides: at the interface of Mn and Mn2O3 MnO forms. *)
Example C142_demo : good_interfaces (fun i => ReactionModel.elems mno (e_comp (plain_entry i))) (fun i => red mno (e_comp (plain_entry i))) free_build mn_kinks [0; 1; 2; 3] []
  /\ tidy_kinks mn_kinks /\ any_usable (Minimize mn_minimizer)
  /\ (forall outs, Forall2 (fun a xs => any_outs mno mn_kinks a [0; 1; 2; 3] = Ok xs) [Minimize mn_minimizer] outs -> sharp (map (set_rxn mno) (concat outs)))
  /\ any_reacts mno plain_entry free_build mn_kinks (fun _ => 0%Q) [0; 1; 2; 3] [Minimize mn_minimizer] [0; 1] [2]
  /\ (exists l, route (any_reacts mno plain_entry free_build mn_kinks (fun _ => 0%Q) [0; 1; 2; 3] [Minimize mn_minimizer]) [0; 1] 2 [] l).
Proof.
  split; [exact mn_interfaces|]. split; [exact mn_tidy|]. split; [repeat split; cbn; lia|]. split; [exact mn_any_sharp|]. split; [exact mn_any_reacts|].
  exists [([0; 1], [2])]. split; [exact mn_any_reacts|]. split; [intros i H; left; exact H|left; reflexivity].
Qed.
Example C142_demo_run : (exists w rs ps, any_run mno mn_kinks [Minimize mn_minimizer] [0; 1; 2; 3] (maker (Some [0; 1]) (Some [2]) 5) = Ok (w, rs, Some ps) /\ length rs = 3 /\ map steps_of ps = [[0]])
  /\ exists w rs ps, any_run mno mn_kinks [Basic (open_enumerator 1); Minimize mn_minimizer] [0; 1; 2; 3] (maker (Some [0; 1]) (Some [2]) 5) = Ok (w, rs, Some ps) /\ length rs = 8 /\ length ps = 5.
Proof. split; [exact mn_any_run|exact mn_both_run]. Qed.

(* At the interfaces of A with B and of D with E the compounds AB and DE form, and at the interface of these ABDE. All
   three reactions are found, and the network gives no pathway from the elements to ABDE. *)
Theorem C142_branches_refuted : exists C kinks entries m t w rs, wf_chem C /\ any_usable (Minimize m)
  /\ (forall outs, Forall2 (fun a xs => any_outs C kinks a entries = Ok xs) [Minimize m] outs -> sharp (map (set_rxn C) (concat outs)))
  /\ In t entries /\ obtainable (any_reacts C plain_entry free_build kinks (fun _ => 0%Q) entries [Minimize m]) [0; 1; 2; 3] t
  /\ any_run C kinks [Minimize m] entries (maker (Some [0; 1; 2; 3]) (Some [red C (e_comp (plain_entry t))]) 5) = Ok (w, rs, Some []).
Proof.
  destruct branch_any_run as (w & rs & E & _). exists branching, branch_kinks, seven, mn_minimizer, 6, w, rs. split; [exact branching_wf|]. split; [repeat split; cbn; lia|].
  split; [exact branch_any_sharp|]. split; [cbn; tauto|]. split; [exact branch_any_obtainable|exact E].
Qed.
Print Assumptions C142_branches_refuted.
