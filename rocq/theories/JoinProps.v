(* C133: from entries to pathways. *)
From Verif Require Import Prelude NumQ UtilsModel UtilsSpec ReactionModel ReactionSpec EnumModel EnumSpec EnumLinkModel EnumCheck RxnSetModel RxnSetSpec RxnSetCheck LinModel LinSpec LinProofs LinBalanceProofs LinCheck NetModel YenModel YenSpec ShortestPath FlowModel NetJobModel NetJobSpec NetJobCheck RunModel JoinModel JoinSpec JoinProofs JoinCheck.
Open Scope list_scope.
Open Scope nat_scope.

(* --- C133 --- *)
(* Enumerating. The reactions of the set that the job gives back are balanced reactions between phases that
   one of the enumerators looks at; every two groups of phases that react in one way only have theirs, and no reaction
   is there twice. Missing: phases that react in more than one way, open phases on both sides, and reactions that are multiples of
   one another only up to the tolerance. *)
Theorem C133_enumerate_partial : forall C, wf_chem C -> (forall c e, In e (ReactionModel.elems C c) -> (1 # 100 < amt C (red C c) e)%Q) ->
  forall ent, (forall i, e_id (ent i) = i) -> forall D (diagram : list nat -> D) wait, valid_schedule wait ->
  forall entries, NoDup entries -> entries <> [] -> (forall e, In e entries -> ReactionModel.elems C (e_comp (ent e)) <> []) ->
  forall arrange, arranges arrange -> forall argsort, (forall l, Permutation (argsort l) (seq 0 (length l))) -> forall shuffle, (forall l, Permutation (shuffle l) l) ->
  forall ens, ens <> [] -> (forall en, In en ens -> usable en) ->
  (forall outs, Forall2 (fun en xs => enumerated C ent (entry_solve C ent) (entry_rank C ent) diagram wait entries en = Ok xs) ens outs -> sharp (map (set_rxn C) (concat outs))) ->
  exists s out, enumeration_job C ent (entry_solve C ent) (entry_rank C ent) diagram arrange argsort shuffle wait ens entries = Ok (Some s) /\ get_rxns s = Ok out
  /\ r_entries s = arrange (map (in_set C ent) entries)
  /\ (forall x, In x out -> exists en, In en ens /\ plain x /\ (forall e, In e (x_entries x) -> exists i, In i entries /\ e = in_set C ent i)
       /\ exists r p, looks_at C ent entries en r p /\ turns C ent r p x)
  /\ (forall en r p, In en ens -> looks_at C ent entries en r p -> determined C (formula C ent) r p -> exists x, In x out /\ turns C ent r p x)
  /\ ForallOrdPairs (fun x y => ~ multiples x y) out /\ sharp out /\ (forall x, In x out -> x_mu x = None).
Proof. exact enumeration_spec. Qed.
Print Assumptions C133_enumerate_partial.

(* Enumerating and searching. Missing as above, and one CPU, precursors and targets that are not the most stable phase of their formula, and precursors or targets in no reaction. *)
Theorem C133_pathways_partial : forall C, wf_chem C -> (forall c e, In e (ReactionModel.elems C c) -> (1 # 100 < amt C (red C c) e)%Q) ->
  forall ent, (forall i, e_id (ent i) = i) -> forall D (diagram : list nat -> D) wait, valid_schedule wait ->
  forall entries, NoDup entries -> entries <> [] -> (forall e, In e entries -> ReactionModel.elems C (e_comp (ent e)) <> []) ->
  forall arrange, arranges arrange -> forall argsort, (forall l, Permutation (argsort l) (seq 0 (length l))) -> forall shuffle, (forall l, Permutation (shuffle l) l) ->
  forall cpus, 2 <= cpus -> forall nwait, valid_schedule nwait ->
  forall epa cost, (forall r, (0 <= cost r)%Q) -> forall sp, (forall weight, shortest weight (sp weight)) ->
  forall ens mk ps ts k, ens <> [] -> (forall en, In en ens -> usable en) ->
  (forall outs, Forall2 (fun en xs => enumerated C ent (entry_solve C ent) (entry_rank C ent) diagram wait entries en = Ok xs) ens outs -> sharp (map (set_rxn C) (concat outs))) ->
  incl (ps ++ ts) entries -> most_stable C ent epa entries (ps ++ ts) ->
  nm_precursors mk = Some (map (fun i => red C (e_comp (ent i))) ps) -> ps <> [] -> nm_targets mk = Some (map (fun i => red C (e_comp (ent i))) ts) -> ts <> [] ->
  nm_k mk = Some k -> 0 < k ->
  (forall i, In i (ps ++ ts) -> exists r p, reacts C ent entries ens r p /\ In i (r ++ p)) ->
  exists w rs per, enumerate_and_search C ent (entry_solve C ent) (entry_rank C ent) diagram arrange argsort shuffle wait cpus nwait epa cost sp ens entries mk = Ok (w, rs, Some (concat per))
  /\ (forall x, In x rs -> plain x /\ exists en r p, In en ens /\ looks_at C ent entries en r p /\ turns C ent r p x)
  /\ (forall r p, reacts C ent entries ens r p -> exists x, In x rs /\ turns C ent r p x)
  /\ Forall2 (fun t pathways => pathways_to cost rs (map (in_set C ent) ps) (in_set C ent t) k pathways
                               /\ ((exists l, route (reacts C ent entries ens) ps t [] l) -> pathways <> [])) ts per.
Proof. exact join_spec. Qed.
Print Assumptions C133_pathways_partial.

(* The manganese oxides: Mn and Mn2O3 to MnO. *)
Example C133_demo : wf_chem mno /\ (forall c e, In e (ReactionModel.elems mno c) -> (1 # 100 < amt mno (red mno c) e)%Q)
  /\ (forall i, e_id (plain_entry i) = i) /\ (forall e, In e [0; 1; 2; 3] -> ReactionModel.elems mno (e_comp (plain_entry e)) <> []) /\ usable (open_enumerator 1)
  /\ (forall outs, Forall2 (fun en xs => enumerated mno plain_entry (entry_solve mno plain_entry) (entry_rank mno plain_entry) (fun k => k) lifo_any [0; 1; 2; 3] en = Ok xs) [open_enumerator 1] outs
                   -> sharp (map (set_rxn mno) (concat outs)))
  /\ (forall epa, most_stable mno plain_entry epa [0; 1; 2; 3] [0; 1; 2]) /\ reacts mno plain_entry [0; 1; 2; 3] [open_enumerator 1] [0; 1] [2]
  /\ (exists l, route (reacts mno plain_entry [0; 1; 2; 3] [open_enumerator 1]) [0; 1] 2 [] l).
Proof.
  split; [exact mno_wf|]. split; [exact mno_big|]. split; [reflexivity|]. split; [intros e [<-|[<-|[<-|[<-|[]]]]]; discriminate|]. split; [repeat split; cbn; lia|]. split; [exact mn_sharp|].
  split; [intros epa; apply once_stable; [repeat constructor; cbn; intuition discriminate|intros i; cbn; tauto]|]. split; [exact mn_reacts|]. exists [([0; 1], [2])]. split; [exact mn_reacts|]. split; [intros i H; left; exact H|left; reflexivity].
Qed.

Example C133_demo_run : exists w rs ps, join_run mno [open_enumerator 1] [0; 1; 2; 3] (maker (Some [0; 1]) (Some [2]) 5) = Ok (w, rs, Some ps) /\ length rs = 8
  /\ map steps_of ps = [[5]; [2]; [0; 7]; [2; 7]; [0; 1; 2]].
Proof. exact mn_join. Qed.

(* The same with a second phase of manganese, number 4, which is less stable. *)
Example C133_demo_polymorphs : most_stable mno poly_entry poly_epa [0; 1; 2; 3; 4] [0; 1; 2] /\ formula mno poly_entry 4 = formula mno poly_entry 0
  /\ (forall outs, Forall2 (fun en xs => enumerated mno poly_entry (entry_solve mno poly_entry) (entry_rank mno poly_entry) (fun k => k) lifo_any [0; 1; 2; 3; 4] en = Ok xs) [open_enumerator 1] outs
                   -> sharp (map (set_rxn mno) (concat outs)))
  /\ reacts mno poly_entry [0; 1; 2; 3; 4] [open_enumerator 1] [0; 1] [2]
  /\ exists w rs ps, enumerate_and_search mno poly_entry (entry_solve mno poly_entry) (entry_rank mno poly_entry) (fun k => k) arrange argsort (fun l => l) lifo_any 3 lifo_any poly_epa unit_cost (fun weight => search weight)
       [open_enumerator 1] [0; 1; 2; 3; 4] (maker (Some [0; 1]) (Some [2]) 5) = Ok (w, rs, Some ps) /\ length rs = 14 /\ map steps_of ps = [[3]; [12]; [4; 7]; [0; 9]; [0; 7]].
Proof. split; [exact poly_stable|]. split; [reflexivity|]. split; [exact poly_sharp|]. split; [exact poly_reacts|exact poly_run]. Qed.

(* Four elements A, B, D, E react to AB and DE, and these to ABDE. The reactions are all found, ABDE can be had from
   the elements, and the network gives no pathway to it. *)
Theorem C133_branches_refuted : exists C entries en t w rs, wf_chem C /\ usable en
  /\ (forall outs, Forall2 (fun en xs => enumerated C plain_entry (entry_solve C plain_entry) (entry_rank C plain_entry) (fun k => k) lifo_any entries en = Ok xs) [en] outs
                   -> sharp (map (set_rxn C) (concat outs)))
  /\ In t entries /\ obtainable (reacts C plain_entry entries [en]) [0; 1; 2; 3] t
  /\ join_run C [en] entries (maker (Some [0; 1; 2; 3]) (Some [red C (e_comp (plain_entry t))]) 5) = Ok (w, rs, Some []).
Proof.
  destruct branch_run as (w & rs & E & _). exists branching, [0; 1; 2; 3; 4; 5; 6], (open_enumerator 1), 6, w, rs. split; [exact branching_wf|]. split; [repeat split; cbn; lia|].
  split; [exact branch_sharp|]. split; [cbn; tauto|]. split; [exact branch_obtainable|exact E].
Qed.
Print Assumptions C133_branches_refuted.

(* Without enumerators there is no set of reactions: the flow fails. *)
Theorem C133_no_enumerators : forall C ent solve rank D (diagram : list nat -> D) arrange argsort shuffle wait cpus nwait epa cost sp entries mk,
  enumerate_and_search C ent solve rank diagram arrange argsort shuffle wait cpus nwait epa cost sp [] entries mk = Err AttributeError.
Proof. reflexivity. Qed.
Print Assumptions C133_no_enumerators.
