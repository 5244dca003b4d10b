(* C145: the number of constraints of reactions with any setting of the flags. *)
From Verif Require Import Prelude NumQ UtilsModel UtilsSpec ReactionModel ReactionSpec RxnSetSpec EnumModel EnumSpec EnumLinkModel LinModel LinCheck EnumCheck RxnSetCheck EnumAnyCheck FreeSpec FreeAnyProofs.
Open Scope nat_scope.

(* Also with remove_changed=False every reaction that the basic enumerator lists was balanced between phases that can react in no
   more independent ways than the enumerator allows; nothing is assumed of the solver. *)
Theorem C145_any_flags : forall {D} C ent solve (diagram : list nat -> D) o entries pre tar wait, wf_chem C ->
  NoDup entries -> (forall e, In e entries -> ReactionModel.elems C (e_comp (ent e)) <> []) ->
  1 <= o_chunk o -> 1 <= o_jobs o -> valid_schedule wait ->
  exists out, enumerate_rxns (fun i => ReactionModel.elems C (e_comp (ent i))) basic_iterable basic_iter_length
                (basic_react (forward_rxn C ent solve (entry_rank C ent)) (backward_rxn C ent solve (entry_rank C ent))) diagram o entries pre tar [] [] wait = Ok out
  /\ forall x, In x out -> exists r p d, basic_pair entries (o_n o) r p /\ disjoint r p
     /\ (x = forward_rxn C ent solve (entry_rank C ent) r p \/ x = backward_rxn C ent solve (entry_rank C ent) r p)
     /\ independent_ways C (fun i => red C (e_comp (ent i))) (r ++ p) d /\ d <= o_constraints o
     /\ (o_constraints o = 1 -> one_way C (fun i => red C (e_comp (ent i))) (r ++ p)).
Proof. exact @free_any. Qed.
Print Assumptions C145_any_flags.

(* Mn, Mn2O3, MnO and MnO2: without the flag ten more reactions are listed. *)
Definition mn_any (changed : bool) : result (list erxn) :=
  enumerate_rxns (fun i => ReactionModel.elems mno (e_comp (plain_entry i))) basic_iterable basic_iter_length
    (basic_react (forward_rxn mno plain_entry (entry_solve mno plain_entry) (entry_rank mno plain_entry)) (backward_rxn mno plain_entry (entry_solve mno plain_entry) (entry_rank mno plain_entry)))
    (fun k => k) (any_options changed) [0; 1; 2; 3] [] [] [] [] lifo_any.
Example C145_any_flags_demo : wf_chem mno /\ (forall e, In e [0; 1; 2; 3] -> ReactionModel.elems mno (e_comp (plain_entry e)) <> []) /\ o_constraints (any_options false) = 1
  /\ exists a b, mn_any true = Ok a /\ mn_any false = Ok b /\ length a = 8 /\ length b = 18
  /\ exists x, In x b /\ er_reactants x = [3; 0] /\ er_products x = [1] /\ er_errors x = Some 1.
Proof.
  split; [exact mno_wf|]. split; [intros e [<-|[<-|[<-|[<-|[]]]]]; discriminate|]. split; [reflexivity|].
  do 2 eexists. split; [vm_compute; reflexivity|]. split; [vm_compute; reflexivity|]. split; [reflexivity|]. split; [reflexivity|].
  eexists. split; [left; reflexivity|]. repeat split.
Qed.
