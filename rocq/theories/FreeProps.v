(* C145: the number of constraints of a reaction. *)
From Verif Require Import Prelude NumQ SumQ UtilsModel UtilsSpec ReactionModel ReactionSpec EnumModel EnumSpec EnumLinkModel RxnSetModel RxnSetSpec LinModel LinCheck JoinModel JoinSpec JoinCheck FreeSpec FreeProofs FreeJoinProofs FreeCheck.
From Verif Require Import EnumCheck RxnSetCheck.
Open Scope list_scope.
Open Scope nat_scope.

(* --- C145 --- *)
(* The number of constraints that balancing reports is the number of independent ways in which the species can react,
   but at least one. The matrix rank is exact here. *)
Theorem C145_number : forall C, wf_chem C -> forall form r p, NoDup (r ++ p) ->
  exists d, independent_ways C form (r ++ p) d /\ num_constraints (length r) (length p) (exact_rank C (map form r) (map form p)) = Nat.max 1 d.
Proof. exact number_of_ways. Qed.
Print Assumptions C145_number.

(* Up to one independent way: any two ways are the same up to a factor. *)
Theorem C145_one : forall C form l d, d <= 1 -> independent_ways C form l d -> one_way C form l.
Proof. exact ways_one. Qed.
Print Assumptions C145_one.

Example C145_demo : wf_chem mno /\ independent_ways mno (fun i => i) [0; 3] 0 /\ independent_ways mno (fun i => i) [0; 1; 2] 1 /\ independent_ways mno (fun i => i) [0; 1; 2; 3] 2 /\ ~ one_way mno (fun i => i) [0; 1; 2; 3].
Proof. exact (conj mno_wf (conj (proj1 mn_ways) (conj (proj1 (proj2 mn_ways)) (conj (proj2 (proj2 mn_ways)) four_ways)))). Qed.

(* Every reaction that the enumerators list is between phases that can react in no more independent ways than the
   enumerator allows; with the default of one, in one way only. Missing: the enumerators that minimise (C156), enumerators that keep
   reactions with changed sides, and reactions that are multiples of one another only up to the tolerance. *)
Theorem C145_enumerate_partial :
  forall C, wf_chem C -> (forall c e, In e (ReactionModel.elems C c) -> (1 # 100 < amt C (red C c) e)%Q) ->
  forall ent, (forall i, e_id (ent i) = i) -> forall D (diagram : list nat -> D) wait, valid_schedule wait ->
  forall entries, NoDup entries -> entries <> [] -> (forall e, In e entries -> ReactionModel.elems C (e_comp (ent e)) <> []) ->
  forall arrange, arranges arrange -> forall argsort, (forall l, Permutation (argsort l) (seq 0 (length l))) -> forall shuffle, (forall l, Permutation (shuffle l) l) ->
  forall ens, ens <> [] -> (forall en, In en ens -> usable en) ->
  (forall outs, Forall2 (fun en xs => enumerated C ent (entry_solve C ent) (entry_rank C ent) diagram wait entries en = Ok xs) ens outs -> sharp (map (set_rxn C) (concat outs))) ->
  exists s out, enumeration_job C ent (entry_solve C ent) (entry_rank C ent) diagram arrange argsort shuffle wait ens entries = Ok (Some s) /\ get_rxns s = Ok out
  /\ (forall x, In x out -> exists en r p d, In en ens /\ looks_at C ent entries en r p /\ turns C ent r p x
       /\ independent_ways C (fun i => red C (e_comp (ent i))) (r ++ p) d /\ d <= o_constraints (en_options en)
       /\ (o_constraints (en_options en) = 1 -> one_way C (fun i => red C (e_comp (ent i))) (r ++ p))).
Proof. exact @free_enumeration. Qed.
Print Assumptions C145_enumerate_partial.

Example C145_demo_enumerate : wf_chem mno /\ (forall c e, In e (ReactionModel.elems mno c) -> (1 # 100 < amt mno (red mno c) e)%Q)
  /\ (forall i, e_id (plain_entry i) = i) /\ (forall e, In e [0; 1; 2; 3] -> ReactionModel.elems mno (e_comp (plain_entry e)) <> []) /\ usable (open_enumerator 1) /\ o_constraints (en_options (open_enumerator 1)) = 1
  /\ (forall outs, Forall2 (fun en xs => enumerated mno plain_entry (entry_solve mno plain_entry) (entry_rank mno plain_entry) (fun k => k) lifo_any [0; 1; 2; 3] en = Ok xs) [open_enumerator 1] outs
                   -> sharp (map (set_rxn mno) (concat outs))).
Proof. split; [exact mno_wf|]. split; [exact mno_big|]. split; [reflexivity|]. split; [intros e [<-|[<-|[<-|[<-|[]]]]]; discriminate|]. split; [repeat split; cbn; lia|]. split; [reflexivity|exact mn_sharp]. Qed.
