(* C148: looking for reactions between the intermediates with either or both of the enumerators. *)
From Verif Require Import Prelude NumQ SumQ UtilsModel UtilsSpec ReactionModel ReactionSpec EnumModel EnumSpec EnumLinkModel RxnSetModel RxnSetSpec LinModel LinSpec LinProofs LinCheck FreeSpec SolveJobModel SolveJobSpec ChainFindSpec MinSpec JoinModel JoinSpec
  MinJoinModel MinJoinSpec MinJoinCheck IntModel IntSpec CoefProofs IntProofs IntCheck IntMinModel IntMinSpec IntMinProofs IntMinCheck.
From Verif Require RxnSetCheck.
Open Scope list_scope.
Open Scope nat_scope.

(* --- C148 --- *)
(* Whichever of the two options are set, the search gives reactions of intermediates to a target below the energy cutoff, each
   once: those that the first option asks for, between one or two phases on each side, and those that the second one asks for,
   at a kink of an interface of one or two intermediates. Every such reaction that its phases determine is among them up to a
   factor. Missing: as for C137, an open element, targets that are not the most stable phase of their formula,
   reactions with two phases of one formula, phases that react in more than one way, and reactions that are multiples of
   one another only up to the tolerance. *)
Theorem C148_options_partial : forall C, wf_chem C -> (forall c e, In e (ReactionModel.elems C c) -> (1 # 100 < amt C (red C c) e)%Q) ->
  forall ents, (forall i e, nth_error ents i = Some e -> e_id e = i) -> (forall i e, nth_error ents i = Some e -> ReactionModel.elems C (e_comp e) <> []) ->
  forall rxns net0, names_entries ents net0 -> (forall r, In r rxns -> names_entries ents r) -> (forall r, In r rxns -> each_with_amount r) ->
  (forall i j a b, target net0 i -> intermediate C ents rxns net0 j -> nth_error ents i = Some a -> nth_error ents j = Some b -> red C (e_comp b) = red C (e_comp a) -> j = i \/ (e_energy a / natoms C (e_comp a) < e_energy b / natoms C (e_comp b))%Q) ->
  (exists t, target net0 t) ->
  forall D P (diagram : list nat -> D) wait, valid_schedule wait -> forall (build : list nat -> result P) kinks pair_order, (forall l, Permutation (pair_order l) l) -> forall mwait, valid_schedule mwait ->
  forall arrange, arranges arrange -> forall argsort, (forall l, Permutation (argsort l) (seq 0 (length l))) -> forall shuffle, (forall l, Permutation (shuffle l) l) ->
  forall order, (forall l, Permutation (order l) l) -> forall chunk jobs mchunk mjobs, 1 <= chunk -> 1 <= jobs -> 1 <= mchunk -> 1 <= mjobs -> forall cutoff (ub um : bool),
  (um = true -> kinks_make_sense C ents rxns net0 build kinks) -> (um = true -> tidy_kinks kinks) ->
  (forall targets mids xb xm, targets_of net0 = Ok targets -> intermediates C order ents rxns targets = Ok mids ->
     (if ub then basic_objects C (exact_solve C) (exact_rank C) diagram wait chunk jobs ents mids (map e_id targets) else Ok []) = Ok xb ->
     (if um then min_objects C (exact_solve C) (exact_rank C) build kinks pair_order mwait mchunk mjobs ents mids (map e_id targets) else Ok []) = Ok xm -> sharp (map (set_rxn C) (xb ++ xm))) ->
  exists ys, find_with_options C (exact_solve C) (exact_rank C) diagram build kinks pair_order arrange argsort shuffle wait mwait order chunk jobs mchunk mjobs cutoff ub um ents rxns net0 = Ok ys
  /\ (forall y, In y ys -> of_entries ents y /\ (distinct C (parts y) -> low C cutoff (parts y))
       /\ exists r p, ((ub = true /\ might_react C ents rxns net0 r p) \/ (um = true /\ kink_between C ents rxns net0 build kinks r p)) /\ turns_into C r p y /\ one_way C (formula_at C ents) (r ++ p))
  /\ (forall r p es v, ((ub = true /\ might_react C ents rxns net0 r p) \/ (um = true /\ sure_kink C ents rxns net0 build kinks r p)) -> Forall2 (fun i e => nth_error ents i = Some e) (r ++ p) es -> NoDup (map (fun e => red C (e_comp e)) es) ->
       only_combination C (map (fun e => red C (e_comp e)) es) v -> LinSpec.sides (length r) v -> low C cutoff (combine es v) ->
       exists y k, In y ys /\ (0 < k)%Q /\ (forall j i a, nth_error (r ++ p) j = Some i -> nth_error v j = Some a -> (turnover y i == k * a)%Q) /\ forall i, ~ In i (r ++ p) -> (turnover y i == 0)%Q)
  /\ ForallOrdPairs (fun x y => ~ ChainFindSpec.proportional x y) ys.
Proof. exact options_spec. Qed.
Print Assumptions C148_options_partial.

(* The manganese oxides as for C137, and Mn and MnO2 react to MnO at a kink. The other hypotheses are shown in C137_demo. *)
Example C148_demo : kinks_make_sense mno oxides [split_up] comproportion free_build mn_kinks /\ tidy_kinks mn_kinks
  /\ (forall (ub um : bool) targets mids xb xm, targets_of comproportion = Ok targets -> intermediates mno (fun l => l) oxides [split_up] targets = Ok mids ->
       (if ub then basic_objects mno (exact_solve mno) (exact_rank mno) (fun k => k) RxnSetCheck.lifo_any 10 10 oxides mids (map e_id targets) else Ok []) = Ok xb ->
       (if um then min_objects mno (exact_solve mno) (exact_rank mno) free_build mn_kinks (fun l => l) RxnSetCheck.lifo_any 10 10 oxides mids (map e_id targets) else Ok []) = Ok xm -> sharp (map (set_rxn mno) (xb ++ xm)))
  /\ sure_kink mno oxides [split_up] comproportion free_build mn_kinks [0; 3] [2]
  /\ only_combination mno [0; 3; 2] [-1; -1; 2]%Q /\ LinSpec.sides 2 [-1; -1; 2]%Q /\ low mno 0 (combine [warm 0 0; warm 3 (-54 # 10); warm 2 (-4)] [-1; -1; 2])%Q.
Proof.
  split; [exact oxide_kinks|]. split; [exact mn_tidy|]. split; [exact options_sharp|]. split; [exact oxide_sure|]. split; [exact oxide_only|]. split; [apply oxide_sides; reflexivity|exact oxide_low].
Qed.

(* With the second option alone, with both, and with none. *)
Example C148_demo_runs :
  (exists ys, find_with_options mno (exact_solve mno) (exact_rank mno) (fun k => k) free_build mn_kinks (fun l => l) RxnSetCheck.arrange RxnSetCheck.argsort (fun l => l) RxnSetCheck.lifo_any RxnSetCheck.lifo_any (fun l => l) 10 10 10 10 0%Q false true oxides [split_up] comproportion = Ok ys
     /\ map (fun r => map (fun i => Qred (turnover r i)) [0; 1; 2; 3]) ys = [[-1 # 3; -1 # 3; 1; 0]; [-1 # 2; 0; 1; -1 # 2]]%Q)
  /\ (exists ys, find_with_options mno (exact_solve mno) (exact_rank mno) (fun k => k) free_build mn_kinks (fun l => l) RxnSetCheck.arrange RxnSetCheck.argsort (fun l => l) RxnSetCheck.lifo_any RxnSetCheck.lifo_any (fun l => l) 10 10 10 10 0%Q true true oxides [split_up] comproportion = Ok ys
     /\ map (fun r => map (fun i => Qred (turnover r i)) [0; 1; 2; 3]) ys = [[-1 # 3; -1 # 3; 1; 0]; [-1 # 2; 0; 1; -1 # 2]]%Q)
  /\ exists ys, find_with_options mno (exact_solve mno) (exact_rank mno) (fun k => k) free_build mn_kinks (fun l => l) RxnSetCheck.arrange RxnSetCheck.argsort (fun l => l) RxnSetCheck.lifo_any RxnSetCheck.lifo_any (fun l => l) 10 10 10 10 0%Q false false oxides [split_up] comproportion = Ok ys
     /\ map (fun r => map (fun i => Qred (turnover r i)) [0; 1; 2; 3]) ys = [].
Proof. exact options_runs. Qed.
