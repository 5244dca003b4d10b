(* C137: looking for reactions between the intermediates. *)
From Verif Require Import Prelude NumQ SumQ UtilsModel UtilsSpec ReactionModel ReactionSpec EnumModel EnumSpec EnumLinkModel RxnSetModel RxnSetSpec LinModel LinSpec LinProofs LinCheck FreeSpec SolveJobModel SolveJobSpec ChainFindSpec JoinModel JoinSpec IntModel IntSpec CoefProofs IntProofs IntCheck.
From Verif Require RxnSetCheck.
Open Scope list_scope.
Open Scope nat_scope.

(* --- C137 --- *)
(* The search gives reactions of intermediates to a target, below the energy cutoff, each once, and
   only of phases that can react in one way; and
   every reaction that its phases determine is among them up to a factor. Missing: an open element,
   targets that are not the most stable phase of their formula, reactions with two phases of one formula, phases that react in more than one way, and reactions that
   are multiples of one another only up to the tolerance. *)
Theorem C137_found_partial : forall C, wf_chem C -> (forall c e, In e (ReactionModel.elems C c) -> (1 # 100 < amt C (red C c) e)%Q) ->
  forall ents, (forall i e, nth_error ents i = Some e -> e_id e = i) -> (forall i e, nth_error ents i = Some e -> ReactionModel.elems C (e_comp e) <> []) ->
  forall rxns net0, names_entries ents net0 -> (forall r, In r rxns -> names_entries ents r) -> (forall r, In r rxns -> each_with_amount r) ->
  (forall i j a b, target net0 i -> intermediate C ents rxns net0 j -> nth_error ents i = Some a -> nth_error ents j = Some b -> red C (e_comp b) = red C (e_comp a) -> j = i \/ (e_energy a / natoms C (e_comp a) < e_energy b / natoms C (e_comp b))%Q) ->
  (exists t, target net0 t) ->
  forall D (diagram : list nat -> D) wait, valid_schedule wait -> forall arrange, arranges arrange -> forall argsort, (forall l, Permutation (argsort l) (seq 0 (length l))) -> forall shuffle, (forall l, Permutation (shuffle l) l) ->
  forall order, (forall l, Permutation (order l) l) -> forall chunk jobs, 1 <= chunk -> 1 <= jobs -> forall cutoff,
  (forall targets mids xs, targets_of net0 = Ok targets -> intermediates C order ents rxns targets = Ok mids ->
     enumerated C (with_index ents) (entry_solve C (with_index ents)) (entry_rank C (with_index ents)) diagram wait mids
       {| en_options := default_options chunk jobs; en_precursors := []; en_targets := map e_id targets; en_open := None; en_duplicates := false |} = Ok xs -> sharp (map (set_rxn C) xs)) ->
  exists ys, find_intermediates C (exact_solve C) (exact_rank C) diagram arrange argsort shuffle wait order chunk jobs cutoff ents rxns net0 = Ok ys
  /\ (forall y, In y ys -> of_entries ents y /\ (distinct C (parts y) -> low C cutoff (parts y)) /\ exists r p, might_react C ents rxns net0 r p /\ turns_into C r p y /\ one_way C (formula_at C ents) (r ++ p))
  /\ (forall r p es v, might_react C ents rxns net0 r p -> Forall2 (fun i e => nth_error ents i = Some e) (r ++ p) es -> NoDup (map (fun e => red C (e_comp e)) es) -> only_combination C (map (fun e => red C (e_comp e)) es) v -> LinSpec.sides (length r) v -> low C cutoff (combine es v) ->
       exists y k, In y ys /\ (0 < k)%Q /\ (forall j i a, nth_error (r ++ p) j = Some i -> nth_error v j = Some a -> (turnover y i == k * a)%Q) /\ forall i, ~ In i (r ++ p) -> (turnover y i == 0)%Q)
  /\ ForallOrdPairs (fun x y => ~ ChainFindSpec.proportional x y) ys.
Proof. exact int_spec. Qed.
Print Assumptions C137_found_partial.

(* The manganese oxides: the net reaction is Mn + Mn2O3 -> 3 MnO, and Mn2O3 -> MnO + MnO2 is on the pathways; Mn + MnO2 -> 2 MnO is found. *)
Example C137_demo : wf_chem mno /\ (forall c e, In e (ReactionModel.elems mno c) -> (1 # 100 < amt mno (red mno c) e)%Q)
  /\ (forall i e, nth_error oxides i = Some e -> e_id e = i) /\ (forall i e, nth_error oxides i = Some e -> ReactionModel.elems mno (e_comp e) <> [])
  /\ names_entries oxides comproportion /\ names_entries oxides split_up /\ each_with_amount split_up /\ (exists t, target comproportion t)
  /\ (forall i j a b, target comproportion i -> intermediate mno oxides [split_up] comproportion j -> nth_error oxides i = Some a -> nth_error oxides j = Some b -> red mno (e_comp b) = red mno (e_comp a) -> j = i \/ (e_energy a / natoms mno (e_comp a) < e_energy b / natoms mno (e_comp b))%Q)
  /\ (forall targets mids xs, targets_of comproportion = Ok targets -> intermediates mno (fun l => l) oxides [split_up] targets = Ok mids ->
        enumerated mno (with_index oxides) (entry_solve mno (with_index oxides)) (entry_rank mno (with_index oxides)) (fun k => k) RxnSetCheck.lifo_any mids
          {| en_options := default_options 10 10; en_precursors := []; en_targets := map e_id targets; en_open := None; en_duplicates := false |} = Ok xs -> sharp (map (set_rxn mno) xs))
  /\ might_react mno oxides [split_up] comproportion [0; 3] [2] /\ only_combination mno [0; 3; 2] [-1; -1; 2]%Q /\ LinSpec.sides 2 [-1; -1; 2]%Q
  /\ low mno 0 (combine [warm 0 0; warm 3 (-54 # 10); warm 2 (-4)] [-1; -1; 2])%Q.
Proof.
  split; [exact mno_wf|]. split; [exact mno_big|]. split; [exact oxide_ids|]. split; [exact oxide_elems|]. split; [apply oxide_names|]. split; [apply oxide_names|]. split; [intros c [E|(? & E)]; [injection E as <-; reflexivity|discriminate]|]. split; [exact oxide_target|]. split; [exact oxide_once|].
  split; [exact oxide_sharp|]. split; [exact oxide_might|]. split; [exact oxide_only|]. split; [apply oxide_sides; reflexivity|exact oxide_low].
Qed.

Example C137_demo_run : exists ys, find_intermediates mno (exact_solve mno) (exact_rank mno) (fun k => k) RxnSetCheck.arrange RxnSetCheck.argsort (fun l => l) RxnSetCheck.lifo_any (fun l => l) 10 10 0%Q oxides [split_up] comproportion = Ok ys
  /\ map (fun r => map (fun i => Qred (turnover r i)) [0; 1; 2; 3]) ys = [[-1; -1; 3; 0]; [-1; 0; 2; -1]]%Q.
Proof. exact oxide_run. Qed.

(* The same with a second phase of MnO, number 4, which is less stable. *)
Example C137_demo_polymorphs : (forall i e, nth_error polymorphs i = Some e -> e_id e = i) /\ (forall i e, nth_error polymorphs i = Some e -> ReactionModel.elems mno (e_comp e) <> [])
  /\ names_entries polymorphs together_again /\ names_entries polymorphs split_off /\ each_with_amount split_off /\ target together_again 2
  /\ intermediate mno polymorphs [split_off] together_again 4 /\ e_comp (with_index polymorphs 4) = e_comp (with_index polymorphs 2)
  /\ (forall i j a b, target together_again i -> intermediate mno polymorphs [split_off] together_again j -> nth_error polymorphs i = Some a -> nth_error polymorphs j = Some b -> red mno (e_comp b) = red mno (e_comp a) -> j = i \/ (e_energy a / natoms mno (e_comp a) < e_energy b / natoms mno (e_comp b))%Q)
  /\ (forall targets mids xs, targets_of together_again = Ok targets -> intermediates mno (fun l => l) polymorphs [split_off] targets = Ok mids ->
        enumerated mno (with_index polymorphs) (entry_solve mno (with_index polymorphs)) (entry_rank mno (with_index polymorphs)) (fun k => k) RxnSetCheck.lifo_any mids
          {| en_options := default_options 10 10; en_precursors := []; en_targets := map e_id targets; en_open := None; en_duplicates := false |} = Ok xs -> sharp (map (set_rxn mno) xs))
  /\ might_react mno polymorphs [split_off] together_again [0; 3] [2]
  /\ exists ys, find_intermediates mno (exact_solve mno) (exact_rank mno) (fun k => k) RxnSetCheck.arrange RxnSetCheck.argsort (fun l => l) RxnSetCheck.lifo_any (fun l => l) 10 10 0%Q polymorphs [split_off] together_again = Ok ys
       /\ map (fun r => map (fun i => Qred (turnover r i)) [0; 1; 2; 3; 4]) ys = [[-1; 0; 2; -1; 0]; [-1; -1; 3; 0; 0]]%Q.
Proof.
  split; [exact poly_ids|]. split; [exact poly_elems|]. split; [apply poly_names|]. split; [apply poly_names|]. split; [intros c [E|(? & E)]; [injection E as <-; reflexivity|discriminate]|]. split; [exact poly_target|]. split; [apply poly_mid; lia|]. split; [reflexivity|].
  split; [exact poly_lowest|]. split; [exact poly_sharp|]. split; [exact poly_might|exact poly_run].
Qed.

(* The option is documented as "crucial for finding pathways where intermediates react together". But a reaction between
   intermediates to an intermediate is not looked for, here Mn + 3 MnO2 -> 2 Mn2O3, although it is below the cutoff. *)
Theorem C137_to_intermediates_refuted : exists C ents rxns net0 r p es v, wf_chem C /\ of_entries ents net0 /\ (forall x, In x rxns -> of_entries ents x)
  /\ few r /\ few p /\ (forall i, In i r -> ~ In i p) /\ (forall i, In i (r ++ p) -> intermediate C ents rxns net0 i)
  /\ Forall2 (fun i e => nth_error ents i = Some e) (r ++ p) es /\ only_combination C (map (fun e => red C (e_comp e)) es) v /\ LinSpec.sides (length r) v /\ low C 0%Q (combine es v)
  /\ exists ys, find_intermediates C (exact_solve C) (exact_rank C) (fun k => k) RxnSetCheck.arrange RxnSetCheck.argsort (fun l => l) RxnSetCheck.lifo_any (fun l => l) 10 10 0%Q ents rxns net0 = Ok ys
  /\ forall y i, In y ys -> In i p -> (turnover y i <= 0)%Q.
Proof.
  exists mno, oxides, [split_up], comproportion, [0; 3], [1], [warm 0 0; warm 3 (-54 # 10); warm 1 (-10)], [-1; -3; 2]%Q. split; [exact mno_wf|]. split; [apply oxide_rxns|]. split; [intros x [<-|[]]; apply oxide_rxns|].
  split; [apply few_two; discriminate|]. split; [apply few_one|]. split; [intros i [<-|[<-|[]]] [H|[]]; discriminate|]. split; [intros i I; apply oxide_mid; cbn in I; lia|]. split; [repeat constructor|].
  split; [exact oxide_other|]. split; [exact oxide_other_sides|]. split; [vm_compute; reflexivity|]. destruct oxide_missed as (ys & E & H). exists ys. split; [exact E|]. intros y i Iy [<-|[]]. exact (H y Iy).
Qed.
Print Assumptions C137_to_intermediates_refuted.

(* A phase of the target's formula that is less stable does not turn into the target: the enumerator takes a reaction between
   phases of one formula for one that changes nothing, whatever the cutoff. Here the second MnO, which is made on the way. *)
Theorem C137_polymorph_refuted : exists C ents rxns net0 r p es v, wf_chem C /\ of_entries ents net0 /\ (forall x, In x rxns -> of_entries ents x)
  /\ might_react C ents rxns net0 r p /\ Forall2 (fun i e => nth_error ents i = Some e) (r ++ p) es /\ only_combination C (map (fun e => red C (e_comp e)) es) v /\ LinSpec.sides (length r) v /\ low C 0%Q (combine es v)
  /\ forall cutoff, In cutoff [0; 1]%Q -> exists ys, find_intermediates C (exact_solve C) (exact_rank C) (fun k => k) RxnSetCheck.arrange RxnSetCheck.argsort (fun l => l) RxnSetCheck.lifo_any (fun l => l) 10 10 cutoff ents rxns net0 = Ok ys
  /\ forall y i, In y ys -> In i r -> (0 <= turnover y i)%Q.
Proof.
  exists mno, polymorphs, [split_off], together_again, [4], [2], [{| e_id := 4; e_comp := 2; e_energy := (-3)%Q |}; warm 2 (-4)], [-1; 1]%Q. split; [exact mno_wf|]. split; [apply poly_rxns|]. split; [intros x [<-|[]]; apply poly_rxns|].
  split; [exact poly_change|]. split; [repeat constructor|]. split; [exact poly_change_only|]. split; [exact poly_change_sides|]. split; [vm_compute; reflexivity|].
  intros cutoff Hc. destruct (poly_unchanged cutoff Hc) as (ys & E & H). exists ys. split; [exact E|]. intros y i Iy [<-|[]]. exact (H y Iy).
Qed.
Print Assumptions C137_polymorph_refuted.
