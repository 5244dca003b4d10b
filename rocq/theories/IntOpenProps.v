(* C151: looking for reactions between the intermediates when an element is open. *)
From Verif Require Import Prelude NumQ SumQ UtilsModel UtilsSpec ReactionModel ReactionSpec EnumModel EnumSpec EnumLinkModel RxnSetModel RxnSetSpec LinModel LinSpec LinProofs LinCheck FreeSpec SolveJobModel SolveJobSpec ChainFindSpec MinSpec JoinModel JoinSpec
  MinJoinModel MinJoinSpec MinJoinCheck IntModel IntSpec CoefProofs IntProofs IntCheck IntMinModel IntMinSpec IntOpenModel IntOpenSpec IntOpenProofs IntOpenCheck.
From Verif Require RxnSetCheck.
Open Scope list_scope.
Open Scope nat_scope.

(* --- C151 --- *)
(* With an open element, the search gives reactions for this element and its chemical potential, each once, whose change of
   the grand potential per atom of the other elements is below the cutoff: those of C148, and with the first option also
   those that take up or give off the open element. Every such reaction that its phases determine is among them up to a
   factor. The grand potential is the program's, in which the open element alone keeps its energy (C97). The
   reactions of the enumerator that minimises the grand potential are not among them (C48). Missing: as for C148, and
   targets of the open element alone. *)
Theorem C151_open_partial : forall C, wf_chem C -> (forall c e, In e (ReactionModel.elems C c) -> (1 # 100 < amt C (red C c) e)%Q) ->
  forall ents, (forall i e, nth_error ents i = Some e -> e_id e = i) -> (forall i e, nth_error ents i = Some e -> ReactionModel.elems C (e_comp e) <> []) ->
  forall rxns net0, names_entries ents net0 -> (forall r, In r rxns -> names_entries ents r) -> (forall r, In r rxns -> each_with_amount r) ->
  (forall i j a b, target net0 i -> intermediate C ents rxns net0 j -> nth_error ents i = Some a -> nth_error ents j = Some b -> red C (e_comp b) = red C (e_comp a) -> j = i \/ (e_energy a / natoms C (e_comp a) < e_energy b / natoms C (e_comp b))%Q) ->
  (exists t, target net0 t) ->
  forall el gas mu, (forall t, target net0 t -> exists x, occurs C ents t x /\ x <> el) ->
  forall D P (diagram : list nat -> D) wait, valid_schedule wait -> forall owait, valid_schedule owait -> forall (build : list nat -> result P) kinks pair_order, (forall l, Permutation (pair_order l) l) -> forall mwait, valid_schedule mwait ->
  forall arrange, arranges arrange -> forall argsort, (forall l, Permutation (argsort l) (seq 0 (length l))) -> forall shuffle, (forall l, Permutation (shuffle l) l) ->
  forall order, (forall l, Permutation (order l) l) -> forall chunk jobs mchunk mjobs, 1 <= chunk -> 1 <= jobs -> 1 <= mchunk -> 1 <= mjobs -> forall grand cutoff (ub um : bool),
  (um = true -> kinks_make_sense C ents rxns net0 build kinks) -> (um = true -> tidy_kinks kinks) ->
  (um = true -> forall targets mids, targets_of net0 = Ok targets -> intermediates C order ents rxns targets = Ok mids ->
     exists s, grand mids (map e_id targets) = Ok s /\ well_formed s /\ r_entries s = arrange (map (in_set C (with_index ents)) mids)) ->
  (forall targets mids xb xo xm, targets_of net0 = Ok targets -> intermediates C order ents rxns targets = Ok mids ->
     (if ub then basic_objects C (exact_solve C) (exact_rank C) diagram wait chunk jobs ents mids (map e_id targets) else Ok []) = Ok xb ->
     (if ub then gas_objects C (exact_solve C) (exact_rank C) diagram owait chunk jobs gas ents mids (map e_id targets) else Ok []) = Ok xo ->
     (if um then min_objects C (exact_solve C) (exact_rank C) build kinks pair_order mwait mchunk mjobs ents mids (map e_id targets) else Ok []) = Ok xm -> sharp (map (set_rxn C) (xb ++ xo ++ xm))) ->
  exists ys, find_open C (exact_solve C) (exact_rank C) diagram build kinks pair_order arrange argsort shuffle wait owait mwait order chunk jobs mchunk mjobs grand el mu gas cutoff ub um ents rxns net0 = Ok ys
  /\ (forall y, In y ys -> open_of_entries ents el mu y /\ (distinct C (parts y) -> grand_low C el mu cutoff (parts y))
       /\ exists r p, ((ub = true /\ (might_react C ents rxns net0 r p \/ gas_reacts C ents rxns net0 gas r p)) \/ (um = true /\ kink_between C ents rxns net0 build kinks r p)) /\ turns_into C r p y /\ one_way C (formula_at C ents) (r ++ p))
  /\ (forall r p es v, ((ub = true /\ (might_react C ents rxns net0 r p \/ gas_reacts C ents rxns net0 gas r p)) \/ (um = true /\ sure_kink C ents rxns net0 build kinks r p)) -> Forall2 (fun i e => nth_error ents i = Some e) (r ++ p) es -> NoDup (map (fun e => red C (e_comp e)) es) ->
       only_combination C (map (fun e => red C (e_comp e)) es) v -> LinSpec.sides (length r) v -> grand_low C el mu cutoff (combine es v) ->
       exists y k, In y ys /\ (0 < k)%Q /\ (forall j i a, nth_error (r ++ p) j = Some i -> nth_error v j = Some a -> (turnover y i == k * a)%Q) /\ forall i, ~ In i (r ++ p) -> (turnover y i == 0)%Q)
  /\ ForallOrdPairs (fun x y => ~ ChainFindSpec.proportional x y) ys.
Proof. exact open_spec. Qed.
Print Assumptions C151_open_partial.

(* The manganese oxides and O2 in air: 2 MnO2 -> 2 MnO + O2 gains nothing in a closed system, but it does when oxygen is open. *)
Example C151_demo : wf_chem airy /\ (forall c e, In e (ReactionModel.elems airy c) -> (1 # 100 < amt airy (red airy c) e)%Q)
  /\ (forall i e, nth_error in_air i = Some e -> e_id e = i) /\ (forall i e, nth_error in_air i = Some e -> ReactionModel.elems airy (e_comp e) <> [])
  /\ names_entries in_air back_together /\ (forall r, In r [split_in_air] -> names_entries in_air r) /\ (forall r, In r [split_in_air] -> each_with_amount r)
  /\ (forall i j a b, target back_together i -> intermediate airy in_air [split_in_air] back_together j -> nth_error in_air i = Some a -> nth_error in_air j = Some b -> red airy (e_comp b) = red airy (e_comp a) -> j = i \/ (e_energy a / natoms airy (e_comp a) < e_energy b / natoms airy (e_comp b))%Q)
  /\ (exists t, target back_together t) /\ (forall t, target back_together t -> exists x, occurs airy in_air t x /\ x <> 1)
  /\ kinks_make_sense airy in_air [split_in_air] back_together free_build mn_kinks /\ tidy_kinks mn_kinks
  /\ (forall targets mids, targets_of back_together = Ok targets -> intermediates airy (fun l => l) in_air [split_in_air] targets = Ok mids ->
       exists s, no_grand mids (map e_id targets) = Ok s /\ well_formed s /\ r_entries s = RxnSetCheck.arrange (map (in_set airy (with_index in_air)) mids))
  /\ (forall (ub um : bool) targets mids xb xo xm, targets_of back_together = Ok targets -> intermediates airy (fun l => l) in_air [split_in_air] targets = Ok mids ->
       (if ub then basic_objects airy (exact_solve airy) (exact_rank airy) (fun k => k) RxnSetCheck.lifo_any 10 10 in_air mids (map e_id targets) else Ok []) = Ok xb ->
       (if ub then gas_objects airy (exact_solve airy) (exact_rank airy) (fun k => k) RxnSetCheck.lifo_any 10 10 4 in_air mids (map e_id targets) else Ok []) = Ok xo ->
       (if um then min_objects airy (exact_solve airy) (exact_rank airy) free_build mn_kinks (fun l => l) RxnSetCheck.lifo_any 10 10 in_air mids (map e_id targets) else Ok []) = Ok xm -> sharp (map (set_rxn airy) (xb ++ xo ++ xm)))
  /\ gas_reacts airy in_air [split_in_air] back_together 4 [3] [2; 4] /\ sure_kink airy in_air [split_in_air] back_together free_build mn_kinks [0; 3] [2]
  /\ only_combination airy [3; 2; 4] [-2; 2; 1]%Q /\ LinSpec.sides 1 [-2; 2; 1]%Q
  /\ grand_low airy 1 (-3) 0 (combine [warm 3 (-54 # 10); warm 2 (-4); warm 4 0] [-2; 2; 1])%Q /\ ~ low airy 0 (combine [warm 3 (-54 # 10); warm 2 (-4); warm 4 0] [-2; 2; 1])%Q.
Proof.
  split; [exact airy_wf|]. split; [exact airy_big|]. split; [exact air_ids|]. split; [exact air_elems|]. split; [apply air_names|]. split; [intros r [<-|[]]; apply air_names|]. split; [intros r [<-|[]]; exact air_full|].
  split; [exact air_once|]. split; [exists 2; exact air_target|]. split; [exact air_contains|]. split; [exact air_kinks|]. split; [exact mn_tidy|]. split; [exact air_grand|]. split; [exact air_sharp|]. split; [exact air_reacts|]. split; [exact air_sure|]. split; [exact air_only|]. split; [exact air_sides|exact air_low].
Qed.

(* With both options, with the first and with the second alone: the amounts of Mn, Mn2O3, MnO, MnO2 and O2. *)
Example C151_demo_runs :
  let run ub um := find_open airy (exact_solve airy) (exact_rank airy) (fun k => k) free_build mn_kinks (fun l => l) RxnSetCheck.arrange RxnSetCheck.argsort (fun l => l) RxnSetCheck.lifo_any RxnSetCheck.lifo_any RxnSetCheck.lifo_any (fun l => l) 10 10 10 10 no_grand 1 (-3)%Q 4 0%Q ub um in_air [split_in_air] back_together in
  let rows ys := map (fun r => map (fun i => Qred (turnover r i)) [0; 1; 2; 3; 4]) ys in
  (exists ys, run true true = Ok ys /\ rows ys = [[-1; 0; 1; 0; -1 # 2]; [0; 0; 1; -1; 1 # 2]; [-1 # 3; -1 # 3; 1; 0; 0]; [-1 # 2; 0; 1; -1 # 2; 0]; [0; -1 # 2; 1; 0; 1 # 4]]%Q)
  /\ (exists ys, run true false = Ok ys /\ rows ys = [[-1; -1; 3; 0; 0]; [-1; 0; 2; -1; 0]; [-1; 0; 1; 0; -1 # 2]; [0; 0; 1; -1; 1 # 2]; [0; -1 # 2; 1; 0; 1 # 4]]%Q)
  /\ exists ys, run false true = Ok ys /\ rows ys = [[-1 # 3; -1 # 3; 1; 0; 0]; [-1 # 2; 0; 1; -1 # 2; 0]]%Q.
Proof. exact air_runs. Qed.
