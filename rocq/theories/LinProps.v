(* C121: balancing, with the pseudo-inverse and the rank computed exactly. *)
From Verif Require Import Prelude NumQ SumQ UtilsModel UtilsSpec ReactionModel ReactionSpec EnumModel EnumSpec EnumLinkModel EnumCheck RxnSetCheck LinModel LinSpec LinProofs LinBalanceProofs LinCheck.
Open Scope nat_scope.

(* The modelled pseudo-inverse gives the shortest of the least squares solutions, for each
   of the constraints that are tried. *)
Theorem C121_pinv_partial : forall C rs ps rank c, tried (length rs) (length ps) rank c ->
  shortest_fit C (rs ++ ps) (length rs) c (exact_solve C rs ps c).
Proof.
  exact (fun C rs ps rank c H => exact_solve_fits C rs ps c (eq_ind_r (fun n => one_side n (length rs) c) (tried_side _ _ _ _ H) (app_length rs ps))).
Qed.
Print Assumptions C121_pinv_partial.

(* With any least squares solver and any rank that is not too small, a reaction that is the
   only combination of its species is found, whatever the sides say; the number of errors is
   0 exactly if the species are on the right sides, in one direction or the other. *)
Theorem C121_determined_partial : forall C rs ps v solve rank, wf_chem C -> only_combination C (rs ++ ps) v ->
  2 <= length rs + length ps -> length rs + length ps <= S rank ->
  (forall c, tried (length rs) (length ps) rank c -> best_fit C (rs ++ ps) (length rs) c (solve c)) ->
  exists r t, basic_balance C rs ps solve rank = Ok r /\ comps r = rs ++ ps /\ balanced r = true /\ ~ (t == 0)%Q /\ multiple t v (coeffs r)
  /\ (exists i, i < length (coeffs r) /\ (nth i (coeffs r) 0 == if length rs <=? i then 1 else -1)%Q)
  /\ (num_errors r = Some 0 <-> sides (length rs) v \/ sides (length rs) (map Qopp v)).
Proof. exact (fun C rs ps v solve rank W => determined_balance C W rs ps v solve rank). Qed.
Print Assumptions C121_determined_partial.

(* The exact pseudo-inverse and rank satisfy these conditions. *)
Theorem C121_exact_partial : forall C rs ps v, wf_chem C -> only_combination C (rs ++ ps) v -> 2 <= length rs + length ps ->
  exists r t, exact_balance C rs ps = Ok r /\ comps r = rs ++ ps /\ balanced r = true /\ ~ (t == 0)%Q /\ multiple t v (coeffs r)
  /\ (exists i, i < length (coeffs r) /\ (nth i (coeffs r) 0 == if length rs <=? i then 1 else -1)%Q)
  /\ (num_errors r = Some 0 <-> sides (length rs) v \/ sides (length rs) (map Qopp v)).
Proof. exact (fun C rs ps v W => exact_determined C W rs ps v). Qed.
Print Assumptions C121_exact_partial.

Example C121_exact_demo : only_combination mno ([0; 1] ++ [2]) [(-1)%Q; (-1)%Q; 3%Q] /\ sides 2 [(-1)%Q; (-1)%Q; 3%Q] /\ mn_balanced = true.
Proof. exact (conj mn_only (conj mn_sides (eq_refl true))). Qed.

(* The enumerator lists every determined reaction between few enough of its phases. *)
Theorem C121_enumerated_partial : forall C ent {D} (diagram : list nat -> D) o entries pre tar wait, wf_chem C ->
  (forall c e, In e (ReactionModel.elems C c) -> (1 # 100 < amt C (red C c) e)%Q) -> (forall i, e_id (ent i) = i) ->
  NoDup entries -> (forall e, In e entries -> ReactionModel.elems C (e_comp (ent e)) <> []) -> o_changed o = true ->
  1 <= o_chunk o -> 1 <= o_jobs o -> 1 <= o_constraints o -> valid_schedule wait ->
  exists out, enumerate_rxns (fun i => ReactionModel.elems C (e_comp (ent i))) basic_iterable basic_iter_length
                (basic_react (forward_rxn C ent (entry_solve C ent) (entry_rank C ent)) (backward_rxn C ent (entry_solve C ent) (entry_rank C ent)))
                diagram o entries pre tar [] [] wait = Ok out
  /\ forall r p, subseq r entries -> subseq p entries -> 1 <= length r <= o_n o -> 1 <= length p <= o_n o ->
       determined C (formula C ent) r p -> system_ok (fun i => ReactionModel.elems C (e_comp (ent i))) o [] r ->
       option_met (o_pfunc o) pre [] r -> option_met (o_tfunc o) tar [] p ->
       exists x, In x out /\ same_set (er_reactants x) r /\ same_set (er_products x) p
       /\ er_balanced x = true /\ er_errors x = Some 0 /\ er_identity x = false.
Proof. exact (fun C ent D diagram o entries pre tar wait W Hb Hi => determined_enumerated C W ent Hb Hi diagram o entries pre tar wait). Qed.
Print Assumptions C121_enumerated_partial.

Example C121_enumerated_demo : determined mno (formula mno plain_entry) [0; 1] [2]
  /\ system_ok (fun i => ReactionModel.elems mno (e_comp (plain_entry i))) (mn_options 1) [] [0; 1]
  /\ mn_found 1 = [([1], [2; 3]); ([2; 3], [1]); ([2], [0; 1]); ([0; 1], [2]); ([2], [0; 3]); ([0; 3], [2]); ([1], [0; 3]); ([0; 3], [1])].
Proof. exact (conj mn_determined (conj (mn_system 1) eq_refl)). Qed.

(* Species that leave two degrees of freedom: Mn + 2 Mn2O3 -> 4 MnO + MnO2 conserves the
   elements, but another combination of the four is returned, with one error. *)
Theorem C121_choice_refuted : exists C rs ps v r, wf_chem C /\ NoDup (rs ++ ps) /\ conserves C (rs ++ ps) v /\ sides (length rs) v
  /\ exact_balance C rs ps = Ok r /\ balanced r = true /\ num_errors r = Some 1 /\ ~ sides (length rs) (coeffs r).
Proof. exact missed_reaction. Qed.
Print Assumptions C121_choice_refuted.

(* The enumerator does not list it either, although two degrees of freedom are allowed. *)
Theorem C121_enumerator_refuted : exists C ent o entries v out, wf_chem C /\ o_constraints o = 2 /\ o_n o = 2 /\ (forall i, e_id (ent i) = i)
  /\ NoDup (map (formula C ent) entries)
  /\ conserves C (map (formula C ent) [0; 1; 2; 3]) v /\ sides 2 v /\ entries = [0; 1; 2; 3]
  /\ enumerate_rxns (fun i => ReactionModel.elems C (e_comp (ent i))) basic_iterable basic_iter_length
       (basic_react (forward_rxn C ent (entry_solve C ent) (entry_rank C ent)) (backward_rxn C ent (entry_solve C ent) (entry_rank C ent)))
       (fun k => k) o entries [] [] [] [] lifo_any = Ok out
  /\ out <> [] /\ ~ exists x, In x out /\ same_set (er_reactants x) [0; 1] /\ same_set (er_products x) [2; 3].
Proof. exact missed_by_enumerator. Qed.
Print Assumptions C121_enumerator_refuted.
