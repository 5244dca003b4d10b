(* C94-C97: interpolated entries, molar fractions, new temperatures, reservoirs. *)
From Verif Require Import Prelude NumQ SumQ UtilsModel ReactionModel ReactionSpec ReactionCheck GibbsModel TempModel RxnMoreSpec RxnMoreProofs RxnMoreCheck.
Open Scope nat_scope.

(* C94. An interpolated entry equals itself and its copy at another temperature. *)
Theorem C94_refl : forall a t, interp_eq a a = true /\ interp_eq (interp_new_temperature a t) a = true.
Proof. exact interp_refl. Qed.
Print Assumptions C94_refl.

(* Equal entries have equal hashes and the comparison is symmetric, if both have ids
   that fix the composition and energies that are close are equal. *)
Theorem C94_hash_partial : forall a b,
  (isclose (ie_energy a) (ie_energy b) = true -> (ie_energy a == ie_energy b)%Q) -> ie_id a <> 0 -> ie_id b <> 0 ->
  (ie_id a = ie_id b -> ie_comp a = ie_comp b) ->
  interp_eq a b = true -> same_interp_hash a b /\ interp_eq b a = true.
Proof. exact interp_eq_hash. Qed.
Print Assumptions C94_hash_partial.

Example C94_demo : interp_eq (ientry_of 3 (-7#2)%Q 5) (ientry_of 3 (-14#4)%Q 5) = true
  /\ same_interp_hash (ientry_of 3 (-7#2)%Q 5) (ientry_of 3 (-14#4)%Q 5).
Proof. repeat split. Qed.

(* The comparison is not symmetric. *)
Theorem C94_symmetry_refuted : exists a b, interp_eq a b = true /\ interp_eq b a = false.
Proof. exact interp_asymmetric. Qed.
Print Assumptions C94_symmetry_refuted.
(* Equal entries whose energies differ by 1e-9 have different hashes. *)
Theorem C94_energy_refuted : exists a b, interp_eq a b = true /\ ie_comp a = ie_comp b /\ ie_id a = ie_id b /\ ~ same_interp_hash a b.
Proof. exact interp_close_hash. Qed.
Print Assumptions C94_energy_refuted.
(* Equal entries with the same id and another composition. *)
Theorem C94_id_refuted : exists a b, interp_eq a b = true /\ (ie_energy a == ie_energy b)%Q /\ ie_comp a <> ie_comp b /\ ~ same_interp_hash a b.
Proof. exact interp_id_hash. Qed.
Print Assumptions C94_id_refuted.

(* C95. The molar fractions of each side of a balanced reaction are the shares of its
   coefficients; an unbalanced reaction raises ValueError. *)
Theorem C95_molar_fractions : forall C cs ks fl n, let r := basic_init C cs ks fl n in
  (balanced r = false -> molar_fractions r (reactant_coeffs r) = Err ValueError /\ molar_fractions r (product_coeffs r) = Err ValueError)
  /\ (balanced r = true ->
      (reactants r = [] -> molar_fractions r (reactant_coeffs r) = Ok []) /\ (products r = [] -> molar_fractions r (product_coeffs r) = Ok [])
      /\ (reactants r <> [] -> exists fr, molar_fractions r (reactant_coeffs r) = Ok fr /\ shares (reactant_coeffs r) fr)
      /\ (products r <> [] -> exists fp, molar_fractions r (product_coeffs r) = Ok fp /\ shares (product_coeffs r) fp)).
Proof. exact molar_spec. Qed.
Print Assumptions C95_molar_fractions.

Example C95_demo : let r := basic_init demo [0; 7; 8] [-2#1; -1#1; 4#1]%Q None (Some 0) in
  balanced r = true /\ molar_fractions r (reactant_coeffs r) = Ok [(0, (2#3)%Q); (7, (1#3)%Q)].
Proof. vm_compute. split; reflexivity. Qed.

(* C96. Without a table a reaction at a new temperature is the reaction of its entries
   at that temperature; an open one has to be given None. *)
Theorem C96_entries : forall C warm es ks n ws, Forall2 (fun e w => warm e = Ok w) es ws ->
  computed_get_new_temperature C warm None (computed_init C es ks n) = Ok (computed_init C ws ks n)
  /\ computed_get_new_temperature C warm (Some None) (computed_init C es ks n) = Ok (computed_init C ws ks n)
  /\ forall mu, open_get_new_temperature C warm (Some None) (open_init C es ks mu n) = Ok (open_init C ws ks mu n).
Proof. exact closed_temperature. Qed.
Print Assumptions C96_entries.

(* With the table of a set of entries of distinct compositions that holds its entries:
   the same. *)
Theorem C96_table_partial : forall C warm set tws es ks n ws,
  Forall2 (fun e w => warm e = Ok w) set tws -> NoDup (map e_comp set) -> incl es set -> Forall2 (fun e w => warm e = Ok w) es ws ->
  exists table, table_at warm set = Ok table
  /\ computed_get_new_temperature C warm (Some (Some table)) (computed_init C es ks n) = Ok (computed_init C ws ks n)
  /\ forall mu, open_get_new_temperature C warm (Some (Some table)) (open_init C es ks mu n) = Ok (open_init C ws ks mu n).
Proof. exact table_temperature. Qed.
Print Assumptions C96_table_partial.

Example C96_demo : NoDup (map e_comp plain_set) /\ incl oxide_entries plain_set
  /\ bind (table_at warm_all_by_one plain_set) (fun t => bind (computed_get_new_temperature demo warm_all_by_one (Some (Some t)) (computed_init demo oxide_entries oxide_coeffs (Some 0)))
       (fun r => Ok (c_entries r))) = Ok [mk 2 4 (-1#1); mk 3 7 (-1#1); mk 1 0 (-7#1)]%Q.
Proof.
  split; [repeat constructor; cbn; lia|]. split; [intros e [<-|[<-|[<-|[]]]]; cbn; tauto|]. vm_compute. reflexivity.
Qed.

(* An open reaction cannot be asked for a new temperature the way a closed one can. *)
Theorem C96_open_refuted : forall C warm o, open_get_new_temperature C warm None o = Err TypeError.
Proof. exact open_needs_table. Qed.
Print Assumptions C96_open_refuted.
(* With a set that has a second polymorph of a composition, the reaction goes on with the
   wrong one. *)
Theorem C96_polymorph_refuted : exists C warm set table es ks n r ws, wf_chem C
  /\ (forall e, exists w, warm e = Ok w) /\ incl es set /\ table_at warm set = Ok table
  /\ computed_get_new_temperature C warm (Some (Some table)) (computed_init C es ks n) = Ok r
  /\ Forall2 (fun e w => warm e = Ok w) es ws /\ c_entries r <> ws
  /\ exists v v', computed_energy C r = Ok v /\ computed_energy C (computed_init C ws ks n) = Ok v' /\ ~ (v == v')%Q.
Proof. exact polymorph_witness. Qed.
Print Assumptions C96_polymorph_refuted.
(* With a table that misses a composition it fails although the entry could be warmed. *)
Theorem C96_missing_refuted : exists C warm set table es ks n, wf_chem C /\ (forall e, exists w, warm e = Ok w) /\ NoDup (map e_comp set)
  /\ table_at warm set = Ok table
  /\ computed_get_new_temperature C warm (Some (Some table)) (computed_init C es ks n) = Err AttributeError.
Proof. exact missing_witness. Qed.
Print Assumptions C96_missing_refuted.

(* C97. The energy of a conserving open reaction is the energy of the closed one in which
   each phase of an open element alone has its chemical potential as energy, if those
   phases have zero energy themselves. *)
Theorem C97_reservoir_partial : forall C, wf_chem C -> forall es es' ks mu n,
  conserving C (c_base (o_base (open_init C es ks mu n))) -> Forall2 (at_potential C mu) es es' ->
  (forall e, In e es -> pure_open C mu (e_comp e) -> (e_energy e == 0)%Q) ->
  exists v v', open_energy C (open_init C es ks mu n) = Ok v /\ computed_energy C (computed_init C es' ks n) = Ok v' /\ (v == v')%Q.
Proof. exact reservoir. Qed.
Print Assumptions C97_reservoir_partial.

Example C97_demo : conserving demo (c_base (o_base (open_init demo (peroxide_entries 0) peroxide_coeffs [(1, (-6#1)%Q)] (Some 0))))
  /\ Forall2 (at_potential demo [(1, (-6#1)%Q)]) (peroxide_entries 0) peroxide_at_potential
  /\ computed_energy demo (computed_init demo peroxide_at_potential peroxide_coeffs (Some 0)) = Ok (8#1)%Q.
Proof. split; [apply peroxide_conserving|]. split; [apply peroxide_potential|]. vm_compute. reflexivity. Qed.

(* With O2 at -1 instead the energies differ. *)
Theorem C97_nonzero_refuted : exists C es es' ks mu n v v', wf_chem C /\ conserving C (c_base (o_base (open_init C es ks mu n)))
  /\ Forall2 (at_potential C mu) es es' /\ open_energy C (open_init C es ks mu n) = Ok v /\ computed_energy C (computed_init C es' ks n) = Ok v' /\ ~ (v == v')%Q.
Proof. exact reservoir_witness. Qed.
Print Assumptions C97_nonzero_refuted.
