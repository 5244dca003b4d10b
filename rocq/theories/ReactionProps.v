(* C07-C16, C63, C64: theorems about reactions. *)
From Coq Require Import String.
From Verif Require Import Prelude NumQ SumQ UtilsSpec ReactionModel ReactionSpec ReactionBalanceProofs ReactionOpsProofs
  ReactionLawProofs ReactionEqProofs ReactionDataModel ReactionDataProofs ChemTable ReactionCheck.
Open Scope list_scope.
Open Scope nat_scope.

(* --- C07 --- *)
Theorem C07_balance_sound : forall C rs ps solve rank r, wf_chem C ->
  (forall c, length (solve c) = length rs + length ps) ->
  basic_balance C rs ps solve rank = Ok r ->
  comps r = rs ++ ps /\ length (coeffs r) = length (comps r)
  /\ (balanced r = true ->
       (forall e, (Qabs (net C (species r) e) <= 1 # 100000000)%Q)
       /\ num_errors r = Some (wrong_signs (length rs) (coeffs r))
       /\ (num_errors r = Some 0 -> forall i k, nth_error (coeffs r) i = Some k ->
            (i < length rs -> (k <= -(1 # 1000000))%Q) /\ (length rs <= i -> ((1 # 1000000) <= k)%Q)))
  /\ (balanced r = false -> num_errors r = None /\ forall k, In k (coeffs r) -> k = 0%Q).
Proof. exact (fun C rs ps solve rank r W => balance_sound C W rs ps solve rank r). Qed.
Print Assumptions C07_balance_sound.

(* A conserving candidate is never overlooked. *)
Theorem C07_balance_complete : forall C rs ps solve rank c, wf_chem C ->
  (forall c, length (solve c) = length rs + length ps) -> length rs + length ps <> 1 ->
  tried (length rs) (length ps) rank c ->
  (forall e, (Qabs (net C (combine (rs ++ ps) (solve c)) e) <= 1 # 100000000)%Q) ->
  exists r n, basic_balance C rs ps solve rank = Ok r /\ balanced r = true
  /\ num_errors r = Some n /\ n <= wrong_signs (length rs) (solve c).
Proof. exact (fun C rs ps solve rank c W => balance_complete C W rs ps solve rank c). Qed.
Print Assumptions C07_balance_complete.

Example C07_titanate : exists r, basic_balance demo [9; 10] [11; 12] (fun _ => [-1#1; -1#1; 1#1; 1#1]%Q) 3 = Ok r
  /\ balanced r = true /\ num_errors r = Some 0 /\ wf_chem demo.
Proof. eexists. split; [vm_compute; reflexivity|]. split; [reflexivity|]. split; [reflexivity|apply demo_wf]. Qed.

(* --- C08 --- *)
(* Full claim: balanced = False whenever no conserving combination is found. Refuted;
   proved: when one is found, the reaction returned is balanced and conserves. *)
Theorem C08_found_partial : forall C rs ps solve rank c, wf_chem C ->
  let rc := map (fun e => red C (e_comp e)) rs in
  let pc := map (fun e => red C (e_comp e)) ps in
  NoDup (rc ++ pc) ->
  (forall c, length (solve c) = length rs + length ps) -> length rs + length ps <> 1 ->
  tried (length rs) (length ps) rank c ->
  (forall e, (Qabs (net C (combine (rc ++ pc) (solve c)) e) <= 1 # 100000000)%Q) ->
  exists r n, computed_balance C rs ps solve rank = Ok r /\ balanced (c_base r) = true
  /\ num_errors (c_base r) = Some n
  /\ (forall e, (Qabs (net C (species (c_base r)) e) <= 1 # 100000000)%Q).
Proof. exact (fun C rs ps solve rank c W => computed_balance_found C W rs ps solve rank c). Qed.
Print Assumptions C08_found_partial.

Theorem C08_unbalanceable_refuted : exists C rs ps solve rank r, wf_chem C
  /\ (forall c, length (solve c) = length rs + length ps)
  /\ (forall c, tried (length rs) (length ps) rank c ->
       exists e, (1 # 100000000 < Qabs (net C (combine (map (fun e => red C (e_comp e)) (rs ++ ps)) (solve c)) e))%Q)
  /\ computed_balance C rs ps solve rank = Ok r /\ balanced (c_base r) = true.
Proof. exact unbalanceable_witness. Qed.
Print Assumptions C08_unbalanceable_refuted.

(* The defect is not an edge case: it happens for every unbalanceable reaction, and
   BasicReaction.balance answers correctly. *)
Theorem C08_always_flagged_balanced : forall C rs ps solve rank, wf_chem C ->
  let rc := map (fun e => red C (e_comp e)) rs in
  let pc := map (fun e => red C (e_comp e)) ps in
  (forall c, length (solve c) = length rs + length ps) -> length rs + length ps <> 1 ->
  (forall c, tried (length rs) (length ps) rank c ->
     exists e, (1 # 100000000 < Qabs (net C (combine (rc ++ pc) (solve c)) e))%Q) ->
  (exists b, basic_balance C rc pc solve rank = Ok b /\ balanced b = false)
  /\ exists r, computed_balance C rs ps solve rank = Ok r /\ balanced (c_base r) = true
  /\ num_errors (c_base r) = None /\ forall k, In k (coeffs (c_base r)) -> k = 0%Q.
Proof. exact (fun C rs ps solve rank W => computed_balance_not_found C W rs ps solve rank). Qed.
Print Assumptions C08_always_flagged_balanced.

Example C08_titanate : exists r, computed_balance demo [mk 0 9 0; mk 1 10 0] [mk 2 11 0; mk 3 12 0]
    (fun _ => [-1#1; -1#1; 1#1; 1#1]%Q) 3 = Ok r /\ balanced (c_base r) = true.
Proof. eexists. split; vm_compute; reflexivity. Qed.

(* --- C09 --- *)
(* Full claim: also for repeated compositions (refuted below). *)
Theorem C09_flag_iff_partial : forall C cs ks n, wf_chem C -> NoDup cs -> length cs = length ks ->
  balanced (basic_init C cs ks None n) = true
  <-> forall e, (Qabs (produced C (combine cs ks) e - consumed C (combine cs ks) e) <= 1 # 1000000)%Q.
Proof. exact (fun C cs ks n W => flag_iff C W cs ks n). Qed.
Print Assumptions C09_flag_iff_partial.

Theorem C09_repeated_refuted : exists C cs ks n, wf_chem C /\ length cs = length ks
  /\ (forall e, (Qabs (produced C (combine cs ks) e - consumed C (combine cs ks) e) <= 1 # 1000000)%Q)
  /\ balanced (basic_init C cs ks None n) = false.
Proof. exact repeated_witness. Qed.
Print Assumptions C09_repeated_refuted.

Example C09_titanate : NoDup (comps titanate) /\ balanced titanate = true
  /\ balanced (basic_init demo [9; 10; 11; 12] [-1#1; -1#1; 1#1; 2#1]%Q None None) = false.
Proof. split; [repeat constructor; simpl; lia|]. vm_compute. split; reflexivity. Qed.

(* --- C10 --- *)
(* The energies are stated for ComputedReaction: a BasicReaction has none, and for an
   OpenComputedReaction the claim is refuted below. *)
Theorem C10_normalize_to_partial : forall C r c k f, built C r ->
  get_coeff (base_of r) c = Ok k -> ~ (k == 0)%Q -> (0 < f)%Q ->
  exists r' s k', normalize_to C r c f = Ok r' /\ (0 < s)%Q /\ rescaled s r r'
  /\ get_coeff (base_of r') c = Ok k' /\ (Qabs k' == f)%Q /\ (k' == k * s)%Q
  /\ (forall kd, r = RComputed kd ->
        same_value (energy C r') (bind (energy C r) (fun e => Ok (s * e)%Q))
        /\ same_value (energy_per_atom C r') (energy_per_atom C r)).
Proof. exact normalize_to_spec. Qed.
Print Assumptions C10_normalize_to_partial.

Theorem C10_normalize_to_element_partial : forall C r e f, wf_chem C -> built C r ->
  ~ (get_el_amount C (base_of r) e == 0)%Q -> (0 < f)%Q ->
  exists r' s, normalize_to_element C r e f = Ok r' /\ (0 < s)%Q /\ rescaled s r r'
  /\ (get_el_amount C (base_of r') e == f)%Q
  /\ (forall kd, r = RComputed kd ->
        same_value (energy C r') (bind (energy C r) (fun x => Ok (s * x)%Q))
        /\ same_value (energy_per_atom C r') (energy_per_atom C r)).
Proof. exact (fun C r e f W => normalize_to_element_spec C W r e f). Qed.
Print Assumptions C10_normalize_to_element_partial.

(* The amount of an element is what each side of the reaction contains. *)
Theorem C10_el_amount : forall C r e, conserving C r -> (get_el_amount C r e == produced C (species r) e)%Q /\ (get_el_amount C r e == consumed C (species r) e)%Q.
Proof. exact el_amount_sides. Qed.
Print Assumptions C10_el_amount.

Theorem C10_missing_composition : forall C r c f, built C r ->
  ~ In c (comps (base_of r)) -> normalize_to C r c f = Err ValueError.
Proof. exact normalize_to_missing. Qed.
Print Assumptions C10_missing_composition.

(* Full claim for the flag: it never changes. Proved for reactions that conserve the
   elements exactly; refuted for imbalances near the tolerance. *)
Theorem C10_stays_balanced_partial : forall C r c f r', wf_chem C -> built C r -> NoDup (comps (base_of r)) ->
  conserving C (base_of r) -> normalize_to C r c f = Ok r' -> balanced (base_of r') = true.
Proof. exact (fun C r c f r' W => normalize_to_balanced C W r c f r'). Qed.
Print Assumptions C10_stays_balanced_partial.

Theorem C10_flag_refuted : exists C r c f r', wf_chem C /\ built C r /\ balanced (base_of r) = true
  /\ normalize_to C r c f = Ok r' /\ balanced (base_of r') = false.
Proof. exact flag_witness. Qed.
Print Assumptions C10_flag_refuted.

(* Full claim for the errors: the number the balancing left is kept. A BasicReaction
   forgets it. *)
Theorem C10_errors_partial : forall C r c e f r', (normalize_to C r c f = Ok r' \/ normalize_to_element C r e f = Ok r') ->
  (forall b, r <> RBasic b) -> num_errors (base_of r') = num_errors (base_of r).
Proof. exact errors_kept. Qed.
Print Assumptions C10_errors_partial.
Theorem C10_errors_refuted : forall C b c e f r', (normalize_to C (RBasic b) c f = Ok r' \/ normalize_to_element C (RBasic b) e f = Ok r') ->
  num_errors (base_of r') = Some 0.
Proof. exact errors_forgotten. Qed.
Print Assumptions C10_errors_refuted.
Example C10_errors_demo : exists r', normalize_to demo (RBasic (basic_init demo [9; 10; 11; 12] [-1; -1; 1; 1]%Q None (Some 2))) 12 (3#1) = Ok r'
  /\ num_errors (base_of r') = Some 0.
Proof. eexists. split; vm_compute; reflexivity. Qed.

Theorem C10_open_energy_refuted : exists C o c k f r' e e', wf_chem C /\ built C (ROpen o)
  /\ get_coeff (c_base (o_base o)) c = Ok k /\ ~ (k == 0)%Q /\ (0 < f)%Q
  /\ normalize_to C (ROpen o) c f = Ok r' /\ (forall o', r' <> ROpen o')
  /\ energy_per_atom C (ROpen o) = Ok e /\ energy_per_atom C r' = Ok e' /\ ~ (e == e')%Q.
Proof. exact open_normalize_witness. Qed.
Print Assumptions C10_open_energy_refuted.

Example C10_titanate : built demo (RBasic titanate) /\ get_coeff titanate 12 = Ok (1#1)%Q
  /\ (get_el_amount demo titanate 1 == 5)%Q.
Proof.
  split; [exists [9; 10; 11; 12], [-1#1; -1#1; 1#1; 1#1]%Q, None, (Some 0); split; reflexivity|].
  split; vm_compute; reflexivity.
Qed.

(* --- C11 --- *)
Theorem C11_reverse : forall C r, built C r ->
  reactants (base_of (reverse C r)) = products (base_of r)
  /\ products (base_of (reverse C r)) = reactants (base_of r)
  /\ comps (base_of (reverse C r)) = comps (base_of r)
  /\ coeffs (base_of (reverse C r)) = map Qopp (coeffs (base_of r))
  /\ balanced (base_of (reverse C r)) = balanced (base_of r)
  /\ num_errors (base_of (reverse C r)) = num_errors (base_of r)
  /\ entries_of (reverse C r) = entries_of r
  /\ same_value (energy C (reverse C r)) (bind (energy C r) (fun e => Ok (- e)%Q))
  /\ reverse C (reverse C r) = r.
Proof. exact reverse_spec. Qed.
Print Assumptions C11_reverse.

Theorem C11_copy : forall C r, built C r -> copy C r = r.
Proof. exact copy_spec. Qed.
Print Assumptions C11_copy.

Example C11_open : built demo (ROpen lio_open) /\ reactants (base_of (reverse demo (ROpen lio_open))) = [8].
Proof.
  split; [exists lio_entries, [-2#1; -1#1; 2#1]%Q, [(1, (-6#1)%Q)], (Some 0); split; reflexivity|].
  vm_compute. reflexivity.
Qed.

(* --- C12 --- *)
Theorem C12_energy_sum : forall C es ks n,
  exists e g, computed_energy C (computed_init C es ks n) = Ok e
  /\ (e == sumQ (fun ck => snd ck * g (fst ck)) (species (c_base (computed_init C es ks n))))%Q
  /\ forall c, In c (comps (c_base (computed_init C es ks n))) -> lowest C e_energy es c (g c).
Proof. exact computed_energy_spec. Qed.
Print Assumptions C12_energy_sum.

Theorem C12_cell_size : forall C es es' ks n,
  Forall2 (fun e e' => red C (e_comp e) = red C (e_comp e')
           /\ (e_energy e / fac C (e_comp e) == e_energy e' / fac C (e_comp e'))%Q) es es' ->
  exists v v', computed_energy C (computed_init C es ks n) = Ok v
  /\ computed_energy C (computed_init C es' ks n) = Ok v' /\ (v == v')%Q.
Proof. exact energy_same_cells. Qed.
Print Assumptions C12_cell_size.

Theorem C12_scaling : forall C es ks n n' s, (0 < s)%Q ->
  same_value (computed_energy C (computed_init C es (map (fun q => q * s)%Q ks) n'))
             (bind (computed_energy C (computed_init C es ks n)) (fun e => Ok (s * e)%Q))
  /\ same_value (computed_energy_per_atom C (computed_init C es (map (fun q => q * s)%Q ks) n'))
                (computed_energy_per_atom C (computed_init C es ks n)).
Proof. exact computed_scaled_energy. Qed.
Print Assumptions C12_scaling.

(* Li2 and Li are the same species; the cheaper entry counts. *)
Example C12_polymorphs : exists e,
  computed_energy demo (computed_init demo [mk 0 5 (-4#1); mk 1 4 (-1#1); mk 2 7 0; mk 3 8 (-12#1)]
                          [-1#1; -1#1; -1#1; 2#1]%Q None) = Ok e /\ (e == -20)%Q.
Proof. eexists. split; [vm_compute; reflexivity|]. vm_compute. reflexivity. Qed.

(* --- C13 --- *)
(* Full claim: for all reactions (refuted). Proved: for reactions that are multiples
   of each other; and the sides agree. *)
Theorem C13_proportional_partial : forall C r1 r2 s, clean C r1 -> clean C r2 -> (0 < s)%Q -> proportional s r1 r2 ->
  basic_eq C r1 r2 = Ok true ->
  forall c k, In (c, k) (species r1) -> In (c, k * s)%Q (species r2) /\ isclose k (k * s) = true.
Proof. exact eq_proportional. Qed.
Print Assumptions C13_proportional_partial.

Theorem C13_same_sides_partial : forall C r1 r2, clean C r1 -> clean C r2 -> basic_eq C r1 r2 = Ok true ->
  (forall c, In c (reactants r1) <-> In c (reactants r2)) /\ (forall c, In c (products r1) <-> In c (products r2)).
Proof. exact eq_same_sides. Qed.
Print Assumptions C13_same_sides_partial.

(* Reactions with energies are equal exactly if they are equal without and their energies per atom are close. *)
Theorem C13_energies : forall C r1 r2, computed_eq C r1 r2 = Ok true <->
  basic_eq C (c_base r1) (c_base r2) = Ok true
  /\ exists e1 e2, computed_energy_per_atom C r1 = Ok e1 /\ computed_energy_per_atom C r2 = Ok e2
     /\ (Qabs (e1 - e2) <= (1 # 100000000) + (1 # 100000) * Qabs e2)%Q.
Proof. exact computed_eq_iff. Qed.
Print Assumptions C13_energies.

Example C13_energies_demo : basic_eq demo (c_base ozonide1) (c_base ozonide3) = Ok true
  /\ computed_eq demo ozonide1 ozonide1 = Ok true /\ computed_eq demo ozonide1 ozonide3 = Ok false.
Proof. exact energies_differ. Qed.

Theorem C13_exchanged_refuted : exists C r1 r2 c k1 k2, wf_chem C
  /\ conserving C (c_base r1) /\ conserving C (c_base r2)
  /\ NoDup (comps (c_base r1)) /\ NoDup (comps (c_base r2))
  /\ computed_eq C r1 r2 = Ok true /\ basic_eq C (c_base r1) (c_base r2) = Ok true
  /\ In (c, k1) (species (c_base r1)) /\ In (c, k2) (species (c_base r2)) /\ isclose k1 k2 = false.
Proof. exact exchanged_witness. Qed.
Print Assumptions C13_exchanged_refuted.

Example C13_dimer : clean demo (dimer 1) /\ clean demo (dimer (1 + (1 # 1000000)))
  /\ proportional (1 + (1 # 1000000)) (dimer 1) (dimer (1 + (1 # 1000000)))
  /\ basic_eq demo (dimer 1) (dimer (1 + (1 # 1000000))) = Ok true.
Proof.
  split; [|split; [|split]].
  - exists [4; 5], [(-2#1) * 1; 1 * 1]%Q, None, (Some 0). split; [reflexivity|].
    split; [repeat constructor; simpl; lia|]. split; [reflexivity|]. intros k [<-|[<-|[]]]; discriminate.
  - exists [4; 5], [(-2#1) * (1 + (1 # 1000000)); 1 * (1 + (1 # 1000000))]%Q, None, (Some 0). split; [reflexivity|].
    split; [repeat constructor; simpl; lia|]. split; [reflexivity|]. intros k [<-|[<-|[]]]; discriminate.
  - apply Permutation_refl'. reflexivity.
  - vm_compute. reflexivity.
Qed.

(* --- C14 --- *)
(* Full claim: for all reactions (refuted). Proved for every class of reactions with
   distinct species, no zero coefficients and no coefficients that are close but
   different. *)
Theorem C14_equivalence_partial : forall C (S : brxn -> Prop),
  (forall r, S r -> clean C r) -> (forall r1 r2, S r1 -> S r2 -> apart r1 r2) ->
  (forall r1 r2, S r1 -> S r2 -> exists b, basic_eq C r1 r2 = Ok b)
  /\ (forall r, S r -> basic_eq C r r = Ok true)
  /\ (forall r1 r2, S r1 -> S r2 -> basic_eq C r1 r2 = Ok true -> basic_eq C r2 r1 = Ok true)
  /\ (forall r1 r2 r3, S r1 -> S r2 -> S r3 ->
        basic_eq C r1 r2 = Ok true -> basic_eq C r2 r3 = Ok true -> basic_eq C r1 r3 = Ok true)
  /\ (forall r1 r2, S r1 -> S r2 -> basic_eq C r1 r2 = Ok true -> same_hash_key C r1 r2 = true).
Proof. exact eq_equivalence. Qed.
Print Assumptions C14_equivalence_partial.

Theorem C14_symmetry_refuted : exists C r1 r2, wf_chem C /\ conserving C r1 /\ conserving C r2
  /\ basic_eq C r1 r2 = Ok true /\ basic_eq C r2 r1 = Ok false.
Proof. exact asymmetric_witness. Qed.
Print Assumptions C14_symmetry_refuted.

Theorem C14_transitivity_refuted : exists C r1 r2 r3, wf_chem C /\ conserving C r1 /\ conserving C r2 /\ conserving C r3
  /\ basic_eq C r1 r2 = Ok true /\ basic_eq C r2 r3 = Ok true /\ basic_eq C r1 r3 = Ok false.
Proof. exact intransitive_witness. Qed.
Print Assumptions C14_transitivity_refuted.

Theorem C14_hash_refuted : exists C r1 r2, wf_chem C /\ conserving C r1 /\ conserving C r2
  /\ basic_eq C r1 r2 = Ok true /\ basic_eq C r2 r1 = Ok true /\ same_hash_key C r1 r2 = false.
Proof. exact hash_witness. Qed.
Print Assumptions C14_hash_refuted.

Theorem C14_raises_refuted : exists C r1 r2, wf_chem C /\ conserving C r1 /\ conserving C r2
  /\ basic_eq C r1 r2 = Err ValueError.
Proof. exact eq_raises_witness. Qed.
Print Assumptions C14_raises_refuted.

Example C14_class : let S r := r = dimer 1 \/ r = dimer 2 in
  (forall r, S r -> clean demo r) /\ (forall r1 r2, S r1 -> S r2 -> apart r1 r2)
  /\ basic_eq demo (dimer 1) (dimer 2) = Ok false.
Proof.
  cbv zeta. split; [|split].
  - intros r [-> | ->].
    + exists [4; 5], [(-2#1) * 1; 1 * 1]%Q, None, (Some 0). split; [reflexivity|].
      split; [repeat constructor; simpl; lia|]. split; [reflexivity|]. intros k [<-|[<-|[]]]; discriminate.
    + exists [4; 5], [(-2#1) * 2; 1 * 2]%Q, None, (Some 0). split; [reflexivity|].
      split; [repeat constructor; simpl; lia|]. split; [reflexivity|]. intros k [<-|[<-|[]]]; discriminate.
  - intros r1 r2 [-> | ->] [-> | ->] a b [<-|[<-|[]]] [<-|[<-|[]]]; vm_compute; try discriminate; reflexivity.
  - vm_compute. reflexivity.
Qed.

(* --- C15 --- *)
Theorem C15_fractions : forall C cs ks fl n, wf_chem C ->
  let r := basic_init C cs ks fl n in
  NoDup cs -> length cs = length ks -> conserving C r -> balanced r = true ->
  NoDup (map (red C) (reactants r)) -> NoDup (map (red C) (products r)) ->
  (forall c, In c cs -> elems C c <> []) -> products r <> [] ->
  exists fr fp, reactant_atomic_fractions C r = Ok fr /\ product_atomic_fractions C r = Ok fp
  /\ (sumQ snd fr == 1)%Q /\ (sumQ snd fp == 1)%Q
  /\ map fst fr = map (red C) (reactants r) /\ map fst fp = map (red C) (products r)
  /\ (forall c w, In (c, w) fr \/ In (c, w) fp -> (0 < w)%Q).
Proof. exact (fun C cs ks fl n W => atomic_fractions_spec C W cs ks fl n). Qed.
Print Assumptions C15_fractions.

(* Full claim: also for the products (refuted), and with positive fractions (zero for
   a species made of open elements only). *)
Theorem C15_open_reactants_partial : forall C es ks mu n, wf_chem C ->
  let r := open_init C es ks mu n in
  let b := c_base (o_base r) in
  NoDup (comps b) -> length es = length ks -> conserving C b ->
  ~ (open_num_atoms C r == 0)%Q ->
  exists fr, open_reactant_atomic_fractions C r = Ok fr /\ (sumQ snd fr == 1)%Q
  /\ map fst fr = reactants b /\ (forall c w, In (c, w) fr -> (0 <= w)%Q).
Proof. exact (fun C es ks mu n W => open_reactant_fractions_spec C W es ks mu n). Qed.
Print Assumptions C15_open_reactants_partial.

Theorem C15_open_products_refuted : exists C es ks mu n fp, wf_chem C /\ length es = length ks
  /\ conserving C (c_base (o_base (open_init C es ks mu n)))
  /\ NoDup (comps (c_base (o_base (open_init C es ks mu n))))
  /\ ~ (open_num_atoms C (open_init C es ks mu n) == 0)%Q
  /\ open_product_atomic_fractions C (open_init C es ks mu n) = Ok fp /\ ~ (sumQ snd fp == 1)%Q.
Proof. exact open_fractions_witness. Qed.
Print Assumptions C15_open_products_refuted.

Example C15_titanate : conserving demo titanate /\ balanced titanate = true
  /\ NoDup (map (red demo) (reactants titanate)) /\ NoDup (map (red demo) (products titanate))
  /\ conserving demo (c_base (o_base lio_open)) /\ ~ (open_num_atoms demo lio_open == 0)%Q.
Proof.
  split; [exact titanate_conserving|]. split; [reflexivity|]. split; [repeat constructor; simpl; lia|].
  split; [repeat constructor; simpl; lia|]. split; [exact lio_conserving|]. vm_compute. discriminate.
Qed.

(* --- C16 --- *)
Theorem C16_open_energy : forall C es ks mu n, wf_chem C ->
  let r := open_init C es ks mu n in
  exists e e0, open_energy C r = Ok e /\ computed_energy C (o_base r) = Ok e0
  /\ (e == e0 - sumQ (fun ck => snd ck * open_part C mu (fst ck)) (species (c_base (o_base r))))%Q.
Proof. exact (fun C es ks mu n W => open_energy_spec C W es ks mu n). Qed.
Print Assumptions C16_open_energy.

(* A reaction opened afterwards is the open reaction of the same entries. *)
Theorem C16_from_closed : forall C es ks mu n, wf_chem C -> let r := from_computed_rxn C (computed_init C es ks n) mu in
  r = open_init C es ks mu n /\ chempots r = mu
  /\ exists e e0, open_energy C r = Ok e /\ computed_energy C (computed_init C es ks n) = Ok e0
  /\ (e == e0 - sumQ (fun ck => snd ck * open_part C mu (fst ck)) (species (c_base (computed_init C es ks n))))%Q.
Proof. exact (fun C es ks mu n W => conj eq_refl (conj eq_refl (open_energy_spec C W es ks mu n))). Qed.
Print Assumptions C16_from_closed.

(* Full claim: also normalize_to (refuted). *)
Theorem C16_operations_partial : forall C es ks mu n new r',
  let o := open_init C es ks mu n in
  (exists o', copy C (ROpen o) = ROpen o' /\ chempots o' = mu)
  /\ (exists o', reverse C (ROpen o) = ROpen o' /\ chempots o' = mu)
  /\ (open_new_temperature C new o = Ok r' -> chempots r' = mu).
Proof. exact open_ops_keep_chempots. Qed.
Print Assumptions C16_operations_partial.

Theorem C16_normalize_refuted : exists C o c k f r' e e', wf_chem C /\ built C (ROpen o)
  /\ get_coeff (c_base (o_base o)) c = Ok k /\ ~ (k == 0)%Q /\ (0 < f)%Q
  /\ normalize_to C (ROpen o) c f = Ok r' /\ (forall o', r' <> ROpen o')
  /\ energy_per_atom C (ROpen o) = Ok e /\ energy_per_atom C r' = Ok e' /\ ~ (e == e')%Q.
Proof. exact open_normalize_witness. Qed.
Print Assumptions C16_normalize_refuted.

Example C16_lio : exists e, open_energy demo lio_open = Ok e /\ (e == 2)%Q.
Proof. eexists. split; vm_compute; reflexivity. Qed.

(* --- C63 --- *)
(* Full claim: for every operation and every dictionary (refuted for non-empty ones). *)
Theorem C63_isolated_partial : forall k o h ref l, ref < length h ->
  k = KBasic /\ (o = OpNormalize \/ o = OpNormalizeElement) \/ o = OpOpen \/ deref h ref = [] ->
  let '(h', ref') := run_op k o h ref in
  deref (store_all h' ref' l) ref = deref h ref
  /\ (forall l', deref (store_all h' ref l') ref' = deref h' ref').
Proof. exact data_isolated. Qed.
Print Assumptions C63_isolated_partial.

Theorem C63_decorate : forall refs h name v, (forall r, In r refs -> r < length h) ->
  let '(h', refs') := decorate_many h refs name v in
  (forall r, r < length h -> deref h' r = deref h r) /\ length h <= length h'
  /\ Forall2 (fun r r' => length h <= r' < length h' /\ deref h' r' = dict_set name (v r) (deref h r)) refs refs'
  /\ NoDup refs'.
Proof. exact decorate_many_spec. Qed.
Print Assumptions C63_decorate.

(* In every other case the new reaction holds the same dictionary. *)
Theorem C63_shared_refuted : forall k o h ref, deref h ref <> [] -> ~ (k = KBasic /\ (o = OpNormalize \/ o = OpNormalizeElement)) -> o <> OpOpen ->
  run_op k o h ref = (h, ref).
Proof. exact same_object. Qed.
Print Assumptions C63_shared_refuted.

Example C63_copy_of_empty : run_op KBasic OpCopy [[]; [(0, 1%Q)]] 0 = ([[]; [(0, 1%Q)]; []], 2)
  /\ run_op KBasic OpCopy [[]; [(0, 1%Q)]] 1 = ([[]; [(0, 1%Q)]], 1).
Proof. split; reflexivity. Qed.

(* --- C64 --- *)
(* Full claim: for every target in the reaction, and common gases count as separable
   (both refuted). *)
Theorem C64_separable_partial : forall C cs ks fl n target,
  let r := basic_init C cs ks fl n in
  NoDup cs -> length cs = length ks ->
  (exists c, In c cs /\ red C c = red C target) ->
  (forall c k, In (c, k) (species r) -> red C c = red C target -> (0 < k)%Q) ->
  exists b, is_separable C (elements C r) r target = Ok b
  /\ (b = true <-> forall c, In c (products r) -> red C c <> red C target ->
        forall e, In e (elems C c) -> ~ In e (elems C target)).
Proof. exact is_separable_spec. Qed.
Print Assumptions C64_separable_partial.

Theorem C64_missing_target : forall C els r target,
  is_separable C els r target = Err ValueError <-> ~ exists c, In c (comps r) /\ red C c = red C target.
Proof. exact is_separable_missing. Qed.
Print Assumptions C64_missing_target.

Theorem C64_gas_refuted : exists C (formula : nat -> string) r target, wf_chem C /\ conserving C r
  /\ In target (products r) /\ NoDup (comps r)
  /\ (forall c, In c (products r) -> c <> target -> In (formula c) gas_names)
  /\ is_separable C (elements C r) r target = Ok false.
Proof. exact gas_witness. Qed.
Print Assumptions C64_gas_refuted.

Theorem C64_reactant_target_refuted : exists C r target, wf_chem C /\ conserving C r /\ In target (comps r) /\ NoDup (comps r)
  /\ is_separable C (elements C r) r target = Err KeyError.
Proof. exact reactant_target_witness. Qed.
Print Assumptions C64_reactant_target_refuted.

Example C64_lio : let r := basic_init demo [0; 4; 7] [-1#1; 2#1; 1#2]%Q None None in
  is_separable demo (elements demo r) r 4 = Ok true /\ is_separable demo (elements demo r) r 7 = Ok true
  /\ is_separable demo (elements demo r) r 9 = Err ValueError.
Proof. vm_compute. repeat split. Qed.
