(* C54-C57, C65, C78, C79, C125: theorems about entries and their temperature dependence. *)
From Coq Require Import Qround.
From Verif Require Import Prelude NumQ SumQ UtilsModel ReactionModel ReactionSpec ReactionCheck GibbsModel GibbsSpec GibbsProofs GibbsMassProofs GibbsEntryProofs GibbsMoreProofs GibbsValueProofs GibbsCheck.
Open Scope nat_scope.

(* --- C54 --- *)
(* Holds for the adjustments of the entry as they are; not for an atmospheric correction,
   which should be made anew for the new temperature. *)
Theorem C54_computed_partial : forall ln C mass table default_id c dhf v t1 t2 adjs id e,
  gibbs_init ln C mass table default_id c dhf v t1 adjs id = Ok e ->
  gibbs_new_temperature ln C mass table default_id e t2 = gibbs_init ln C mass table default_id c dhf v t2 adjs id.
Proof. exact warm_is_direct. Qed.
Print Assumptions C54_computed_partial.

Theorem C54_computed_compose_partial : forall ln C mass table default_id c dhf v t1 t2 t3 adjs id e e2,
  gibbs_init ln C mass table default_id c dhf v t1 adjs id = Ok e -> gibbs_new_temperature ln C mass table default_id e t2 = Ok e2 ->
  gibbs_new_temperature ln C mass table default_id e2 t3 = gibbs_new_temperature ln C mass table default_id e t3
  /\ gibbs_new_temperature ln C mass table default_id e2 t1 = Ok e.
Proof. exact warm_composes. Qed.
Print Assumptions C54_computed_compose_partial.

(* Holds for experimental entries whose corrections are atmospheric ones. *)
Theorem C54_experimental_partial : forall C refs deprecated c t1 t2 l e,
  exp_init C refs deprecated c t1 (co2_at t1 l) = Ok e ->
  exp_new_temperature C refs deprecated e t2 = exp_init C refs deprecated c t2 (co2_at t2 l).
Proof. exact exp_warm_direct. Qed.
Print Assumptions C54_experimental_partial.

Theorem C54_experimental_compose_partial : forall C refs deprecated c t1 t2 t3 l e e2,
  exp_init C refs deprecated c t1 (co2_at t1 l) = Ok e -> exp_new_temperature C refs deprecated e t2 = Ok e2 ->
  exp_new_temperature C refs deprecated e2 t3 = exp_new_temperature C refs deprecated e t3
  /\ exp_new_temperature C refs deprecated e2 t1 = Ok e.
Proof. exact exp_warm_composes. Qed.
Print Assumptions C54_experimental_compose_partial.

(* The atmospheric correction of a computed entry stays the one of the old temperature. *)
Theorem C54_co2_refuted : forall ln p, ~ (ln p == 0)%Q -> exists C mass table default_id c dhf v t1 t2 n e e2 d, wf_chem C
  /\ gibbs_init ln C mass table default_id c dhf v t1 (Some (co2_at t1 [(n, p)])) None = Ok e
  /\ gibbs_new_temperature ln C mass table default_id e t2 = Ok e2
  /\ gibbs_init ln C mass table default_id c dhf v t2 (Some (co2_at t2 [(n, p)])) None = Ok d
  /\ ~ (gibbs_energy ln C e2 == gibbs_energy ln C d)%Q.
Proof. exact co2_witness. Qed.
Print Assumptions C54_co2_refuted.

(* The error made is the change of the correction. *)
Theorem C54_co2_error : forall ln C mass table default_id c dhf v t1 t2 id n p e d e2,
  gibbs_init ln C mass table default_id c dhf v t1 (Some (co2_at t1 [(n, p)])) id = Ok e ->
  gibbs_new_temperature ln C mass table default_id e t2 = Ok e2 ->
  gibbs_init ln C mass table default_id c dhf v t2 (Some (co2_at t2 [(n, p)])) id = Ok d ->
  (gibbs_energy ln C d - gibbs_energy ln C e2 == (1 # 3) * (8617 # 100000000) * (pyval t2 - pyval t1) * ln p * n)%Q.
Proof. exact stale_co2. Qed.
Print Assumptions C54_co2_error.

(* An experimental entry with a constant correction cannot be given a new temperature. *)
Theorem C54_constant_refuted : exists C refs deprecated c t1 t2 adjs e d, wf_chem C
  /\ exp_init C refs deprecated c t1 adjs = Ok e /\ exp_init C refs deprecated c t2 adjs = Ok d
  /\ exp_new_temperature C refs deprecated e t2 = Err TypeError.
Proof. exact jitter_witness. Qed.
Print Assumptions C54_constant_refuted.

Theorem C54_constant_always : forall C refs deprecated e t name v l l',
  xe_adjs e = l ++ AConst name v :: l' -> exp_new_temperature C refs deprecated e t = Err TypeError.
Proof. exact exp_warm_const. Qed.
Print Assumptions C54_constant_always.

(* BaCO3 with a carbonate correction, from 300 K to 450.5 K and back. *)
Example C54_example : exists e e2, demo_init no_ln 9 (-2)%Q 16%Q (PInt 300) (Some [ACarbonate 1 (83 # 100)]) None = Ok e
  /\ demo_warm no_ln e (PFloat (901 # 2)) = Ok e2 /\ demo_warm no_ln e2 (PInt 300) = Ok e
  /\ ~ (gibbs_energy no_ln demo e == gibbs_energy no_ln demo e2)%Q.
Proof. do 2 eexists. split; [vm_compute; reflexivity|]. split; [vm_compute; reflexivity|]. split; [vm_compute; reflexivity|]. vm_compute. discriminate. Qed.
Example C54_example_experimental : exists e e2, xinit 14 (PInt 300) (co2_at (PInt 300) [(1, 1 # 2)]%Q) = Ok e
  /\ xwarm e (PInt 450) = Ok e2 /\ xwarm e2 (PInt 300) = Ok e /\ (xe_base e2 == -(37 # 8))%Q.
Proof. do 2 eexists. repeat split; vm_compute; reflexivity. Qed.

(* --- C55 --- *)
Theorem C55_outside : forall ln C mass table default_id c dhf v t adjs id, ~ in_range t ->
  gibbs_init ln C mass table default_id c dhf v t adjs id = Err ValueError.
Proof. exact init_outside. Qed.
Print Assumptions C55_outside.

(* Missing: a float that is a multiple of one hundred, for a compound. *)
Theorem C55_inside_partial : forall ln C mass table default_id val, wf_chem C -> forall c dhf v t adjs id,
  tabulates table (elems C c) val -> elems C c <> [] -> (forall e, In e (elems C c) -> (0 < mass e)%Q) -> in_range t ->
  (is_int t \/ ~ on_grid t \/ is_element C c = true) ->
  exists e, gibbs_init ln C mass table default_id c dhf v t adjs id = Ok e /\ ge_temp e = t.
Proof. exact init_succeeds. Qed.
Print Assumptions C55_inside_partial.

Theorem C55_float_refuted : forall ln, exists C mass table default_id val c dhf v t, wf_chem C /\ tabulates table (elems C c) val
  /\ (forall e, In e (elems C c) -> (0 < mass e)%Q) /\ in_range t
  /\ gibbs_init ln C mass table default_id c dhf v t None None = Err KeyError
  /\ exists z e, (pyval t == inject_Z z)%Q /\ gibbs_init ln C mass table default_id c dhf v (PInt z) None None = Ok e.
Proof. exact float_witness. Qed.
Print Assumptions C55_float_refuted.

Theorem C55_float_always : forall ln C mass table default_id, wf_chem C -> forall c dhf v q adjs id,
  is_element C c = false -> elems C c <> [] -> (forall e, In e (elems C c) -> (0 < mass e)%Q) ->
  in_range (PFloat q) -> on_grid (PFloat q) -> gibbs_init ln C mass table default_id c dhf v (PFloat q) adjs id = Err KeyError.
Proof. exact init_float_grid. Qed.
Print Assumptions C55_float_always.

(* At the grid points the sum of the elemental energies is the one of the table. *)
Theorem C55_grid : forall table els val, tabulates table els val -> forall items k,
  (forall ea, In ea items -> In (fst ea) els) -> (3 <= k <= 20)%Z ->
  exists s, sum_g_i table items (PInt (100 * k)) = Ok s /\ (s == weighted (val (100 * k)%Z) items)%Q.
Proof. exact sum_grid. Qed.
Print Assumptions C55_grid.

(* Between two grid points it lies on the line between the two values. *)
Theorem C55_between : forall C table val c t, tabulates table (elems C c) val -> in_range t -> ~ on_grid t ->
  exists k s, (3 <= k <= 19)%Z /\ (inject_Z (100 * k) < pyval t < inject_Z (100 * (k + 1)))%Q
    /\ sum_g_i table (el_amts C c) t = Ok s
    /\ let lo := weighted (val (100 * k)%Z) (el_amts C c) in let hi := weighted (val (100 * (k + 1))%Z) (el_amts C c) in
       (s == on_line (inject_Z (100 * k)) lo (inject_Z (100 * (k + 1))) hi (pyval t))%Q /\ (Qminmax.Qmin lo hi <= s <= Qminmax.Qmax lo hi)%Q.
Proof. exact reference_between. Qed.
Print Assumptions C55_between.

Example C55_example : tabulates demo_refs (elems demo 9) demo_val /\ elems demo 9 <> [] /\ (forall e, In e (elems demo 9) -> (0 < demo_mass e)%Q)
  /\ in_range (PInt 350) /\ off_grid (PInt 350) = true
  /\ (exists s, sum_g_i demo_refs (el_amts demo 9) (PInt 350) = Ok s /\ (s == -(49 # 1000))%Q)
  /\ gibbs_init no_ln demo demo_mass demo_refs no_id 9 (-2)%Q 16%Q (PInt 299) None None = Err ValueError.
Proof.
  split; [apply demo_tabulates; small_incl|]. split; [vm_compute; discriminate|]. split; [intros; apply demo_mass_pos|].
  split; [split; vm_compute; discriminate|]. split; [reflexivity|]. split; [eexists; split; vm_compute; reflexivity|reflexivity].
Qed.

(* --- C56 --- *)
Theorem C56_outside : forall C refs deprecated c t adjs, deprecated (red C c) = false ->
  (forall d, refs (red C c) = Some d -> (forall kv, In kv d -> (pyval t < fst kv)%Q) \/ (forall kv, In kv d -> (fst kv < pyval t)%Q)) ->
  exp_init C refs deprecated c t adjs = Err ValueError.
Proof. exact exp_outside. Qed.
Print Assumptions C56_outside.

(* Equal entries of the same composition (not only the same formula), both at an int or
   both at a float temperature, hash alike. *)
Theorem C56_hash_partial : forall ln C a b, exp_eq ln C a b = true -> xe_comp a = xe_comp b ->
  (is_int (xe_temp a) <-> is_int (xe_temp b)) -> same_exp_hash a b.
Proof. exact exp_hash_same. Qed.
Print Assumptions C56_hash_partial.

Theorem C56_symmetric : forall ln C a b, exp_eq ln C a b = exp_eq ln C b a.
Proof. exact exp_eq_sym. Qed.
Print Assumptions C56_symmetric.

(* Entries are equal if formula, temperature and correction per atom agree, the last up to rounding. *)
Theorem C56_equal : forall ln C a b x y, (0 < natoms C (xe_comp a))%Q -> (0 < natoms C (xe_comp b))%Q ->
  (x * natoms C (xe_comp a) == exp_energy ln a - xe_base a)%Q -> (y * natoms C (xe_comp b) == exp_energy ln b - xe_base b)%Q ->
  exp_eq ln C a b = true <-> red C (xe_comp a) = red C (xe_comp b) /\ (pyval (xe_temp a) == pyval (xe_temp b))%Q /\ within_billionth x y.
Proof. exact exp_eq_iff. Qed.
Print Assumptions C56_equal.
(* BaO with a correction of one per formula unit, and Ba2O2 with a correction of two. *)
Example C56_equal_demo : exists a b, xinit 14 (PInt 400) [AConst (Named 1) 1%Q] = Ok a /\ xinit 13 (PInt 400) [AConst (Named 1) 2%Q] = Ok b
  /\ ((1 # 2) * natoms demo (xe_comp a) == exp_energy no_ln a - xe_base a)%Q /\ ((1 # 2) * natoms demo (xe_comp b) == exp_energy no_ln b - xe_base b)%Q /\ exp_eq no_ln demo a b = true.
Proof. do 2 eexists. split; [vm_compute; reflexivity|]. split; [vm_compute; reflexivity|]. split; [vm_compute; reflexivity|]. split; vm_compute; reflexivity. Qed.

(* The energy is that of one formula unit, whatever the multiple. *)
Theorem C56_extensive_refuted : forall ln, exists C refs c c' t e e', wf_chem C /\ elems C c' = elems C c
  /\ (forall el, amt C c' el == 2 * amt C c el)%Q
  /\ exp_init C refs (fun _ => false) c t [] = Ok e /\ exp_init C refs (fun _ => false) c' t [] = Ok e'
  /\ ~ (exp_energy ln e' == 2 * exp_energy ln e)%Q /\ (exp_energy ln e' == exp_energy ln e)%Q.
Proof. exact extensive_witness. Qed.
Print Assumptions C56_extensive_refuted.

Theorem C56_hash_refuted : forall ln, exists C refs a b a' b', wf_chem C
  /\ exp_init C refs (fun _ => false) (xe_comp a) (xe_temp a) [] = Ok a /\ exp_init C refs (fun _ => false) (xe_comp b) (xe_temp b) [] = Ok b
  /\ exp_init C refs (fun _ => false) (xe_comp a') (xe_temp a') [] = Ok a' /\ exp_init C refs (fun _ => false) (xe_comp b') (xe_temp b') [] = Ok b'
  /\ exp_eq ln C a b = true /\ fst (exp_hash_key a) <> fst (exp_hash_key b)
  /\ exp_eq ln C a' b' = true /\ xe_comp a' = xe_comp b' /\ ~ same_text (snd (exp_hash_key a')) (snd (exp_hash_key b')).
Proof. exact exp_hash_witness. Qed.
Print Assumptions C56_hash_refuted.

Example C56_example : xinit 14 (PInt 299) [] = Err ValueError /\ xinit 14 (PInt 501) [] = Err ValueError
  /\ exists a b, xinit 14 (PInt 400) [] = Ok a /\ xinit 14 (PInt 400) [AConst (Named 1) 0%Q] = Ok b /\ exp_eq no_ln demo a b = true.
Proof. split; [reflexivity|]. split; [reflexivity|]. do 2 eexists. split; [vm_compute; reflexivity|]. split; vm_compute; reflexivity. Qed.

(* --- C57 --- *)
Theorem C57_reflexive : forall ln C a, gibbs_eq ln C a a = true.
Proof. exact gibbs_eq_refl. Qed.
Print Assumptions C57_reflexive.

(* Missing: entries whose energies or temperatures are close but different, entries that
   share an id, and false ids. *)
Theorem C57_hash_partial : forall ln C a b,
  (isclose (gibbs_energy ln C a) (gibbs_energy ln C b) = true -> (gibbs_energy ln C a == gibbs_energy ln C b)%Q) ->
  (isclose (pyval (ge_temp a)) (pyval (ge_temp b)) = true -> (pyval (ge_temp a) == pyval (ge_temp b))%Q) ->
  ge_id a <> 0 -> ge_id b <> 0 -> (ge_id a = ge_id b -> ge_comp a = ge_comp b) ->
  gibbs_eq ln C a b = true -> same_gibbs_hash ln C a b /\ gibbs_eq ln C b a = true.
Proof. exact gibbs_eq_hash. Qed.
Print Assumptions C57_hash_partial.

Theorem C57_symmetric_refuted : forall ln, exists C a b, wf_chem C /\ built ln C a /\ built ln C b /\ gibbs_eq ln C a b = true /\ gibbs_eq ln C b a = false.
Proof. exact asymmetric_witness. Qed.
Print Assumptions C57_symmetric_refuted.

Theorem C57_hash_refuted : forall ln, exists C a b, wf_chem C /\ built ln C a /\ built ln C b /\ ge_comp a = ge_comp b
  /\ gibbs_eq ln C a b = true /\ gibbs_eq ln C b a = true
  /\ ~ (gibbs_energy ln C a == gibbs_energy ln C b)%Q /\ ~ same_gibbs_hash ln C a b.
Proof. exact gibbs_hash_witness. Qed.
Print Assumptions C57_hash_refuted.

Theorem C57_same_id_refuted : forall ln, exists C a b, wf_chem C /\ built ln C a /\ built ln C b
  /\ gibbs_eq ln C a b = true /\ gibbs_eq ln C b a = true /\ ge_comp a <> ge_comp b.
Proof. exact same_id_witness. Qed.
Print Assumptions C57_same_id_refuted.

(* Two different lists of corrections with the same sum. *)
Example C57_example : gibbs_eq no_ln demo (lith 4 (-1) 1) half_and_half = true
  /\ (gibbs_energy no_ln demo (lith 4 (-1) 1) == gibbs_energy no_ln demo half_and_half)%Q
  /\ ge_comp (lith 4 (-1) 1) = ge_comp half_and_half /\ lith 4 (-1) 1 <> half_and_half.
Proof. repeat split; try (vm_compute; reflexivity). discriminate. Qed.

(* --- C65 --- *)
Theorem C65_value : forall mass C c, wf_chem C -> 2 <= length (elems C c) -> (forall e, In e (elems C c) -> (0 < mass e)%Q) ->
  exists rm, reduced_mass C mass c = Ok rm /\ (rm == reduced_mass_spec mass (amt C c) (elems C c))%Q /\ (0 < rm)%Q
    /\ forall M, (forall e, In e (elems C c) -> (mass e <= M)%Q) -> (rm < M)%Q.
Proof. exact reduced_mass_value. Qed.
Print Assumptions C65_value.

Theorem C65_invariant : forall mass C c c' k, wf_chem C -> 2 <= length (elems C c) -> (forall e, In e (elems C c) -> (0 < mass e)%Q) ->
  Permutation (elems C c) (elems C c') -> (0 < k)%Q -> (forall e, In e (elems C c) -> (amt C c' e == k * amt C c e)%Q) ->
  exists rm rm', reduced_mass C mass c = Ok rm /\ reduced_mass C mass c' = Ok rm' /\ (rm == rm')%Q.
Proof. exact reduced_mass_invariant. Qed.
Print Assumptions C65_invariant.

Example C65_example : wf_chem demo /\ length (elems demo 9) = 3 /\ (forall e, (0 < demo_mass e)%Q)
  /\ elems demo 13 = elems demo 14 /\ (forall e, (amt demo 13 e == 2 * amt demo 14 e)%Q)
  /\ exists rm, reduced_mass demo demo_mass 9 = Ok rm /\ (10 < rm)%Q /\ (rm < 11)%Q.
Proof.
  split; [exact demo_wf|]. split; [reflexivity|]. split; [exact demo_mass_pos|]. split; [reflexivity|]. split; [intros e; all_elements e|].
  eexists. split; [vm_compute; reflexivity|]. split; vm_compute; reflexivity.
Qed.

(* --- C78 --- *)
Theorem C78_tabulated : forall C refs deprecated c k v d adjs e, deprecated (red C c) = false -> refs (red C c) = Some d ->
  distinct_abscissae d -> forall t, (pyval t == inject_Z (100 * k))%Q -> In (inject_Z (100 * k), v) d ->
  exp_init C refs deprecated c t adjs = Ok e -> xe_base e = v.
Proof. exact exp_tabulated. Qed.
Print Assumptions C78_tabulated.

Theorem C78_between : forall C refs deprecated c x1 y1 x2 y2 d t adjs, deprecated (red C c) = false -> refs (red C c) = Some d ->
  distinct_abscissae d -> In (x1, y1) d -> In (x2, y2) d -> (x1 < x2)%Q -> (forall p, In p d -> (fst p <= x1)%Q \/ (x2 <= fst p)%Q) ->
  (x1 <= pyval t)%Q -> (pyval t <= x2)%Q -> ~ on_grid t ->
  exists e, exp_init C refs deprecated c t adjs = Ok e /\ (xe_base e == on_line x1 y1 x2 y2 (pyval t))%Q
    /\ (Qminmax.Qmin y1 y2 <= xe_base e <= Qminmax.Qmax y1 y2)%Q.
Proof. exact exp_between. Qed.
Print Assumptions C78_between.

Example C78_example : exists e e', xinit 14 (PFloat 400) [] = Ok e /\ (xe_base e == -(19 # 4))%Q
  /\ xinit 14 (PInt 420) [] = Ok e' /\ (xe_base e' == -(47 # 10))%Q /\ (xe_base e' == on_line 400 (-(19 # 4)) 500 (-(9 # 2)) 420)%Q.
Proof. do 2 eexists. repeat split; vm_compute; reflexivity. Qed.

(* --- C79 --- *)
Theorem C79_extensive : forall ln C mass table default_id c c' k dhf v t id id' e e', wf_chem C ->
  (forall el, In el (elems C c) -> (0 < mass el)%Q) -> Permutation (elems C c) (elems C c') -> (0 < k)%Q ->
  (forall el, In el (elems C c) -> (amt C c' el == k * amt C c el)%Q) ->
  gibbs_init ln C mass table default_id c dhf v t None id = Ok e -> gibbs_init ln C mass table default_id c' dhf v t None id' = Ok e' ->
  (gibbs_energy ln C e' == k * gibbs_energy ln C e)%Q.
Proof. exact gibbs_extensive. Qed.
Print Assumptions C79_extensive.

Example C79_example : exists e e', demo_init no_ln 14 (-3)%Q 12%Q (PInt 350) None None = Ok e /\ demo_init no_ln 13 (-3)%Q 12%Q (PInt 350) None None = Ok e'
  /\ (gibbs_energy no_ln demo e' == 2 * gibbs_energy no_ln demo e)%Q /\ ~ (gibbs_energy no_ln demo e == -6)%Q.
Proof. do 2 eexists. split; [vm_compute; reflexivity|]. split; [vm_compute; reflexivity|]. split; [vm_compute; reflexivity|vm_compute; discriminate]. Qed.

(* --- C125 --- *)
Theorem C125_compound : forall ln C mass table default_id val, wf_chem C -> forall c dhf v t adjs id e,
  tabulates table (elems C c) val -> 2 <= length (elems C c) -> (forall x, In x (elems C c) -> (0 < mass x)%Q) -> (0 < v)%Q ->
  forall others, adjs = Some others \/ adjs = None /\ others = [] -> (forall w, ~ In (AConst Sisso w) others) ->
  gibbs_init ln C mass table default_id c dhf v t adjs id = Ok e ->
  forall k, (3 <= k <= 19)%Z -> (inject_Z (100 * k) <= pyval t <= inject_Z (100 * (k + 1)))%Q ->
  (gibbs_energy ln C e == bartel ln mass (amt C c) (elemental val k (pyval t)) (elems C c) dhf v (pyval t) + correction ln others)%Q.
Proof. exact compound_energy. Qed.
Print Assumptions C125_compound.

Theorem C125_element : forall ln C mass table default_id c dhf v t adjs id e, length (elems C c) = 1 ->
  forall others, adjs = Some others \/ adjs = None /\ others = [] -> (forall w, ~ In (AConst Sisso w) others) ->
  gibbs_init ln C mass table default_id c dhf v t adjs id = Ok e ->
  (gibbs_energy ln C e == sumQ (amt C c) (elems C c) * dhf + correction ln others)%Q.
Proof. exact element_energy. Qed.
Print Assumptions C125_element.

(* BaCO3 at 350 K and at the tabulated 400 K, 16 A^3 per atom and a carbonate correction.
   The logarithm is taken as the identity. *)
Example C125_example : tabulates demo_refs (elems demo 9) demo_val /\ 2 <= length (elems demo 9) /\ (forall x, (0 < demo_mass x)%Q)
  /\ exists e f, demo_init (fun q => q) 9 (-2)%Q 16%Q (PInt 350) (Some [ACarbonate 1 (83 # 100)]) None = Ok e
  /\ demo_init (fun q => q) 9 (-2)%Q 16%Q (PInt 400) None None = Ok f
  /\ Qred (gibbs_energy (fun q => q) demo e) = (10854330099696885605616223 # 36648921328336000000000)%Q /\ Qred (gibbs_energy (fun q => q) demo f) = (10889925364537031945616223 # 32067806162294000000000)%Q.
Proof.
  split; [apply demo_tabulates; small_incl|]. split; [cbn; lia|]. split; [exact demo_mass_pos|].
  do 2 eexists. split; [vm_compute; reflexivity|]. split; [vm_compute; reflexivity|]. split; vm_compute; reflexivity.
Qed.
