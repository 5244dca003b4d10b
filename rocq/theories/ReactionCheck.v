(* Concrete reactions used by the examples and counterexamples. *)
From Coq Require Import Lqa String.
From Verif Require Import Prelude NumQ SumQ UtilsSpec ReactionModel ReactionSpec ReactionBalanceProofs ChemTable.
Open Scope list_scope.
Open Scope nat_scope.

(* Elements: 0 Li, 1 O, 2 Ba, 3 Ti, 4 C. *)
Definition demo_table : list chem_row :=
  [ ([(0, 2#1); (1, 1#1)], 0, 1#1);               (* 0 Li2O *)
    ([(0, 1#1); (1, 2#1)], 1, 1#1);               (* 1 LiO2 *)
    ([(0, 3#1); (1, 1#1)], 2, 1#1);               (* 2 Li3O *)
    ([(0, 1#1); (1, 3#1)], 3, 1#1);               (* 3 LiO3 *)
    ([(0, 1#1)], 4, 1#1);                         (* 4 Li *)
    ([(0, 2#1)], 4, 2#1);                         (* 5 Li2 *)
    ([(0, 3#1)], 4, 3#1);                         (* 6 Li3 *)
    ([(1, 2#1)], 7, 1#1);                         (* 7 O2 *)
    ([(0, 1#1); (1, 1#1)], 8, 1#1);               (* 8 LiO *)
    ([(2, 1#1); (4, 1#1); (1, 3#1)], 9, 1#1);     (* 9 BaCO3 *)
    ([(3, 1#1); (1, 2#1)], 10, 1#1);              (* 10 TiO2 *)
    ([(2, 1#1); (3, 1#1); (1, 3#1)], 11, 1#1);    (* 11 BaTiO3 *)
    ([(4, 1#1); (1, 2#1)], 12, 1#1);              (* 12 CO2 *)
    ([(2, 2#1); (1, 2#1)], 14, 2#1);              (* 13 Ba2O2 *)
    ([(2, 1#1); (1, 1#1)], 14, 1#1) ].            (* 14 BaO *)
Definition demo : chem := table_chem demo_table.
Lemma demo_wf : wf_chem demo.
Proof. apply table_ok_wf. vm_compute. reflexivity. Qed.

Definition demo_formula (c : nat) : string :=
  nth c ["Li2O"; "LiO2"; "Li3O"; "LiO3"; "Li"; "Li2"; "Li3"; "O2"; "LiO"; "BaCO3"; "TiO2"; "BaTiO3"; "CO2"; "Ba2O2"; "BaO"]%string ""%string.

Ltac all_elements e := do 6 (destruct e as [|e]; [vm_compute; try discriminate; try reflexivity|]); vm_compute; try discriminate; try reflexivity.

(* BaCO3 + TiO2 -> BaTiO3 + CO2 *)
Definition titanate : brxn := basic_init demo [9; 10; 11; 12] [-1#1; -1#1; 1#1; 1#1]%Q None (Some 0).
Lemma titanate_conserving : conserving demo titanate.
Proof. intros e. all_elements e. Qed.

Definition mk (i c : nat) (en : Q) : entry := {| e_id := i; e_comp := c; e_energy := en |}.

(* C08: Li -> O2. The candidates are the least squares solutions. *)
Definition li_o2_solve (c : list nat) : list Q :=
  match c with [0] => [(-1#2)%Q; 0%Q] | _ => [0%Q; (1#5)%Q] end.
Lemma li_o2_not_found : forall c, tried 1 1 2 c ->
  exists e, (1 # 100000000 < Qabs (net demo (combine [4%nat; 7%nat] (li_o2_solve c)) e))%Q.
Proof.
  intros c _. assert (H : li_o2_solve c = [(-1#2)%Q; 0%Q] \/ li_o2_solve c = [0%Q; (1#5)%Q]).
  { destruct c as [|[|i] [|j c]]; cbn; tauto. }
  destruct H as [-> | ->]; [exists 0|exists 1]; vm_compute; reflexivity.
Qed.
Lemma unbalanceable_witness : exists C rs ps solve rank r, wf_chem C
  /\ (forall c, length (solve c) = length rs + length ps)
  /\ (forall c, tried (length rs) (length ps) rank c ->
       exists e, (1 # 100000000 < Qabs (net C (combine (map (fun e => red C (e_comp e)) (rs ++ ps)) (solve c)) e))%Q)
  /\ computed_balance C rs ps solve rank = Ok r /\ balanced (c_base r) = true.
Proof.
  exists demo, [mk 0 4 0], [mk 1 7 0], li_o2_solve, 2. eexists. split; [apply demo_wf|].
  split; [intros c; destruct c as [|[|i] [|j c]]; reflexivity|].
  split; [exact li_o2_not_found|]. split; [vm_compute; reflexivity|]. vm_compute. reflexivity.
Qed.

(* C09: Li + Li -> Li2 *)
Lemma repeated_witness : exists C cs ks n, wf_chem C /\ length cs = length ks
  /\ (forall e, (Qabs (produced C (combine cs ks) e - consumed C (combine cs ks) e) <= 1 # 1000000)%Q)
  /\ balanced (basic_init C cs ks None n) = false.
Proof.
  exists demo, [4; 4; 5], [-1#1; -1#1; 1#1]%Q, None. split; [apply demo_wf|]. split; [reflexivity|]. split.
  - intros e. all_elements e.
  - vm_compute. reflexivity.
Qed.

(* C10: the flag is recomputed with an absolute tolerance *)
Lemma flag_witness : exists C r c f r', wf_chem C /\ built C r /\ balanced (base_of r) = true
  /\ normalize_to C r c f = Ok r' /\ balanced (base_of r') = false.
Proof.
  exists demo, (RBasic (basic_init demo [4; 5] [-2#1; 1 + (2#10000000)]%Q None None)), 5, (100#1)%Q. eexists.
  split; [apply demo_wf|]. split; [exists [4; 5], [-2#1; 1 + (2#10000000)]%Q, None, None; split; reflexivity|].
  split; [vm_compute; reflexivity|]. split; [reflexivity|]. vm_compute. reflexivity.
Qed.

(* C10, C16: 2 Li + O2 -> 2 LiO, open to oxygen *)
Definition lio_entries : list entry := [mk 0 4 (-2#1); mk 1 7 (-10#1); mk 2 8 (-12#1)].
Definition lio_open : orxn := open_init demo lio_entries [-2#1; -1#1; 2#1]%Q [(1, (-6#1)%Q)] (Some 0).
Lemma lio_conserving : conserving demo (c_base (o_base lio_open)).
Proof. intros e. all_elements e. Qed.
Lemma open_normalize_witness : exists C o c k f r' e e', wf_chem C /\ built C (ROpen o)
  /\ get_coeff (c_base (o_base o)) c = Ok k /\ ~ (k == 0)%Q /\ (0 < f)%Q
  /\ normalize_to C (ROpen o) c f = Ok r' /\ (forall o', r' <> ROpen o')
  /\ energy_per_atom C (ROpen o) = Ok e /\ energy_per_atom C r' = Ok e' /\ ~ (e == e')%Q.
Proof.
  exists demo, lio_open, 8, (2#1)%Q, 1%Q. eexists. eexists. eexists.
  split; [apply demo_wf|].
  split; [exists lio_entries, [-2#1; -1#1; 2#1]%Q, [(1, (-6#1)%Q)], (Some 0); split; reflexivity|].
  split; [reflexivity|]. split; [discriminate|]. split; [reflexivity|]. split; [reflexivity|].
  split; [intros o' H; discriminate|]. split; [vm_compute; reflexivity|]. split; [vm_compute; reflexivity|].
  vm_compute. discriminate.
Qed.

(* C13: Li2O + 3 LiO2 -> Li3O + 2 LiO3 and 3 Li2O + LiO2 -> 2 Li3O + LiO3 *)
Definition ozonide_entries : list entry := [mk 0 0 (-4#1); mk 1 1 (-4#1); mk 2 2 (-5#1); mk 3 3 (-5#1)].
Definition ozonide1 : crxn := computed_init demo ozonide_entries [-1#1; -3#1; 1#1; 2#1]%Q (Some 0).
Definition ozonide2 : crxn := computed_init demo ozonide_entries [-3#1; -1#1; 2#1; 1#1]%Q (Some 0).
Lemma exchanged_witness : exists C r1 r2 c k1 k2, wf_chem C
  /\ conserving C (c_base r1) /\ conserving C (c_base r2)
  /\ NoDup (comps (c_base r1)) /\ NoDup (comps (c_base r2))
  /\ computed_eq C r1 r2 = Ok true /\ basic_eq C (c_base r1) (c_base r2) = Ok true
  /\ In (c, k1) (species (c_base r1)) /\ In (c, k2) (species (c_base r2)) /\ isclose k1 k2 = false.
Proof.
  exists demo, ozonide1, ozonide2, 0, (-1#1)%Q, (-3#1)%Q. split; [apply demo_wf|].
  split; [intros e; all_elements e|]. split; [intros e; all_elements e|].
  split; [repeat constructor; simpl; lia|]. split; [repeat constructor; simpl; lia|].
  split; [vm_compute; reflexivity|]. split; [vm_compute; reflexivity|].
  split; [left; reflexivity|]. split; [left; reflexivity|]. vm_compute. reflexivity.
Qed.

(* the same reaction with another energy of LiO3 *)
Definition ozonide3 : crxn := computed_init demo [mk 0 0 (-4#1); mk 1 1 (-4#1); mk 2 2 (-5#1); mk 3 3 (-6#1)] [-1#1; -3#1; 1#1; 2#1]%Q (Some 0).
Lemma energies_differ : basic_eq demo (c_base ozonide1) (c_base ozonide3) = Ok true
  /\ computed_eq demo ozonide1 ozonide1 = Ok true /\ computed_eq demo ozonide1 ozonide3 = Ok false.
Proof. split; [vm_compute; reflexivity|]. split; vm_compute; reflexivity. Qed.

(* C14: 2 Li -> Li2, multiplied by s *)
Definition dimer (s : Q) : brxn := basic_init demo [4; 5] [(-2#1) * s; 1 * s]%Q None (Some 0).
Lemma dimer_conserving s : conserving demo (dimer s).
Proof.
  intros e. unfold conserving, net, dimer, species, basic_init. cbn -[Qmult Qplus].
  destruct e as [|e]; [cbn -[Qmult Qplus]; ring|]. cbn -[Qmult Qplus]. ring.
Qed.
Lemma asymmetric_witness : exists C r1 r2, wf_chem C /\ conserving C r1 /\ conserving C r2
  /\ basic_eq C r1 r2 = Ok true /\ basic_eq C r2 r1 = Ok false.
Proof.
  exists demo, (dimer 1), (dimer (1 + (1000505 # 100000000000))). split; [apply demo_wf|].
  split; [apply dimer_conserving|]. split; [apply dimer_conserving|]. split; vm_compute; reflexivity.
Qed.
Lemma intransitive_witness : exists C r1 r2 r3, wf_chem C /\ conserving C r1 /\ conserving C r2 /\ conserving C r3
  /\ basic_eq C r1 r2 = Ok true /\ basic_eq C r2 r3 = Ok true /\ basic_eq C r1 r3 = Ok false.
Proof.
  exists demo, (dimer 1), (dimer (1 + (9 # 1000000))), (dimer (1 + (18 # 1000000))). split; [apply demo_wf|].
  split; [apply dimer_conserving|]. split; [apply dimer_conserving|]. split; [apply dimer_conserving|].
  split; [|split]; vm_compute; reflexivity.
Qed.
Lemma hash_witness : exists C r1 r2, wf_chem C /\ conserving C r1 /\ conserving C r2
  /\ basic_eq C r1 r2 = Ok true /\ basic_eq C r2 r1 = Ok true /\ same_hash_key C r1 r2 = false.
Proof.
  exists demo, (dimer 1), (dimer (1 + (1 # 1000000))). split; [apply demo_wf|].
  split; [apply dimer_conserving|]. split; [apply dimer_conserving|]. split; [|split]; vm_compute; reflexivity.
Qed.
Lemma eq_raises_witness : exists C r1 r2, wf_chem C /\ conserving C r1 /\ conserving C r2
  /\ basic_eq C r1 r2 = Err ValueError.
Proof.
  exists demo, (dimer 1), (basic_init demo [4; 5; 6] [-2#1; 1#1; 0]%Q None (Some 0)). split; [apply demo_wf|].
  split; [apply dimer_conserving|]. split; [intros e; all_elements e|]. vm_compute; reflexivity.
Qed.

(* C15: the fraction of LiO on the product side of 2 Li + O2 -> 2 LiO is 1/2 *)
Lemma open_fractions_witness : exists C es ks mu n fp, wf_chem C /\ length es = length ks
  /\ conserving C (c_base (o_base (open_init C es ks mu n)))
  /\ NoDup (comps (c_base (o_base (open_init C es ks mu n))))
  /\ ~ (open_num_atoms C (open_init C es ks mu n) == 0)%Q
  /\ open_product_atomic_fractions C (open_init C es ks mu n) = Ok fp /\ ~ (sumQ snd fp == 1)%Q.
Proof.
  exists demo, lio_entries, [-2#1; -1#1; 2#1]%Q, [(1, (-6#1)%Q)], (Some 0). eexists. split; [apply demo_wf|].
  split; [reflexivity|]. split; [exact lio_conserving|]. split; [repeat constructor; simpl; lia|].
  split; [vm_compute; discriminate|]. split; [vm_compute; reflexivity|]. vm_compute. discriminate.
Qed.

(* C64 *)
Lemma gas_witness : exists C (formula : nat -> string) r target, wf_chem C /\ conserving C r
  /\ In target (products r) /\ NoDup (comps r)
  /\ (forall c, In c (products r) -> c <> target -> In (formula c) gas_names)
  /\ is_separable C (elements C r) r target = Ok false.
Proof.
  exists demo, demo_formula, titanate, 11. split; [apply demo_wf|]. split; [exact titanate_conserving|].
  split; [left; reflexivity|]. split; [repeat constructor; simpl; lia|]. split.
  - intros c [<-|[<-|[]]] Hn; [exfalso; apply Hn; reflexivity|]. vm_compute. tauto.
  - vm_compute. reflexivity.
Qed.
Lemma reactant_target_witness : exists C r target, wf_chem C /\ conserving C r /\ In target (comps r) /\ NoDup (comps r)
  /\ is_separable C (elements C r) r target = Err KeyError.
Proof.
  exists demo, titanate, 9. split; [apply demo_wf|]. split; [exact titanate_conserving|].
  split; [left; reflexivity|]. split; [repeat constructor; simpl; lia|]. vm_compute. reflexivity.
Qed.
