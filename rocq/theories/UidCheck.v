(* Concrete entries whose identifiers mislead a reaction set. *)
From Coq Require Import Permutation Lqa String.
From Verif Require Import Prelude NumQ ListFacts UtilsModel ReactionModel ReactionSpec ChemTable ReactionCheck GibbsModel GibbsSpec GibbsProofs GibbsEntryProofs GibbsCheck
  UidModel UidSpec UidProofs.
Open Scope list_scope.
Open Scope nat_scope.

(* lithium at 300 K, the temperature written 300 and 300.0 *)
Definition lith_float : gentry :=
  {| ge_comp := 4; ge_dhf := (-1)%Q; ge_vol := 20%Q; ge_temp := PFloat 300; ge_adjs := [AConst Sisso 0%Q]; ge_id := 1 |}.
Lemma lith_float_built ln : built ln demo lith_float.
Proof.
  exists demo_mass, demo_refs, no_id, 4, (-1)%Q, 20%Q, (PFloat 300), None, (Some 1). unfold gibbs_init, gibbs_adjustment. reflexivity.
Qed.
Lemma int_float_witness : forall ln, exists C a b, wf_chem C /\ built ln C a /\ built ln C b /\ gibbs_same ln C a b = true
  /\ forall arrange, (forall l, Permutation (arrange l) l) ->
     uids_from_rxns (gibbs_same ln C) gibbs_uid same_gibbs_uid arrange [single a (-1)%Q; single b (-1)%Q] [] = Err KeyError.
Proof.
  intros ln. exists demo, (lith 4 (-1) 1), lith_float. split; [exact demo_wf|]. split; [apply lith_built; reflexivity|].
  split; [apply lith_float_built|]. assert (W := fun arrange A => int_float ln demo arrange (lith 4 (-1) 1) lith_float 300%Z A eq_refl (Qeq_refl _) eq_refl eq_refl eq_refl [(-1)%Q] [(-1)%Q]).
  split; [exact (proj1 (W (fun l => l) (@Permutation_refl gentry)))|]. intros arrange A. exact (proj2 (W arrange A)).
Qed.

(* lithium with and without a stabilizing adjustment: two energies, one identifier *)
Definition lith_down : gentry :=
  {| ge_comp := 4; ge_dhf := (-1)%Q; ge_vol := 20%Q; ge_temp := PInt 300; ge_adjs := [AConst (Named 1) (-1)%Q; AConst Sisso 0%Q]; ge_id := 1 |}.
Lemma lith_down_built ln : built ln demo lith_down.
Proof.
  exists demo_mass, demo_refs, no_id, 4, (-1)%Q, 20%Q, (PInt 300), (Some [AConst (Named 1) (-1)%Q]), (Some 1). unfold gibbs_init, gibbs_adjustment. reflexivity.
Qed.
Lemma gibbs_merged_witness : forall ln, exists C a b s out, wf_chem C /\ built ln C a /\ built ln C b /\ ge_comp a = ge_comp b
  /\ ~ (gibbs_energy ln C a == gibbs_energy ln C b)%Q /\ gibbs_same ln C a b = false
  /\ uids_from_rxns (gibbs_same ln C) gibbs_uid same_gibbs_uid (fun l => l) [single a (-1)%Q; single b (-1)%Q] [] = Ok s
  /\ uids_get_rxns s = Ok out /\ out = [single b (-1)%Q; single b (-1)%Q].
Proof.
  intros ln. exists demo, (lith 4 (-1) 1), lith_down. do 2 eexists. split; [exact demo_wf|]. split; [apply lith_built; reflexivity|].
  split; [apply lith_down_built|]. split; [reflexivity|]. split; [vm_compute; discriminate|]. split; [vm_compute; reflexivity|].
  split; [vm_compute; reflexivity|]. split; vm_compute; reflexivity.
Qed.

(* BaO and Ba2O2 *)
Lemma exp_merged_witness : forall ln, exists C refs deprecated a b s out, wf_chem C
  /\ exp_init C refs deprecated (xe_comp a) (xe_temp a) [] = Ok a /\ exp_init C refs deprecated (xe_comp b) (xe_temp b) [] = Ok b
  /\ (exists el, ~ (amt C (xe_comp a) el == amt C (xe_comp b) el)%Q)
  /\ uids_from_rxns (exp_same ln C) (exp_uid C) same_exp_uid (fun l => l) [single a (-2)%Q; single b (-1)%Q] [] = Ok s
  /\ uids_get_rxns s = Ok out /\ out = [single b (-2)%Q; single b (-1)%Q].
Proof.
  intros ln. exists demo, demo_exp, (fun _ => false), {| xe_comp := 14; xe_temp := PInt 300; xe_base := (-5)%Q; xe_adjs := [] |},
    {| xe_comp := 13; xe_temp := PInt 300; xe_base := (-5)%Q; xe_adjs := [] |}. do 2 eexists.
  split; [exact demo_wf|]. do 2 (split; [vm_compute; reflexivity|]). split; [exists 1; vm_compute; discriminate|].
  split; [vm_compute; reflexivity|]. split; vm_compute; reflexivity.
Qed.

(* two interpolated entries of one composition, built without an id *)
Lemma interp_merged_witness : forall formula_id, exists c ea eb s out, ~ (ea == eb)%Q
  /\ interp_same (interp_init formula_id c ea None) (interp_init formula_id c eb None) = false
  /\ uids_from_rxns interp_same interp_uid Nat.eqb (fun l => l)
       [single (interp_init formula_id c ea None) (-1)%Q; single (interp_init formula_id c eb None) (-1)%Q] [] = Ok s
  /\ uids_get_rxns s = Ok out
  /\ out = [single (interp_init formula_id c eb None) (-1)%Q; single (interp_init formula_id c eb None) (-1)%Q].
Proof.
  intros f. exists 4, (-1)%Q, (-2)%Q. do 2 eexists. split; [discriminate|]. split; [vm_compute; reflexivity|].
  unfold single, uids_from_rxns. cbn [flat_map u_entries app pyset existsb].
  assert (S : interp_same (interp_init f 4 (-1)%Q None) (interp_init f 4 (-2)%Q None) = false) by reflexivity.
  rewrite S. cbn [orb pyset rev app existsb]. rewrite S. cbn [orb pyset rev app existsb mapM]. unfold row_of.
  cbn [mapM u_entries position]. unfold interp_uid, interp_init. cbn [ie_id]. rewrite Nat.eqb_refl. cbn [bind].
  split; [reflexivity|]. split; reflexivity.
Qed.

Definition trio_rxns : list (urxn gentry) :=
  [{| u_entries := [lith 4 (-1) 1; lith 5 (-2) 2]; u_coeffs := [(-1)%Q; (1)%Q] |};
   {| u_entries := [lith 5 (-2) 2; lith 4 (-1) 1; lith 6 (-3) 3]; u_coeffs := [(-1)%Q; (-1)%Q; 1%Q] |}].
Lemma trio_ok : forall ln, told_apart (gibbs_same ln demo) gibbs_uid same_gibbs_uid ([] ++ flat_map u_entries trio_rxns).
Proof.
  intros ln. apply gibbs_told.
  - intros x y Ix Iy Hi _. cbn in Ix, Iy.
    repeat (destruct Ix as [<-|Ix]; [|]); try destruct Ix; repeat (destruct Iy as [<-|Iy]; [|]); try destruct Iy; cbn in Hi; try discriminate; split; reflexivity.
  - left. intros x Ix. cbn in Ix. repeat (destruct Ix as [<-|Ix]; [exact I|]). destruct Ix.
Qed.
