(* Concrete cases for C94-C97. *)
From Verif Require Import Prelude NumQ SumQ UtilsModel ReactionModel ReactionSpec ReactionCheck GibbsModel TempModel RxnMoreSpec RxnMoreProofs.
Open Scope nat_scope.

Definition ientry_of (c : nat) (en : Q) (i : nat) : ientry := {| ie_comp := c; ie_energy := en; ie_id := i |}.
Definition ie_small : ientry := ientry_of 0 (1000000#1) 1.
Definition ie_large : ientry := ientry_of 0 (100001000005#100000) 1.
Definition ie_near : ientry := ientry_of 0 (1#1) 1.
Definition ie_nearer : ientry := ientry_of 0 (1000000001#1000000000) 1.

(* every entry loses one unit of energy *)
Definition warm_all_by_one (e : entry) : result entry := Ok (mk (e_id e) (e_comp e) (e_energy e - 1)).
(* Li2O in two polymorphs, Li, O2 *)
Definition poly_set : list entry := [mk 1 0 (-6#1); mk 2 4 0; mk 3 7 0; mk 4 0 (-5#1)]%Q.
Definition oxide_entries : list entry := [mk 2 4 0; mk 3 7 0; mk 1 0 (-6#1)]%Q.
Definition oxide_coeffs : list Q := [-4#1; -1#1; 2#1]%Q.
Definition plain_set : list entry := [mk 1 0 (-6#1); mk 2 4 0; mk 3 7 0]%Q.

Lemma polymorph_witness : exists C warm set table es ks n r ws, wf_chem C
  /\ (forall e, exists w, warm e = Ok w) /\ incl es set /\ table_at warm set = Ok table
  /\ computed_get_new_temperature C warm (Some (Some table)) (computed_init C es ks n) = Ok r
  /\ Forall2 (fun e w => warm e = Ok w) es ws /\ c_entries r <> ws
  /\ exists v v', computed_energy C r = Ok v /\ computed_energy C (computed_init C ws ks n) = Ok v' /\ ~ (v == v')%Q.
Proof.
  exists demo, warm_all_by_one, poly_set. eexists. exists oxide_entries, oxide_coeffs, (Some 0). eexists. eexists.
  split; [apply demo_wf|]. split; [intros e; eexists; reflexivity|].
  split; [intros e [<-|[<-|[<-|[]]]]; cbn; tauto|]. split; [vm_compute; reflexivity|]. split; [vm_compute; reflexivity|].
  split; [repeat constructor|]. split; [vm_compute; discriminate|].
  eexists. eexists. split; [vm_compute; reflexivity|]. split; [vm_compute; reflexivity|]. vm_compute. discriminate.
Qed.

Lemma missing_witness : exists C warm set table es ks n, wf_chem C /\ (forall e, exists w, warm e = Ok w) /\ NoDup (map e_comp set)
  /\ table_at warm set = Ok table
  /\ computed_get_new_temperature C warm (Some (Some table)) (computed_init C es ks n) = Err AttributeError.
Proof.
  exists demo, warm_all_by_one, [mk 1 0 (-6#1)%Q; mk 2 4 0%Q]. eexists. exists oxide_entries, oxide_coeffs, (Some 0).
  split; [apply demo_wf|]. split; [intros e; eexists; reflexivity|]. split; [repeat constructor; cbn; lia|].
  split; [vm_compute; reflexivity|]. vm_compute. reflexivity.
Qed.

(* 2 Li2O + O2 -> 4 LiO with O2 at -1 per molecule and the potential -6 per atom *)
Definition peroxide_entries (o2 : Q) : list entry := [mk 1 0 (-6#1)%Q; mk 3 7 o2; mk 5 8 (-4#1)%Q].
Definition peroxide_at_potential : list entry := [mk 1 0 (-6#1); mk 3 7 (-12#1); mk 5 8 (-4#1)]%Q.
Definition peroxide_coeffs : list Q := [-2#1; -1#1; 4#1]%Q.
Lemma peroxide_conserving o2 : conserving demo (c_base (o_base (open_init demo (peroxide_entries o2) peroxide_coeffs [(1, (-6#1)%Q)] (Some 0)))).
Proof. intros e. all_elements e. Qed.
Lemma peroxide_potential o2 : Forall2 (at_potential demo [(1, (-6#1)%Q)]) (peroxide_entries o2) peroxide_at_potential.
Proof.
  repeat constructor; try (intros (el & E & H); vm_compute in E; discriminate); try (intros _; vm_compute; reflexivity).
  intros H. exfalso. apply H. exists 1. split; [reflexivity|left; reflexivity].
Qed.
Lemma reservoir_witness : exists C es es' ks mu n v v', wf_chem C /\ conserving C (c_base (o_base (open_init C es ks mu n)))
  /\ Forall2 (at_potential C mu) es es' /\ open_energy C (open_init C es ks mu n) = Ok v /\ computed_energy C (computed_init C es' ks n) = Ok v' /\ ~ (v == v')%Q.
Proof.
  exists demo, (peroxide_entries (-1#1)), peroxide_at_potential, peroxide_coeffs, [(1, (-6#1)%Q)], (Some 0). eexists. eexists.
  split; [apply demo_wf|]. split; [apply peroxide_conserving|]. split; [apply peroxide_potential|].
  split; [vm_compute; reflexivity|]. split; [vm_compute; reflexivity|]. vm_compute. discriminate.
Qed.

Lemma interp_refl a t : interp_eq a a = true /\ interp_eq (interp_new_temperature a t) a = true.
Proof. split; apply interp_eq_refl. Qed.
Lemma interp_asymmetric : exists a b, interp_eq a b = true /\ interp_eq b a = false.
Proof. exists ie_small, ie_large. split; vm_compute; reflexivity. Qed.
Lemma interp_close_hash : exists a b, interp_eq a b = true /\ ie_comp a = ie_comp b /\ ie_id a = ie_id b /\ ~ same_interp_hash a b.
Proof. exists ie_near, ie_nearer. repeat split. intros (_ & H & _). vm_compute in H. discriminate. Qed.
Lemma interp_id_hash : exists a b, interp_eq a b = true /\ (ie_energy a == ie_energy b)%Q /\ ie_comp a <> ie_comp b /\ ~ same_interp_hash a b.
Proof. exists (ientry_of 0 1 1), (ientry_of 1 1 1). repeat split; [discriminate|]. intros (H & _). vm_compute in H. discriminate. Qed.
