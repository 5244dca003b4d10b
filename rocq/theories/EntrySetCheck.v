(* Concrete entry sets used by the examples and counterexamples. *)
From Coq Require Import Lqa.
From Verif Require Import Prelude NumQ ListFacts SumQ UtilsModel ReactionModel ReactionSpec ChemTable ReactionCheck SolverModel EnumModel RunModel GibbsModel GibbsSpec GibbsCheck EntrySetModel EntrySetSpec EntrySetProofs EntryFilterProofs EntryAdjustProofs EntryBuildModel FromPdProofs ProcessProofs.
Open Scope nat_scope.

(* Four entries: 0 is Li, 1 is O2, 2 and 3 are polymorphs of Li2O; element 0 is Li and
   1 is O. *)
Definition some_elems (e : nat) : list nat := match e with 0 => [0] | 1 => [1] | _ => [0; 1] end.
Definition some_formula (e : nat) : nat := match e with 3 => 2 | _ => e end.
Definition some_epa (e : nat) : Q := match e with 2 => -(2 # 1) | 3 => -(19 # 10) | _ => 0 end.
Definition some_hull (pd : list nat) (e : nat) : Q := match e with 3 => 1 # 10 | _ => 0 end.
Lemma some_elems_nodup e : NoDup (some_elems e).
Proof. destruct e as [|[|e]]; repeat constructor; cbn; intuition discriminate. Qed.

(* --- C50 --- *)
Lemma add_unindexed : exists sorted members e, (forall l, Permutation (sorted l) l) /\ NoDup members
  /\ ~ indexed (set_add e members) (build_indices sorted members (fun _ => None)).
Proof.
  exists (fun l => l), [0; 1], 2. split; [reflexivity|]. split; [repeat constructor; cbn; intuition discriminate|].
  intros (order & P & M). assert (I : In 2 order) by (apply (Permutation_in 2 (Permutation_sym P)); right; right; left; reflexivity).
  apply (in_map (build_indices (fun l => l) [0; 1] (fun _ => None))) in I. rewrite M in I. cbn in I. apply in_map_iff in I as (x & X & _). discriminate.
Qed.
Lemma discard_unindexed : exists sorted members e, (forall l, Permutation (sorted l) l) /\ NoDup members
  /\ ~ indexed (set_discard e members) (build_indices sorted members (fun _ => None)).
Proof.
  exists (fun l => l), [0; 1], 0. split; [reflexivity|]. split; [repeat constructor; cbn; intuition discriminate|].
  intros (order & P & M). assert (order = [1]) by (apply Permutation_length_1_inv, Permutation_sym; exact P). subst order. vm_compute in M. discriminate.
Qed.
(* The data are those of the entry objects, which a subset has in common with the set. *)
Lemma subset_unindexed : exists sorted elems members els sub, (forall l, Permutation (sorted l) l) /\ NoDup members
  /\ get_subset elems members els = Ok sub
  /\ ~ indexed members (build_indices sorted sub (build_indices sorted members (fun _ => None))).
Proof.
  exists (fun l => l), some_elems, [0; 1], [1], [1]. split; [reflexivity|]. split; [repeat constructor; cbn; intuition discriminate|]. split; [reflexivity|].
  intros (order & P & M). assert (L : length order = 2) by (apply Permutation_length in P; exact P).
  assert (I : In (Some 1) (map (build_indices (fun l => l) [1] (build_indices (fun l => l) [0; 1] (fun _ => None))) order)) by (rewrite M, L; right; left; reflexivity).
  apply in_map_iff in I as (x & X & I). apply (Permutation_in x P) in I. destruct I as [<-|[<-|[]]]; vm_compute in X; discriminate.
Qed.

(* --- C53 --- *)
(* An experimental entry of BaO. *)
Definition bao : anyentry := AX {| xe_comp := 14; xe_temp := PInt 300; xe_base := (-5)%Q; xe_adjs := [] |}.
Definition demo_stab ln := get_stabilized ln demo demo_mass demo_refs no_id demo_exp (fun _ => false).
Lemma bao_built ln : constructed ln demo demo_mass demo_refs no_id demo_exp (fun _ => false) bao.
Proof. exists []. vm_compute. reflexivity. Qed.

(* The stored energy above hull, 1, is that of an earlier hull with energy -7; the hull
   now has energy -9. *)
Lemma stale_data : forall ln, exists C mass table default_id refs deprecated e above data H tol e',
  constructed ln C mass table default_id refs deprecated e /\ (0 < natoms C (any_comp e))%Q
  /\ (exists h, above e = Ok h /\ h == (any_energy ln C e - H) / natoms C (any_comp e))%Q
  /\ get_stabilized ln C mass table default_id refs deprecated above e (Some data) tol false = Ok e'
  /\ (H < any_energy ln C e')%Q.
Proof.
  intros ln. exists demo, demo_mass, demo_refs, no_id, demo_exp, (fun _ => false), bao, (fun _ => Ok 2%Q), 1%Q, (-9)%Q, (1 # 1000)%Q. eexists.
  split; [apply bao_built|]. split; [reflexivity|]. split; [exists 2%Q; split; reflexivity|]. split; [vm_compute; reflexivity|]. reflexivity.
Qed.
(* The stored value is kept: stabilising again lowers the energy again, though the entry
   is on the hull of the set it was made for. *)
Lemma twice_stabilised : forall ln, exists C mass table default_id refs deprecated e above data H tol e1 e2,
  constructed ln C mass table default_id refs deprecated e /\ (0 < natoms C (any_comp e))%Q
  /\ (data == (any_energy ln C e - H) / natoms C (any_comp e))%Q
  /\ get_stabilized ln C mass table default_id refs deprecated above e (Some data) tol false = Ok e1
  /\ get_stabilized ln C mass table default_id refs deprecated above e1 (Some data) tol false = Ok e2
  /\ (any_energy ln C e1 == H - tol)%Q /\ (any_energy ln C e2 < H - tol)%Q.
Proof.
  intros ln. exists demo, demo_mass, demo_refs, no_id, demo_exp, (fun _ => false), bao, (fun _ => Ok 0%Q), 1%Q, (-7)%Q, (1 # 1000)%Q. do 2 eexists.
  split; [apply bao_built|]. split; [reflexivity|]. split; [reflexivity|]. split; [vm_compute; reflexivity|]. split; [vm_compute; reflexivity|]. split; reflexivity.
Qed.
Lemma stabilize_raises : forall ln, exists C e tol h H, (0 < natoms C (any_comp e))%Q /\ (h == (any_energy ln C e - H) / natoms C (any_comp e))%Q
  /\ (H < any_energy ln C e)%Q
  /\ stabilize_one ln C false h e tol = Err AttributeError
  /\ exists x, stabilize_one ln C true h e tol = Ok x /\ (any_energy ln C e < x)%Q.
Proof.
  intros ln. exists demo, bao, (1 # 1000000)%Q, 1%Q, (-7)%Q. split; [reflexivity|]. split; [reflexivity|]. split; [reflexivity|]. split; [reflexivity|].
  eexists. split; [vm_compute; reflexivity|reflexivity].
Qed.

(* --- C58 --- *)
(* NIST has Li2O, FREED has nothing. *)
Definition has_li2o : source := {| src_has := fun f => Nat.eqb f 2; src_ignored := fun _ => false; src_build := fun _ => Ok tt |}.
Definition has_nothing : source := {| src_has := fun _ => false; src_ignored := fun _ => false; src_build := fun _ => Err ValueError |}.
Lemma mixed_sources : exists formula is_el is_ref nist freed entries out, well_behaved nist /\ well_behaved freed /\ NoDup entries
  /\ from_pd formula is_el is_ref nist freed true true true (fun _ => Ok tt) entries = Ok out
  /\ exists e f, available true true nist f /\ formula e = f /\ In (FromNist f) out /\ In (FromPd e) out.
Proof.
  exists some_formula, (fun e => e <? 2), (fun _ => true), has_li2o, has_nothing, [0; 1; 2; 3]. eexists.
  split; [intros f x H; discriminate|]. split; [intros f x H; inversion H; reflexivity|]. split; [repeat constructor; cbn; intuition discriminate|].
  split; [vm_compute; reflexivity|]. exists 2, 2. split; [repeat split; try (intros [_ H]; discriminate); exists tt; reflexivity|]. split; [reflexivity|].
  split; cbn; tauto.
Qed.

(* --- C59 --- *)
Lemma jitter_drops : forall ln, exists C mass table default_id refs deprecated unc entries noise out,
  wf_chem C /\ length noise = length entries /\ Forall (constructed ln C mass table default_id refs deprecated) entries
  /\ get_jitter ln C mass table default_id refs deprecated unc entries noise = Ok out /\ length out < length entries
  /\ exists e, In e entries /\ forall e', In e' out -> any_comp e' <> any_comp e.
Proof.
  intros ln. exists demo, demo_mass, demo_refs, no_id, demo_exp, (fun _ => false), (fun _ => None), [AG (lith 4 (-1) 1); bao], [1%Q; 1%Q]. eexists.
  split; [exact demo_wf|]. split; [reflexivity|]. split; [constructor; [exists None, (Some 1); apply (lith_init ln 4 (-1)%Q 1); reflexivity|constructor; [apply bao_built|constructor]]|].
  split; [vm_compute; reflexivity|]. split; [cbn; lia|]. exists (AG (lith 4 (-1) 1)). split; [left; reflexivity|]. intros e' [<-|[]]. cbn. discriminate.
Qed.

(* --- C80, C81 --- *)
(* The experimental entry of BaO has no data at 2000 K. *)
Definition warm_bao (t : pynum) (adjs : list adj) (e : nat) : result nat :=
  match xwarm {| xe_comp := 14; xe_temp := PInt 300; xe_base := (-5)%Q; xe_adjs := adjs |} t with Ok _ => Ok e | Err x => Err x end.
Lemma included_dropped : exists elems formula epa sorted e_hull interp warm members formulas out,
  (forall e, NoDup (elems e)) /\ (forall l, Permutation (sorted l) l) /\ (forall f e, interp f = Ok e -> formula e = f)
  /\ (forall e x, warm e = Err x -> x = ValueError) /\ (forall e x, warm e = Ok x -> formula x = formula e)
  /\ process_entries elems formula epa sorted e_hull interp warm members 0 false formulas true = Ok out
  /\ exists f m, In f formulas /\ In m members /\ formula m = f /\ forall x, In x out -> formula x <> f.
Proof.
  exists some_elems, some_formula, some_epa, (fun l => l), some_hull, (fun f => Err ValueError), (warm_bao (PInt 2000) []), [0; 1; 2], [2], [].
  split; [apply some_elems_nodup|]. split; [reflexivity|]. split; [discriminate|].
  split; [intros e x; vm_compute; intros H; inversion H; reflexivity|]. split; [intros e x; vm_compute; discriminate|].
  split; [vm_compute; reflexivity|]. exists 2, 2. split; [left; reflexivity|]. split; [cbn; tauto|]. split; [reflexivity|]. intros x [].
Qed.
(* A constant adjustment, as stabilising makes it, and the new temperature 400 K. *)
Lemma temperature_raises : exists sorted warm members, (forall l, Permutation (sorted l) l)
  /\ (exists e x, In e members /\ warm e = Ok x) /\ new_temperature sorted warm members = Err TypeError.
Proof.
  exists (fun l => l), (fun e => match e with 0 => warm_bao (PInt 400) [] 0 | _ => warm_bao (PInt 400) [AConst stabilization (-1)] e end), [0; 1].
  split; [reflexivity|]. split; [exists 0, 0; split; [left; reflexivity|vm_compute; reflexivity]|vm_compute; reflexivity].
Qed.

(* --- C82 --- *)
Lemma flag_lost : exists elems formula is_el is_ref nist freed entries out, well_behaved nist /\ well_behaved freed /\ NoDup entries
  /\ from_computed elems formula is_el is_ref nist freed true false true (fun _ => Ok tt) entries true = Ok (out, false).
Proof.
  exists (fun _ => seq 0 10), (fun e => e), (fun _ => false), (fun _ _ => false), has_nothing, has_nothing, [0]. eexists.
  split; [intros f x H; inversion H; reflexivity|]. split; [intros f x H; inversion H; reflexivity|]. split; [repeat constructor; cbn; tauto|]. vm_compute. reflexivity.
Qed.
