(* Two compounds: one of elements of the table, one with an element that is not there. *)
From Coq Require Import Lqa.
From Verif Require Import Prelude NumQ ListFacts UtilsModel ReactionModel ReactionSpec ChemTable GibbsModel GibbsSpec GibbsProofs EntrySetModel MuModel MuSpec MuProofs.
Open Scope nat_scope.

(* Li2O, XeF2 (xenon is 83), Li *)
Definition pair_chem : chem := table_chem [([(36, 2%Q); (48, 1%Q)], 0, 1%Q); ([(83, 1%Q); (23, 2%Q)], 1, 1%Q); ([(36, 1%Q)], 2, 1%Q)].
Lemma pair_wf : wf_chem pair_chem.
Proof. apply table_ok_wf. vm_compute. reflexivity. Qed.
Lemma xenon_witness : forall ln, exists C mass default_id c dhf v t, wf_chem C /\ (forall e, In e (elems C c) -> (0 < mass e)%Q) /\ in_range t /\ is_int t
  /\ gibbs_init ln C mass mu_table default_id c dhf v t None None = Err KeyError.
Proof.
  intros ln. exists pair_chem, (fun _ => 1%Q), (fun c _ => c), 1, (-1)%Q, 20%Q, (PInt 300). split; [exact pair_wf|].
  assert (Pm : forall e, In e (elems pair_chem 1) -> (0 < (fun _ => 1%Q) e)%Q) by (intros e _; reflexivity).
  assert (R : in_range (PInt 300)) by (split; vm_compute; discriminate).
  split; [exact Pm|]. split; [exact R|]. split; [exact I|].
  apply (mu_missing ln pair_chem (fun _ => 1%Q) (fun c _ => c) pair_wf); [cbn; lia|exact Pm|exact R|].
  exists 83. split; [left; reflexivity|unfold in_table; lia].
Qed.
Lemma li2o_table : forall ea, In ea (el_amts pair_chem 0) -> in_table (fst ea) /\ (0 < snd ea)%Q.
Proof. intros ea [<-|[<-|[]]]; (split; [unfold in_table; cbn; lia|reflexivity]). Qed.

(* BaO, TeO2, XeO3 and Te *)
Definition few : chem := table_chem [([(5, 1%Q); (48, 1%Q)], 0, 1%Q); ([(71, 1%Q); (48, 2%Q)], 1, 1%Q); ([(83, 1%Q); (48, 3%Q)], 2, 1%Q); ([(71, 1%Q)], 3, 1%Q)].
Lemma few_wf : wf_chem few.
Proof. apply table_ok_wf. vm_compute. reflexivity. Qed.
(* tellurium: below the chord from 1300 K to 1500 K at 1400 K *)
Lemma te_witness : exists C c s1 s2 s3, wf_chem C /\ elems C c = [71]
  /\ sum_g_i mu_table (el_amts C c) (PInt 1300) = Ok s1 /\ sum_g_i mu_table (el_amts C c) (PInt 1400) = Ok s2
  /\ sum_g_i mu_table (el_amts C c) (PInt 1500) = Ok s3 /\ (s2 < on_line 1300 s1 1500 s3 1400)%Q.
Proof.
  exists few, 3. do 3 eexists. split; [exact few_wf|]. split; [reflexivity|]. split; [vm_compute; reflexivity|]. split; [vm_compute; reflexivity|]. split; [vm_compute; reflexivity|].
  vm_compute. reflexivity.
Qed.
Definition no_data : source := {| src_has := fun _ => false; src_ignored := fun _ => false; src_build := fun _ => Ok tt |}.
Definition few_set (entries : list nat) : result (list made) :=
  from_pd (fun e => e) (is_element few) (fun _ => true) no_data no_data true true true
    (fun e => bind (gibbs_init (fun _ => 0%Q) few (fun _ => 1%Q) mu_table (fun c _ => c) e (-1)%Q 16%Q (PInt 500) (Some []) None) (fun _ => Ok tt)) entries.
