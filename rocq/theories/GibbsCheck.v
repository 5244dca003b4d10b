(* Concrete entries used by the examples and counterexamples. *)
From Coq Require Import Lqa Qround String.
From Verif Require Import Prelude NumQ ListFacts SumQ UtilsModel ReactionModel ReactionSpec ChemTable ReactionCheck GibbsModel GibbsSpec GibbsProofs GibbsMassProofs GibbsEntryProofs GibbsMoreProofs.
Open Scope list_scope.
Open Scope nat_scope.

(* A table with the rows 300, ..., 2000. *)
Definition mk_table (val : Z -> nat -> Q) (els : list nat) : list (Z * list (nat * Q)) :=
  map (fun n => ((100 * Z.of_nat n)%Z, map (fun e => (e, val (100 * Z.of_nat n)%Z e)) els)) (seq 3 18).
Lemma mk_table_ok val els els' : NoDup els -> incl els' els -> tabulates (mk_table val els) els' val.
Proof.
  intros N I. unfold mk_table. split.
  - rewrite map_map. cbn [fst]. apply FinFun.Injective_map_NoDup; [|apply seq_NoDup]. intros a b H. lia.
  - intros z. rewrite map_map. cbn [fst]. rewrite in_map_iff. split.
    + intros (n & <- & H). apply in_seq in H. exists (Z.of_nat n). split; [lia|reflexivity].
    + intros (k & H & ->). exists (Z.to_nat k). split; [lia|]. apply in_seq. lia.
  - intros z g H. apply in_map_iff in H as (n & E & _). inversion E; subst. rewrite map_map. cbn [fst]. rewrite map_id. exact N.
  - intros z g e H Ie. apply in_map_iff in H as (n & E & _). inversion E; subst. apply in_map_iff. exists e. split; [reflexivity|apply I; exact Ie].
Qed.

Definition demo_val (z : Z) (e : nat) : Q := (- (inject_Z z * inject_Z (Z.of_nat e + 1)) / 100000)%Q.
Definition demo_refs : list (Z * list (nat * Q)) := mk_table demo_val [0; 1; 2; 3; 4].
(* Li, O, Ba, Ti, C *)
Definition demo_mass (e : nat) : Q := nth e [694 # 100; 15999 # 1000; 137327 # 1000; 47867 # 1000; 12011 # 1000]%Q (1#1).
Lemma demo_mass_pos e : (0 < demo_mass e)%Q.
Proof. do 5 (destruct e as [|e]; [reflexivity|]). destruct e; reflexivity. Qed.
Lemma demo_tabulates c : incl (elems demo c) [0; 1; 2; 3; 4] -> tabulates demo_refs (elems demo c) demo_val.
Proof. apply mk_table_ok. repeat constructor; cbn; intuition discriminate. Qed.
Definition no_id (c : nat) (v : Q) : nat := 1000 + c.
Definition no_ln (q : Q) : Q := 0%Q.
Definition demo_init ln := gibbs_init ln demo demo_mass demo_refs no_id.
Definition demo_warm ln := gibbs_new_temperature ln demo demo_mass demo_refs no_id.

Ltac small_incl := vm_compute; intros ? H; repeat (destruct H as [<-|H]; [tauto|]); destruct H.

(* --- C54 --- *)
(* A carbonate with an atmospheric correction. *)
Lemma co2_witness : forall ln p, ~ (ln p == 0)%Q -> exists C mass table default_id c dhf v t1 t2 n e e2 d, wf_chem C
  /\ gibbs_init ln C mass table default_id c dhf v t1 (Some (co2_at t1 [(n, p)])) None = Ok e
  /\ gibbs_new_temperature ln C mass table default_id e t2 = Ok e2
  /\ gibbs_init ln C mass table default_id c dhf v t2 (Some (co2_at t2 [(n, p)])) None = Ok d
  /\ ~ (gibbs_energy ln C e2 == gibbs_energy ln C d)%Q.
Proof.
  intros ln p Hp.
  assert (T : tabulates demo_refs (elems demo 9) demo_val) by (apply demo_tabulates; small_incl).
  assert (I : forall z l, (300 <= z <= 2000)%Z -> exists e, demo_init ln 9 (-2)%Q 16%Q (PInt z) l None = Ok e).
  { intros z l Hz. destruct (init_succeeds ln demo demo_mass demo_refs no_id demo_val demo_wf 9 (-2)%Q 16%Q (PInt z) l None T) as (e & E & _).
    - vm_compute. discriminate.
    - intros e _. apply demo_mass_pos.
    - split; cbn [pyval]; rewrite <- ?Zle_Qle; [change 300%Q with (inject_Z 300)|change 2000%Q with (inject_Z 2000)]; rewrite <- Zle_Qle; lia.
    - left. exact I.
    - exists e. exact E. }
  destruct (I 300%Z (Some (co2_at (PInt 300) [(3%Q, p)])) ltac:(lia)) as (e & He).
  destruct (I 1000%Z (Some (co2_at (PInt 300) [(3%Q, p)])) ltac:(lia)) as (e2 & He2).
  destruct (I 1000%Z (Some (co2_at (PInt 1000) [(3%Q, p)])) ltac:(lia)) as (d & Hd).
  exists demo, demo_mass, demo_refs, no_id, 9, (-2)%Q, 16%Q, (PInt 300), (PInt 1000), 3%Q, e, e2, d.
  assert (Hw : demo_warm ln e (PInt 1000) = Ok e2).
  { unfold demo_warm. rewrite (warm_is_direct ln demo demo_mass demo_refs no_id 9 (-2)%Q 16%Q (PInt 300) (PInt 1000) (Some (co2_at (PInt 300) [(3%Q, p)])) None e He). exact He2. }
  split; [exact demo_wf|]. split; [exact He|]. split; [exact Hw|]. split; [exact Hd|].
  intros E. assert (S := stale_co2 ln demo demo_mass demo_refs no_id 9 (-2)%Q 16%Q (PInt 300) (PInt 1000) None 3%Q p e d e2 He Hw Hd).
  rewrite E in S. cbn [pyval] in S. apply Hp.
  setoid_replace (gibbs_energy ln demo d - gibbs_energy ln demo d)%Q with 0%Q in S by ring.
  change (inject_Z 1000 - inject_Z 300)%Q with (700 # 1)%Q in S. lra.
Qed.

Definition demo_exp (c : nat) : option (list (Q * Q)) :=
  match c with 14 => Some [(300, -5); (400, -(19 # 4)); (500, -(9 # 2))]%Q | _ => None end.
Definition xinit := exp_init demo demo_exp (fun _ => false).
Definition xwarm := exp_new_temperature demo demo_exp (fun _ => false).
Lemma jitter_witness : exists C refs deprecated c t1 t2 adjs e d, wf_chem C
  /\ exp_init C refs deprecated c t1 adjs = Ok e /\ exp_init C refs deprecated c t2 adjs = Ok d
  /\ exp_new_temperature C refs deprecated e t2 = Err TypeError.
Proof.
  exists demo, demo_exp, (fun _ => false), 14, (PInt 300), (PInt 400), [AConst (Named 1) (1 # 100)]. do 2 eexists.
  split; [exact demo_wf|]. repeat split; vm_compute; reflexivity.
Qed.

(* --- C55 --- *)
(* A compound cannot be built at 1000.0. *)
Lemma float_witness : forall ln, exists C mass table default_id val c dhf v t, wf_chem C /\ tabulates table (elems C c) val
  /\ (forall e, In e (elems C c) -> (0 < mass e)%Q) /\ in_range t
  /\ gibbs_init ln C mass table default_id c dhf v t None None = Err KeyError
  /\ exists z e, (pyval t == inject_Z z)%Q /\ gibbs_init ln C mass table default_id c dhf v (PInt z) None None = Ok e.
Proof.
  intros ln. exists demo, demo_mass, demo_refs, no_id, demo_val, 10, (-3)%Q, 10%Q, (PFloat 1000).
  assert (T : tabulates demo_refs (elems demo 10) demo_val) by (apply demo_tabulates; small_incl).
  split; [exact demo_wf|]. split; [exact T|]. split; [intros e _; apply demo_mass_pos|]. split; [split; vm_compute; discriminate|].
  split; [apply (init_float_grid ln demo demo_mass demo_refs no_id demo_wf)|].
  - reflexivity.
  - vm_compute. discriminate.
  - intros e _. apply demo_mass_pos.
  - split; vm_compute; discriminate.
  - exists 10%Z. reflexivity.
  - destruct (init_succeeds ln demo demo_mass demo_refs no_id demo_val demo_wf 10 (-3)%Q 10%Q (PInt 1000) None None T) as (e & E & _).
    + vm_compute. discriminate.
    + intros e _. apply demo_mass_pos.
    + split; vm_compute; discriminate.
    + left. exact I.
    + exists 1000%Z, e. split; [reflexivity|exact E].
Qed.

(* --- C56 --- *)
(* Ba2O2 is two formula units of BaO. *)
Lemma extensive_witness : forall ln, exists C refs c c' t e e', wf_chem C /\ elems C c' = elems C c
  /\ (forall el, amt C c' el == 2 * amt C c el)%Q
  /\ exp_init C refs (fun _ => false) c t [] = Ok e /\ exp_init C refs (fun _ => false) c' t [] = Ok e'
  /\ ~ (exp_energy ln e' == 2 * exp_energy ln e)%Q /\ (exp_energy ln e' == exp_energy ln e)%Q.
Proof.
  intros ln. exists demo, demo_exp, 14, 13, (PInt 300). do 2 eexists. split; [exact demo_wf|]. split; [reflexivity|].
  split; [intros e; all_elements e|]. split; [vm_compute; reflexivity|]. split; [vm_compute; reflexivity|]. split; [vm_compute; discriminate|reflexivity].
Qed.
Lemma exp_hash_witness : forall ln, exists C refs a b a' b', wf_chem C
  /\ exp_init C refs (fun _ => false) (xe_comp a) (xe_temp a) [] = Ok a /\ exp_init C refs (fun _ => false) (xe_comp b) (xe_temp b) [] = Ok b
  /\ exp_init C refs (fun _ => false) (xe_comp a') (xe_temp a') [] = Ok a' /\ exp_init C refs (fun _ => false) (xe_comp b') (xe_temp b') [] = Ok b'
  /\ exp_eq ln C a b = true /\ fst (exp_hash_key a) <> fst (exp_hash_key b)
  /\ exp_eq ln C a' b' = true /\ xe_comp a' = xe_comp b' /\ ~ same_text (snd (exp_hash_key a')) (snd (exp_hash_key b')).
Proof.
  intros ln. exists demo, demo_exp, {| xe_comp := 14; xe_temp := PInt 300; xe_base := (-5)%Q; xe_adjs := [] |}, {| xe_comp := 13; xe_temp := PInt 300; xe_base := (-5)%Q; xe_adjs := [] |},
    {| xe_comp := 14; xe_temp := PInt 300; xe_base := (-5)%Q; xe_adjs := [] |}, {| xe_comp := 14; xe_temp := PFloat 300; xe_base := (-5)%Q; xe_adjs := [] |}.
  split; [exact demo_wf|]. do 5 (split; [vm_compute; reflexivity|]). split; [vm_compute; discriminate|]. do 2 (split; [vm_compute; reflexivity|]). intros H. exact H.
Qed.

(* --- C57 --- *)
Definition lith (c : nat) (dhf : Q) (id : nat) : gentry :=
  {| ge_comp := c; ge_dhf := dhf; ge_vol := 20%Q; ge_temp := PInt 300; ge_adjs := [AConst Sisso 0%Q]; ge_id := id |}.
Lemma lith_init ln c dhf id : is_element demo c = true -> demo_init ln c dhf 20%Q (PInt 300) None (Some id) = Ok (lith c dhf id).
Proof. intros H. unfold demo_init, gibbs_init, gibbs_adjustment. rewrite H. reflexivity. Qed.
Lemma lith_built ln c dhf id : is_element demo c = true -> built ln demo (lith c dhf id).
Proof. intros H. unfold built. do 9 eexists. apply (lith_init ln c dhf id H). Qed.
Lemma asymmetric_witness : forall ln, exists C a b, wf_chem C /\ built ln C a /\ built ln C b /\ gibbs_eq ln C a b = true /\ gibbs_eq ln C b a = false.
Proof.
  intros ln. exists demo, (lith 4 (-1) 1), (lith 4 (-(100001001005 # 100000000000)) 1). split; [exact demo_wf|].
  split; [apply lith_built; reflexivity|]. split; [apply lith_built; reflexivity|]. split; vm_compute; reflexivity.
Qed.
Lemma gibbs_hash_witness : forall ln, exists C a b, wf_chem C /\ built ln C a /\ built ln C b /\ ge_comp a = ge_comp b /\ gibbs_eq ln C a b = true /\ gibbs_eq ln C b a = true
  /\ ~ (gibbs_energy ln C a == gibbs_energy ln C b)%Q /\ ~ same_gibbs_hash ln C a b.
Proof.
  intros ln. exists demo, (lith 4 (-1) 1), (lith 4 (-(1000001 # 1000000)) 1). split; [exact demo_wf|].
  split; [apply lith_built; reflexivity|]. split; [apply lith_built; reflexivity|]. do 3 (split; [vm_compute; reflexivity|]).
  assert (N : ~ (gibbs_energy ln demo (lith 4 (-1) 1) == gibbs_energy ln demo (lith 4 (-(1000001 # 1000000)) 1))%Q) by (vm_compute; discriminate).
  split; [exact N|]. intros (_ & H & _). exact (N H).
Qed.
Lemma same_id_witness : forall ln, exists C a b, wf_chem C /\ built ln C a /\ built ln C b /\ gibbs_eq ln C a b = true /\ gibbs_eq ln C b a = true /\ ge_comp a <> ge_comp b.
Proof.
  intros ln. exists demo, (lith 4 (-2) 1), (lith 5 (-1) 1). split; [exact demo_wf|].
  split; [apply lith_built; reflexivity|]. split; [apply lith_built; reflexivity|]. do 2 (split; [vm_compute; reflexivity|]). vm_compute. discriminate.
Qed.
Definition half_and_half : gentry :=
  {| ge_comp := 4; ge_dhf := (-3 # 2)%Q; ge_vol := 20%Q; ge_temp := PInt 300; ge_adjs := [AConst (Named 1) (1 # 2)%Q; AConst Sisso 0%Q]; ge_id := 1 |}.
