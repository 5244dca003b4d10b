(* Concrete runs of the job that balances pathways: witnesses and non-vacuity for C106 and C107. *)
From Verif Require Import Prelude NumQ SumQ UtilsModel UtilsSpec ReactionModel ReactionSpec ChemTable PathModel PathSpec SolverModel SolverSpec SolverCheck FlowModel SolveJobModel SolveJobSpec SolveJobProofs.
Open Scope nat_scope.

(* Elements: 0 Li, 1 O. *)
Definition lio_table : list chem_row :=
  [ ([(0, 1#1); (1, 1#1)], 0, 1#1);               (* 0 LiO *)
    ([(0, 3#1); (1, 1#1)], 1, 1#1);               (* 1 Li3O *)
    ([(1, 2#1)], 2, 1#1);                         (* 2 O2 *)
    ([(0, 1#1)], 3, 1#1);                         (* 3 Li *)
    ([(0, 2#1); (1, 2#1)], 0, 2#1);               (* 4 Li2O2 *)
    ([(0, 2#1); (1, 1#1)], 5, 1#1) ].             (* 5 Li2O *)
Definition lio : chem := table_chem lio_table.
Lemma lio_wf : wf_chem lio.
Proof. apply table_ok_wf. vm_compute. reflexivity. Qed.

Definition Q_same (a b : Q) : {a = b} + {a <> b}.
Proof. decide equality; [apply Pos.eq_dec|apply Z.eq_dec]. Defined.
Definition brxn_same (a b : brxn) : {a = b} + {a <> b}.
Proof.
  assert (P : forall x y : nat * Q, {x = y} + {x <> y}) by (decide equality; [apply Q_same|apply Nat.eq_dec]).
  assert (O : forall x y : option nat, {x = y} + {x <> y}) by (decide equality; apply Nat.eq_dec).
  decide equality; first [apply O|apply Bool.bool_dec|apply (list_eq_dec P)|apply (list_eq_dec Q_same)|apply (list_eq_dec Nat.eq_dec)|apply Nat.eq_dec].
Defined.
Definition entry_same (a b : entry) : {a = b} + {a <> b}.
Proof. decide equality; [apply Q_same|apply Nat.eq_dec|apply Nat.eq_dec]. Defined.
Definition crxn_same (a b : crxn) : {a = b} + {a <> b}.
Proof. decide equality; [apply brxn_same|apply (list_eq_dec entry_same)]. Defined.
Definition rxn_same (a b : rxn) : {a = b} + {a <> b}.
Proof.
  assert (P : forall x y : nat * Q, {x = y} + {x <> y}) by (decide equality; [apply Q_same|apply Nat.eq_dec]).
  decide equality; [apply brxn_same|apply crxn_same|]. decide equality; [apply (list_eq_dec P)|apply crxn_same].
Defined.
Definition same (a b : rxn) : bool := if rxn_same a b then true else false.
Lemma same_iff a b : same a b = true <-> a = b.
Proof. unfold same. destruct (rxn_same a b); split; intros H; congruence. Qed.

Definition en (i c : nat) (q : Q) : entry := {| e_id := i; e_comp := c; e_energy := q |}.
Definition rc (ents : list entry) (is : list nat) (ks : list Q) : rxn := RComputed (computed_init lio (map (fun i => nth i ents no_entry) is) ks None).
Definition one_path (rs : list rxn) (cs : list Q) : path rxn := {| p_rxns := rs; p_costs := cs; p_coeffs := None; p_balanced := false |}.
Definition two_pinv (a b : Q) (M : matrix) (v : list Q) : list Q := match M with [_; _] => [a; b] | _ => repeat 0%Q (length M) end.
Lemma two_pinv_length a b M v : length (two_pinv a b M v) = length M.
Proof. destruct M as [|x [|y [|z M]]]; cbn [two_pinv]; try (rewrite repeat_length; reflexivity). reflexivity. Qed.
(* The solution the pseudo-inverse is given; zeros for other numbers of species. *)
Definition some_lsq (ks : list Q) (r p c : list nat) : list Q := if Nat.eqb (length r + length p) (length ks) then ks else repeat 0%Q (length r + length p).
Lemma some_lsq_length ks r p c : length (some_lsq ks r p c) = length r + length p.
Proof. unfold some_lsq. destruct (Nat.eqb_spec (length r + length p) (length ks)) as [->|]; [reflexivity|apply repeat_length]. Qed.

Definition job_of (ents : list entry) (pre tar : list nat) (ks : list Q) (a b : Q) (fi : bool) (pathways : list (path rxn)) :=
  solve_job lio (some_lsq ks) (fun _ _ => 2) ents (seq 0 (length ents)) same (two_pinv a b) lifo lifo (fun l => l) (fun l => l) (fun _ => 0%Q) (fun _ _ _ => Err ValueError) 10 3
    {| sm_precursors := pre; sm_targets := tar; sm_open := None; sm_chempot := 0%Q |} 2 false fi pathways.
Definition made (pre tar : list nat) (ks : list Q) := post_init lio (some_lsq ks) (fun _ _ => 2) {| sm_precursors := pre; sm_targets := tar; sm_open := None; sm_chempot := 0%Q |}.

(* 3 LiO -> Li3O + O2 and Li3O -> LiO + 2 Li, in all 2 LiO -> O2 + 2 Li *)
Definition lio_entries (c : nat) : list entry := [en 0 c (-1)%Q; en 1 1 (-2)%Q; en 2 2 0%Q; en 3 3 0%Q].
Definition lio_paths (c : nat) : list (path rxn) := [one_path [rc (lio_entries c) [0; 1; 2] [-3; 1; 1]%Q; rc (lio_entries c) [0; 1; 3] [1; -1; 2]%Q] [1; 2]%Q].
Definition lio_job (c : nat) (fi : bool) := job_of (lio_entries c) [0] [2; 3] [-2; 1; 2]%Q 1 1 fi (lio_paths c).

Lemma lio_ids c i e : nth_error (lio_entries c) i = Some e -> e_id e = i.
Proof. destruct i as [|[|[|[|i]]]]; cbn; intros H; try (injection H as <-; reflexivity). destruct i; discriminate. Qed.
Lemma lio_made : exists b, made [0] [2; 3] [-2; 1; 2]%Q = Ok b /\ num_errors b = Some 0.
Proof. eexists. split; vm_compute; reflexivity. Qed.
Lemma lio_run : exists net0 p, lio_job 0 true = Ok (net0, [p]) /\ lio_job 0 false = Ok (net0, [p]) /\ p_coeffs p = Some [1; 1]%Q /\ p_costs p = [1; 2]%Q /\ length (p_rxns p) = 2
  /\ map (fun i => Qred (overall [1; 1]%Q (p_rxns p) i)) [0; 1; 2; 3] = [-2; 0; 1; 2]%Q.
Proof. do 2 eexists. split; [vm_compute; reflexivity|]. split; [vm_compute; reflexivity|]. split; [reflexivity|]. split; [reflexivity|]. split; [reflexivity|]. vm_compute. reflexivity. Qed.

(* Li is given as a precursor; the net reaction makes it: 2 Li2O -> 4 Li + O2, by way of LiO *)
Definition li2o_entries : list entry := [en 0 5 (-3)%Q; en 1 0 (-1)%Q; en 2 2 0%Q; en 3 3 0%Q].
Lemma wrong_side : exists net0 p ms, job_of li2o_entries [5; 3] [2] [-2; 4; 1]%Q 2 1 true
     [one_path [rc li2o_entries [0; 1; 3] [-1; 1; 1]%Q; rc li2o_entries [1; 2; 3] [-2; 1; 2]%Q] [1; 2]%Q] = Ok (net0, [p])
  /\ lowest_entry lio li2o_entries 3 (en 3 3 0) /\ (0 < turnover net0 3)%Q /\ p_coeffs p = Some ms /\ (0 < overall ms (p_rxns p) 3)%Q.
Proof.
  do 3 eexists. split; [vm_compute; reflexivity|]. split.
  - split; [do 3 right; left; reflexivity|]. split; [reflexivity|]. intros e [<-|[<-|[<-|[<-|[]]]]] H; try discriminate H. vm_compute. discriminate.
  - split; [vm_compute; reflexivity|]. split; reflexivity.
Qed.

(* The entry of LiO has the composition Li2O2. *)
Lemma unreduced_dropped : exists net0 p, lio_job 4 false = Ok (net0, [p]) /\ lio_job 4 true = Ok (net0, [])
  /\ reactants (base_of net0) = [0] /\ ~ circular (fun r : rxn => reactants (base_of r)) (fun r : rxn => products (base_of r)) [0] p.
Proof.
  do 2 eexists. split; [vm_compute; reflexivity|]. split; [vm_compute; reflexivity|]. split; [vm_compute; reflexivity|].
  intros (g & N & L & I & H & _). cbn [p_rxns] in I. 
  destruct g as [|a [|b g]]; cbn in L; try lia. inversion N as [|? ? Na _]; subst.
  assert (E : exists r, In r (a :: b :: g) /\ reactants (base_of r) = [0]).
  { destruct (I a (or_introl eq_refl)) as [Ea|[Ea|[]]]; [exists a; split; [left; reflexivity|rewrite <- Ea; vm_compute; reflexivity]|].
    destruct (I b (or_intror (or_introl eq_refl))) as [Eb|[Eb|[]]]; [exists b; split; [right; left; reflexivity|rewrite <- Eb; vm_compute; reflexivity]|].
    exfalso. apply Na. left. congruence. }
  destruct E as (r & Ir & Er). apply (H r Ir). intros c Hc. rewrite Er in Hc. exact Hc.
Qed.
