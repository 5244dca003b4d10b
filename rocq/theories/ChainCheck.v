(* A concrete run of both jobs: non-vacuity for C129. *)
From Coq Require Import Lqa.
From Verif Require Import Prelude NumQ SumQ ListFacts UtilsModel UtilsSpec ReactionModel ReactionSpec RxnSetModel RxnSetSpec PathModel SolverModel SolverSpec SolverCheck NetModel YenModel YenSpec ShortestPath FlowModel
  NetJobModel NetJobSpec SolveJobModel SolveJobSpec SolveJobCheck LinModel LinSpec PinvModel CapCheck ChainModel ChainSpec.
From Verif Require RxnSetCheck NetJobCheck.
Open Scope nat_scope.

(* Entries 13 LiO, 12 Li3O, 11 O2, 10 Li. *)
Definition kind (u : nat) : nat := 13 - u.
Definition level (u : nat) : Q := nth (kind u) [-1; -2; 0; 0]%Q 0%Q.
Definition by_kind (us : list nat) : list nat := RxnSetCheck.isort (fun a b => Nat.leb (kind a) (kind b)) us.
Definition backwards (us : list nat) : list nat := rev (seq 0 (length us)).
Definition se (u : nat) : sentry := {| uid := u; comp := kind u; form := red lio (kind u) |}.
(* 3 LiO -> Li3O + O2 and Li3O -> LiO + 2 Li *)
Definition first_step : srxn := {| x_entries := [se 13; se 12; se 11]; x_coeffs := [-3; 1; 1]%Q; x_data := 1; x_mu := None |}.
Definition second_step : srxn := {| x_entries := [se 12; se 13; se 10]; x_coeffs := [-1; 1; 2]%Q; x_data := 2; x_mu := None |}.
Definition one_set (l : list srxn) : rset := match from_rxns RxnSetCheck.arrange l [] None 0%Q with Ok s => s | Err _ => rset_init [] [] [] None 0%Q None end.
Definition sets : list rset := Eval vm_compute in [one_set [first_step; second_step]].
Definition by_data (a b : srxn) : bool := Nat.eqb (x_data a) (x_data b).
Definition no_inter (es : list entry) (rs : list rxn) (r : rxn) : result (list rxn) := Err ValueError.
Definition both (k max : nat) := both_jobs lio kind level by_kind backwards RxnSetCheck.arrange RxnSetCheck.argsort (fun l => l) 3 RxnSetCheck.lifo_any NetJobCheck.unit_cost (fun weight => search weight) by_data
  (exact_solve lio) (exact_rank lio) alike path_pinv lifo lifo (fun l => l) (fun l => l) (fun _ => 0%Q) no_inter 10
  (NetJobCheck.maker (Some [0]) (Some [2; 3]) k) lio_maker max false true sets.

Lemma both_run : exists net0 p, both 3 2 = Ok (net0, [p]) /\ option_map (map Qred) (p_coeffs p) = Some [1; 1]%Q /\ map Qred (p_costs p) = [1; 1]%Q
  /\ map (fun i => Qred (turnover net0 i)) [0; 1; 2; 3] = [-2; 0; 1; 2]%Q
  /\ map (fun r => map (fun i => Qred (turnover r i)) [0; 1; 2; 3]) (p_rxns p) = [[-3; 1; 1; 0]; [1; -1; 0; 2]]%Q.
Proof. do 2 eexists. split; [vm_compute; reflexivity|]. repeat (split; [vm_compute; reflexivity|]). vm_compute. reflexivity. Qed.

Lemma by_kind_perm us : NoDup us -> Permutation (by_kind us) us.
Proof. intros _. apply RxnSetCheck.isort_perm. Qed.
Lemma backwards_perm us : Permutation (backwards us) (seq 0 (length us)).
Proof. symmetry. apply Permutation_rev. Qed.

Lemma self_multiples r : multiples r r.
Proof.
  exists 1%Q, (map (fun ec => (fst ec, snd ec, snd ec)) (combine (x_entries r) (x_coeffs r))). split; [reflexivity|]. split.
  - split; rewrite map_map; cbn [fst snd]; (rewrite (map_ext _ (fun x => x)) by (intros [a b]; reflexivity)); rewrite map_id; apply Permutation_refl.
  - intros e x y H. apply in_map_iff in H as (p & E & _). injection E as <- <- <-. ring.
Qed.
(* Reactions between different entries are not nearly multiples of one another. *)
Lemma aligned_in r r' l e : aligned r r' l -> plain r -> plain r' -> In e (x_entries r) -> In e (x_entries r').
Proof.
  intros (A & B) (_ & L1 & _) (_ & L2 & _) H. rewrite <- (ReactionBaseProofs.combine_fst (x_entries r) (x_coeffs r)) in H by (symmetry; exact L1). apply in_map_iff in H as ([e' c] & <- & H).
  apply (Permutation_in _ (Permutation_sym A)) in H. apply in_map_iff in H as ([[e1 x] y] & E & H). cbn in E. injection E as -> _.
  assert (I : In (e', y) (combine (x_entries r') (x_coeffs r'))) by (apply (Permutation_in _ B); apply in_map_iff; exists (e', x, y); split; [reflexivity|exact H]). exact (in_combine_l _ _ _ _ I).
Qed.
Lemma aligned_back r r' l : aligned r r' l -> exists l', aligned r' r l'.
Proof. intros (A & B). exists (map (fun t => (fst (fst t), snd t, snd (fst t))) l). split; rewrite map_map; assumption. Qed.
Lemma sharp_apart rs : (forall r, In r rs -> plain r) ->
  (forall r r', In r rs -> In r' rs -> r = r' \/ exists e, In e (x_entries r) /\ ~ In e (x_entries r') \/ In e (x_entries r') /\ ~ In e (x_entries r)) -> sharp rs.
Proof.
  intros P A r r' I I' (l & _ & _ & _ & Al & _). destruct (A r r' I I') as [->|(e & [(H1 & H2)|(H1 & H2)])]; [apply self_multiples| |]; exfalso; apply H2.
  - exact (aligned_in r r' l e Al (P r I) (P r' I') H1).
  - destruct (aligned_back r r' l Al) as (l' & Al'). exact (aligned_in r' r l' e Al' (P r' I') (P r I) H1).
Qed.

Ltac plain_rxn := split; [repeat constructor; cbn; intuition discriminate|split; [reflexivity|intros c H; cbn in H; repeat (destruct H as [<-|H]; [discriminate|]); destruct H]].
Ltac one_of H := repeat (destruct H as [<-|H]; [|]); [..|destruct H].

Lemma both_hypotheses : exists ls, Forall2 (fun s l => get_rxns s = Ok l) sets ls /\ let given := concat ls in
  (forall x y, In x (all_entries given) -> In y (all_entries given) -> uid x = uid y -> x = y)
  /\ (forall r, In r given -> plain r) /\ sharp given /\ (forall r e, In r given -> In e (x_entries r) -> comp e = kind (uid e) /\ form e = red lio (comp e))
  /\ (forall f, In f ([0] ++ [2; 3]) -> red lio f = f /\ exists r e, In r given /\ In e (x_entries r) /\ form e = f).
Proof.
  exists [[first_step; second_step]]. split; [constructor; [vm_compute; reflexivity|constructor]|]. cbv zeta. change (concat [[first_step; second_step]]) with [first_step; second_step]. set (given := [first_step; second_step]).
  assert (P : forall r, In r given -> plain r) by (intros r [<-|[<-|[]]]; plain_rxn).
  assert (F : forall x, In x (all_entries given) -> x = se (uid x)) by (intros x H; cbn in H; one_of H; reflexivity).
  split; [intros x y Hx Hy U; rewrite (F x Hx), (F y Hy), U; reflexivity|]. split; [exact P|]. split; [|split].
  - apply sharp_apart; [exact P|]. intros r r' [<-|[<-|[]]] [<-|[<-|[]]]; [left; reflexivity| | |left; reflexivity]; right; exists (se 11).
    + left. split; [cbn; tauto|cbn; intuition discriminate].
    + right. split; [cbn; tauto|cbn; intuition discriminate].
  - intros r e Hr He. assert (I : In e (all_entries given)) by (apply in_flat_map; exists r; auto). rewrite (F e I). split; reflexivity.
  - intros f [<-|[<-|[<-|[]]]]; (split; [reflexivity|]); [exists first_step, (se 13)|exists first_step, (se 11)|exists second_step, (se 10)]; (split; [cbn; tauto|split; [cbn; tauto|reflexivity]]).
Qed.

(* --- two branches --- *)
(* Elements 0, 1, 2; X, Y, Z, XY, XZ, X2YZ *)
Definition xyz : chem := ChemTable.table_chem [ ([(0, 1#1)], 0, 1#1); ([(1, 1#1)], 1, 1#1); ([(2, 1#1)], 2, 1#1); ([(0, 1#1); (1, 1#1)], 3, 1#1); ([(0, 1#1); (2, 1#1)], 4, 1#1); ([(0, 2#1); (1, 1#1); (2, 1#1)], 5, 1#1) ].
Lemma xyz_wf : wf_chem xyz.
Proof. apply ChemTable.table_ok_wf. vm_compute. reflexivity. Qed.
Definition xe (u : nat) : sentry := {| uid := u; comp := u; form := u |}.
(* X + Y -> XY, X + Z -> XZ, XY + XZ -> X2YZ *)
Definition branch_one : srxn := {| x_entries := [xe 0; xe 1; xe 3]; x_coeffs := [-1; -1; 1]%Q; x_data := 1; x_mu := None |}.
Definition branch_two : srxn := {| x_entries := [xe 0; xe 2; xe 4]; x_coeffs := [-1; -1; 1]%Q; x_data := 2; x_mu := None |}.
Definition joining : srxn := {| x_entries := [xe 3; xe 4; xe 5]; x_coeffs := [-1; -1; 1]%Q; x_data := 3; x_mu := None |}.
Definition branches : list srxn := [branch_one; branch_two; joining].
Definition branch_sets : list rset := Eval vm_compute in [one_set branches].
Definition branch_jobs (ts : list nat) (k max : nat) := both_jobs xyz (fun u => u) (fun _ => 0%Q) (fun us => us) backwards RxnSetCheck.arrange RxnSetCheck.argsort (fun l => l) 3 RxnSetCheck.lifo_any NetJobCheck.unit_cost (fun weight => search weight) by_data
  (exact_solve xyz) (exact_rank xyz) alike path_pinv lifo lifo (fun l => l) (fun l => l) (fun _ => 0%Q) no_inter 10
  (NetJobCheck.maker (Some [0; 1; 2]) (Some ts) k) {| sm_precursors := [0; 1; 2]; sm_targets := ts; sm_open := None; sm_chempot := 0%Q |} max false false branch_sets.

Lemma branches_missed : Forall2 (fun s l => get_rxns s = Ok l) branch_sets [branches] /\ (forall r, In r branches -> plain r) /\ sharp branches
  /\ (forall u, (sumQ (fun x => amount x u) branches == if Nat.eqb u 0 then -2 else if Nat.eqb u 1 then -1 else if Nat.eqb u 2 then -1 else if Nat.eqb u 5 then 1 else 0)%Q)
  /\ forall k max, k <= 3 -> max <= 3 -> branch_jobs [5] (S k) (S max) = Err ValueError.
Proof.
  assert (P : forall r, In r branches -> plain r) by (intros r [<-|[<-|[<-|[]]]]; plain_rxn).
  split; [constructor; [vm_compute; reflexivity|constructor]|]. split; [exact P|]. split; [|split].
  - apply sharp_apart; [exact P|]. intros r r' [<-|[<-|[<-|[]]]] [<-|[<-|[<-|[]]]]; try (left; reflexivity); right.
    + exists (xe 1). left. split; [cbn; tauto|cbn; intuition discriminate].
    + exists (xe 1). left. split; [cbn; tauto|cbn; intuition discriminate].
    + exists (xe 1). right. split; [cbn; tauto|cbn; intuition discriminate].
    + exists (xe 2). left. split; [cbn; tauto|cbn; intuition discriminate].
    + exists (xe 5). left. split; [cbn; tauto|cbn; intuition discriminate].
    + exists (xe 5). left. split; [cbn; tauto|cbn; intuition discriminate].
  - intros u. do 6 (destruct u as [|u]; [vm_compute; reflexivity|]). cbn [branches sumQ fold_right]. unfold amount. cbn. reflexivity.
  - intros k max Lk Lm. do 4 (destruct k as [|k]; [do 4 (destruct max as [|max]; [vm_compute; reflexivity|]); lia|]). lia.
Qed.

Lemma made_exactly : exists b, post_init lio (exact_solve lio) (exact_rank lio) lio_maker = Ok b /\ num_errors b = Some 0.
Proof. eexists. split; vm_compute; reflexivity. Qed.
