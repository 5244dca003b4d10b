(* Concrete runs of both jobs: non-vacuity for C134, and a run that fails. *)
From Coq Require Import Lqa.
From Verif Require Import Prelude NumQ SumQ ListFacts UtilsModel UtilsSpec ReactionModel ReactionSpec RxnSetModel RxnSetSpec PathModel SolverModel SolverSpec SolverCheck NetModel YenModel YenSpec ShortestPath FlowModel
  NetJobModel NetJobSpec SolveJobModel SolveJobSpec SolveJobCheck LinModel LinSpec PinvModel CapSpec CapCheck ChainModel ChainSpec ChainProofs ChainCheck ChainFindSpec.
From Verif Require RxnSetCheck NetJobCheck.
Open Scope nat_scope.

Definition find_jobs (k max : nat) := both_jobs lio kind level by_kind backwards RxnSetCheck.arrange RxnSetCheck.argsort (fun l => l) 3 RxnSetCheck.lifo_any NetJobCheck.unit_cost (fun weight => search weight) by_data
  (exact_solve lio) (exact_rank lio) alike path_pinv lifo lifo (fun l => l) (fun l => l) (fun _ => 0%Q) no_inter 10
  (NetJobCheck.maker (Some [0]) (Some [2; 3]) k) lio_maker max false false sets.
Definition find_network (k : nat) := network_job RxnSetCheck.arrange RxnSetCheck.argsort (fun l => l) 3 RxnSetCheck.lifo_any (formula_of lio kind) (epa_of lio kind level) NetJobCheck.unit_cost (fun weight => search weight)
  (NetJobCheck.maker (Some [0]) (Some [2; 3]) k) sets.
Definition two_steps : list srxn := [first_step; second_step].
Definition ids : list nat := [13; 12; 11; 10].

(* What the network job and the solver job make of it. *)
Lemma find_network_run : exists w ps, find_network 3 = Ok (w, two_steps, Some ps) /\ w_entries w = ids
  /\ forall x, In x two_steps -> on_pathways NetJobCheck.unit_cost two_steps ps x.
Proof.
  do 2 eexists. split; [vm_compute; reflexivity|]. split; [reflexivity|]. intros x H. eexists. exists two_steps. split; [right; left; reflexivity|]. split; [|exact H].
  constructor; [split; [eexists; split; reflexivity|reflexivity]|]. constructor; [split; [eexists; split; reflexivity|reflexivity]|constructor].
Qed.
Lemma find_run : exists net0 p, find_jobs 3 2 = Ok (net0, [p]) /\ option_map (map Qred) (p_coeffs p) = Some [1; 1]%Q
  /\ map (fun r => map (fun i => Qred (turnover r i)) [0; 1; 2; 3]) (p_rxns p) = [[-3; 1; 1; 0]; [1; -1; 0; 2]]%Q
  /\ (forall x y, In x two_steps -> In y two_steps -> by_data x y = true -> like x y)
  /\ (forall x y, In x two_steps -> In y two_steps -> alike (rxn_of lio kind level by_kind ids x) (rxn_of lio kind level by_kind ids y) = true -> like x y)
  /\ (forall x, In x two_steps -> alike (rxn_of lio kind level by_kind ids x) net0 = true -> amounts_of (by_kind ids) x (turnover net0))
  /\ (forall x r, In x two_steps -> amounts_of (by_kind ids) x (turnover r) -> alike (rxn_of lio kind level by_kind ids x) r = true)
  /\ (forall x, In x two_steps -> ~ amounts_of (by_kind ids) x (turnover net0))
  /\ forall i u, nth_error (by_kind ids) i = Some u -> (together [1; 1]%Q two_steps u == turnover net0 i)%Q.
Proof.
  do 2 eexists. split; [vm_compute; reflexivity|]. split; [vm_compute; reflexivity|]. split; [vm_compute; reflexivity|].
  split; [intros x y [<-|[<-|[]]] [<-|[<-|[]]] H; try discriminate H; intros u; reflexivity|].
  split; [intros x y [<-|[<-|[]]] [<-|[<-|[]]] H; try (vm_compute in H; discriminate H); intros u; reflexivity|].
  split; [intros x [<-|[<-|[]]] H; vm_compute in H; discriminate H|].
  split; [intros x r I H|].
  { apply forallb_forall. intros i _. apply Qeq_bool_iff. rewrite (H i). apply (rxn_turnover lio kind level by_kind (fun us N => by_kind_perm us N) ids); [repeat constructor; cbn; intuition discriminate|].
    destruct I as [<-|[<-|[]]]; intros e He; cbn in He; one_of He; cbn; tauto. }
  split; [intros x [<-|[<-|[]]] H; [specialize (H 1)|specialize (H 2)]; vm_compute in H; discriminate H|].
  intros i u H. do 4 (destruct i as [|i]; [vm_compute in H; injection H as <-; vm_compute; reflexivity|]). vm_compute in H. destruct i; discriminate.
Qed.
Lemma keeps_identity : keeps_all alike (fun l => l).
Proof. intros l _ r I. exists r. split; [exact I|apply alike_refl]. Qed.
Lemma two_unrelated : unrelated two_steps.
Proof.
  intros [|a [|b [|c ks]]] L H; try discriminate L. pose proof (H 11) as H2. pose proof (H 10) as H3. unfold together, amount in H2, H3. cbn in H2, H3.
  constructor; [lra|]. constructor; [lra|]. constructor.
Qed.
Lemma two_unlike : forall i j x y, i < j -> nth_error two_steps i = Some x -> nth_error two_steps j = Some y -> ~ like x y.
Proof.
  intros [|[|i]] [|[|j]] x y L Hx Hy H; try lia; cbn in Hx, Hy; try (destruct j; discriminate); try (destruct i; discriminate).
  injection Hx as <-. injection Hy as <-. specialize (H 11). vm_compute in H. discriminate H.
Qed.

(* More reactions are allowed than there are: both steps are on the pathways found, and nothing comes out. *)
Lemma few_fail : (exists w ps, find_network 3 = Ok (w, two_steps, Some ps) /\ w_entries w = ids /\ forall x, In x two_steps -> on_pathways NetJobCheck.unit_cost two_steps ps x)
  /\ unrelated two_steps
  /\ (exists net0 p, find_jobs 3 2 = Ok (net0, [p]) /\ forall i u, nth_error (by_kind ids) i = Some u -> (together [1; 1]%Q two_steps u == turnover net0 i)%Q)
  /\ forall max, max <= 3 -> find_jobs 3 (3 + max) = Err ValueError.
Proof.
  split; [exact find_network_run|]. split; [exact two_unrelated|]. split; [destruct find_run as (net0 & p & E & _ & _ & _ & _ & _ & _ & _ & S); exists net0, p; split; assumption|].
  intros max H. do 4 (destruct max as [|max]; [vm_compute; reflexivity|]). lia.
Qed.

(* With a reaction between intermediates, 2 Li3O -> O2 + 6 Li. *)
Definition third_step : srxn := {| x_entries := [se 12; se 11; se 10]; x_coeffs := [-2; 1; 6]%Q; x_data := 3; x_mu := None |}.
Definition inter_jobs (k max : nat) := both_jobs lio kind level by_kind backwards RxnSetCheck.arrange RxnSetCheck.argsort (fun l => l) 3 RxnSetCheck.lifo_any NetJobCheck.unit_cost (fun weight => search weight) by_data
  (exact_solve lio) (exact_rank lio) alike path_pinv lifo lifo (fun l => l) (fun l => l) (fun _ => 0%Q) (fun _ _ _ => Ok [rxn_of lio kind level by_kind ids third_step]) 10
  (NetJobCheck.maker (Some [0]) (Some [2; 3]) k) lio_maker max true true sets.
Definition three_steps : list srxn := two_steps ++ [third_step].
Lemma inter_run : exists net0 p p', inter_jobs 3 2 = Ok (net0, [p; p'])
  /\ map (fun q => option_map (map Qred) (p_coeffs q)) [p; p'] = [Some [2 # 3; 1 # 3]; Some [1; 1]]%Q
  /\ map (fun q => map (fun r => map (fun i => Qred (turnover r i)) [0; 1; 2; 3]) (p_rxns q)) [p; p'] = [[[-3; 1; 1; 0]; [0; -2; 1; 6]]; [[-3; 1; 1; 0]; [1; -1; 0; 2]]]%Q
  /\ plain third_step /\ (forall e, In e (x_entries third_step) -> In e (all_entries two_steps))
  /\ (forall x y, In x three_steps -> In y three_steps -> alike (rxn_of lio kind level by_kind ids x) (rxn_of lio kind level by_kind ids y) = true -> like x y)
  /\ (forall x y, In x three_steps -> In y [third_step] -> multiples x y \/ multiples y x ->
        alike (rxn_of lio kind level by_kind ids x) (rxn_of lio kind level by_kind ids y) = true /\ alike (rxn_of lio kind level by_kind ids y) (rxn_of lio kind level by_kind ids x) = true)
  /\ (forall x, In x three_steps -> alike (rxn_of lio kind level by_kind ids x) net0 = true -> amounts_of (by_kind ids) x (turnover net0))
  /\ (forall x r, In x three_steps -> amounts_of (by_kind ids) x (turnover r) -> alike (rxn_of lio kind level by_kind ids x) r = true)
  /\ (forall x, In x three_steps -> ~ amounts_of (by_kind ids) x (turnover net0))
  /\ unrelated [first_step; third_step] /\ ~ circle (takes lio kind) (gives lio kind) [0] [first_step; third_step]
  /\ forall i u, nth_error (by_kind ids) i = Some u -> (together [2 # 3; 1 # 3]%Q [first_step; third_step] u == turnover net0 i)%Q.
Proof.
  do 3 eexists. split; [vm_compute; reflexivity|]. split; [vm_compute; reflexivity|]. split; [vm_compute; reflexivity|].
  split. { split; [repeat constructor; cbn; intuition discriminate|]. split; [reflexivity|]. intros c H. cbn in H. one_of H; discriminate. }
  split; [intros e H; cbn in H |- *; one_of H; cbn; tauto|].
  split; [intros x y [<-|[<-|[<-|[]]]] [<-|[<-|[<-|[]]]] H; try (vm_compute in H; discriminate H); intros u; reflexivity|].
  split.
  { assert (Ap : forall x y, In x two_steps -> y = third_step -> ~ multiples x y /\ ~ multiples y x).
    { intros x y Hx ->. assert (Sz : forall a b, multiples a b -> forall e, In e (map fst (combine (x_entries a) (x_coeffs a))) -> In e (map fst (combine (x_entries b) (x_coeffs b)))).
      { intros a b (k & l & _ & (P1 & P2) & _) e He. apply (Permutation_in _ (Permutation_map fst P2)). apply (Permutation_in _ (Permutation_sym (Permutation_map fst P1))) in He. rewrite map_map in *. exact He. }
      split; intros M; pose proof (Sz _ _ M) as S.
      - specialize (S (se 13)). destruct Hx as [<-|[<-|[]]]; cbn in S; destruct S as [S|[S|[S|[]]]]; auto; discriminate.
      - destruct Hx as [<-|[<-|[]]]; [specialize (S (se 10))|specialize (S (se 11))]; cbn in S; destruct S as [S|[S|[S|[]]]]; auto; discriminate. }
    intros x y Hx [<-|[]] M. apply in_app_iff in Hx as [Hx|[<-|[]]]; [|split; vm_compute; reflexivity]. destruct (Ap x _ Hx eq_refl) as (N1 & N2). destruct M; contradiction. }
  split; [intros x [<-|[<-|[<-|[]]]] H; vm_compute in H; discriminate H|].
  split; [intros x r I H|].
  { apply forallb_forall. intros i _. apply Qeq_bool_iff. rewrite (H i). apply (rxn_turnover lio kind level by_kind (fun us N => by_kind_perm us N) ids); [repeat constructor; cbn; intuition discriminate|].
    destruct I as [<-|[<-|[<-|[]]]]; intros e He; cbn in He; one_of He; cbn; tauto. }
  split; [intros x [<-|[<-|[<-|[]]]] H; [specialize (H 1)|specialize (H 2)|specialize (H 1)]; vm_compute in H; discriminate H|].
  split.
  { intros [|a [|b [|c ks]]] L H; try discriminate L. pose proof (H 13) as H2. pose proof (H 10) as H3. unfold together, amount in H2, H3. cbn in H2, H3. constructor; [lra|]. constructor; [lra|]. constructor. }
  split.
  { intros (group & rest & P & L & H). assert (I1 : In first_step group).
    { pose proof (Permutation_length P) as Lp. rewrite app_length in Lp. cbn in Lp. assert (rest = []) as -> by (destruct rest; [reflexivity|cbn in Lp; lia]). rewrite app_nil_r in P. apply (Permutation_in _ P). left. reflexivity. }
    apply in_split in I1 as (a & b & Eg). destruct (H a first_step b Eg) as (r' & f & _ & (u & Ef & U) & _ & Ng). apply Ng. left.
    assert (Hu : u = 13).
    { unfold amount in U. cbn -[Nat.eqb Qlt] in U. destruct (Nat.eqb_spec 13 u); [symmetry; assumption|]. exfalso. destruct (Nat.eqb 12 u), (Nat.eqb 11 u); lra. }
    subst u. exact Ef. }
  intros i u H. do 4 (destruct i as [|i]; [vm_compute in H; injection H as <-; vm_compute; reflexivity|]). vm_compute in H. destruct i; discriminate.
Qed.
