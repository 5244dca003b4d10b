(* Concrete runs from entries to balanced pathways. *)
From Coq Require Import Lqa.
From Verif Require Import Prelude NumQ SumQ ListFacts UtilsModel UtilsSpec ReactionModel ReactionSpec EnumLinkModel EnumCheck RxnSetModel RxnSetSpec PathModel SolverModel SolverSpec SolverCheck NetModel ShortestPath FlowModel NetJobModel NetJobSpec YenModel YenSpec
  SolveJobModel SolveJobSpec SolveJobCheck LinModel LinSpec LinProofs LinCheck PinvModel CapCheck ChainModel ChainSpec ChainCheck ChainFindSpec ChainFindCheck RunModel JoinModel JoinSpec JoinCheck WholeModel.
From Verif Require RxnSetCheck NetJobCheck.
Open Scope list_scope.
Open Scope nat_scope.

Definition same_amounts (a b : srxn) : bool := forallb (fun u => Qeq_bool (amount a u) (amount b u)) [0; 1; 2; 3; 4; 5; 6].
Definition smaker (ps ts : list nat) : solver_maker := {| sm_precursors := ps; sm_targets := ts; sm_open := None; sm_chempot := 0%Q |}.
Definition whole_run (C : chem) (entries ps ts : list nat) (k max : nat) :=
  whole_flow C plain_entry (entry_solve C plain_entry) (entry_rank C plain_entry) (fun k => k) RxnSetCheck.arrange RxnSetCheck.argsort (fun l => l) RxnSetCheck.lifo_any (fun us => us) (fun us => seq 0 (length us)) 3 RxnSetCheck.lifo_any
    NetJobCheck.unit_cost (fun weight => search weight) same_amounts (exact_solve C) (exact_rank C) alike path_pinv lifo lifo (fun l => l) (fun l => l) (fun _ => 0%Q) no_inter 10
    [open_enumerator 1] entries (NetJobCheck.maker (Some ps) (Some ts) k) (smaker ps ts) max false false.
Definition report (o : result (rxn * list (path rxn))) : result (list Q * list (option (list Q) * list (list Q))) :=
  bind o (fun np => Ok (map (fun i => Qred (turnover (fst np) i)) four,
    map (fun p => (option_map (map Qred) (p_coeffs p), map (fun r => map (fun i => Qred (turnover r i)) four) (p_rxns p))) (snd np))).

(* --- the manganese oxides --- *)
Lemma mn_whole : report (whole_run mno four [0; 1] [2] 5 2) = Ok ([-1 # 3; -1 # 3; 1; 0]%Q,
  [(Some [1 # 3; 1 # 3]%Q, [[0; -1; 1; 1]; [-1; 0; 2; -1]]%Q); (Some [1; 1 # 3]%Q, [[0; -1; 1; 1]; [-1; 2; 0; -3]]%Q);
   (Some [1 # 6; 1 # 2]%Q, [[1; -2; 0; 3]; [-1; 0; 2; -1]]%Q); (Some [1 # 3]%Q, [[-1; -1; 3; 0]]%Q)]).
Proof. vm_compute. reflexivity. Qed.
(* Mn2O3 -> MnO + MnO2 and Mn + MnO2 -> 2 MnO, a third of each *)
Lemma mn_steps : exists w rs ps x y, join_run mno [open_enumerator 1] four (NetJobCheck.maker (Some [0; 1]) (Some [2]) 5) = Ok (w, rs, Some ps) /\ w_entries w = four
  /\ (forall z, In z [x; y] -> on_pathways NetJobCheck.unit_cost rs ps z) /\ unrelated [x; y] /\ ~ like x y
  /\ (forall u, In u four -> (together [1 # 3; 1 # 3]%Q [x; y] u == nth u [-1 # 3; -1 # 3; 1; 0]%Q 0)%Q)
  /\ forall a b, In a rs -> In b rs -> same_amounts a b = true -> like a b.
Proof.
  assert (J : exists w rs ps, join_run mno [open_enumerator 1] four (NetJobCheck.maker (Some [0; 1]) (Some [2]) 5) = Ok (w, rs, Some ps) /\ w_entries w = four
    /\ exists x y p, nth_error rs 2 = Some x /\ nth_error rs 7 = Some y /\ In p ps /\ goes_through NetJobCheck.unit_cost rs p [x; y] /\ unrelated [x; y] /\ ~ like x y
    /\ (forall u, In u four -> (together [1 # 3; 1 # 3]%Q [x; y] u == nth u [-1 # 3; -1 # 3; 1; 0]%Q 0)%Q)
    /\ forall a b, In a rs -> In b rs -> same_amounts a b = true -> like a b).
  { do 3 eexists. split; [vm_compute; reflexivity|]. split; [reflexivity|]. do 3 eexists. split; [reflexivity|]. split; [reflexivity|]. split; [right; right; right; left; reflexivity|].
    split; [constructor; [split; [eexists; split; reflexivity|reflexivity]|]; constructor; [split; [eexists; split; reflexivity|reflexivity]|constructor]|].
    split; [|split; [intros H; specialize (H 1); vm_compute in H; discriminate H|split]].
    - intros [|a [|b [|c ks]]] L H; try discriminate L. pose proof (H 0) as H0. pose proof (H 1) as H1. unfold together, amount in H0, H1. cbn in H0, H1. constructor; [lra|]. constructor; [lra|]. constructor.
    - intros u I. cbn in I. one_of I; vm_compute; reflexivity.
    - intros a b Ia Ib H. cbn in Ia, Ib. one_of Ia; one_of Ib; try (vm_compute in H; discriminate H); intros u; reflexivity. }
  destruct J as (w & rs & ps & E & Ew & x & y & p & _ & _ & Ip & G & U & L & T & S). exists w, rs, ps, x, y. split; [exact E|]. split; [exact Ew|]. split; [|split; [exact U|split; [exact L|split; [exact T|exact S]]]].
  intros z Iz. exists p, [x; y]. auto.
Qed.

(* --- two branches --- *)
Lemma branch_determined : determined branching (fun i => red branching (e_comp (plain_entry i))) four [6].
Proof.
  split; [repeat constructor; cbn; intuition discriminate|]. exists [(-1)%Q; (-1)%Q; (-1)%Q; (-1)%Q; 1%Q].
  split; [|intros [|[|[|[|[|i]]]]] k K; cbn in K; try (injection K as <-; cbn; split; intros; lia || reflexivity); destruct i; discriminate].
  split; [|split].
  - split; [reflexivity|]. intros e. do 4 (destruct e as [|e]; [vm_compute; reflexivity|]). apply branching_other; lia.
  - intros k [<-|[<-|[<-|[<-|[<-|[]]]]]]; vm_compute; discriminate.
  - intros w (L & K). destruct w as [|x [|y [|z [|a [|b [|]]]]]]; try discriminate. exists b. pose proof (K 0) as K0. pose proof (K 1) as K1. pose proof (K 2) as K2. pose proof (K 3) as K3.
    unfold ReactionSpec.net in K0, K1, K2, K3. cbn [combine map app four] in K0, K1, K2, K3. rewrite !sumQ_cons in K0, K1, K2, K3. cbn in K0, K1, K2, K3. repeat constructor; lra.
Qed.
(* All three reactions are in the network, and once each they make the target. *)
Lemma branch_whole : exists w rs ps xs, join_run branching [open_enumerator 1] seven (NetJobCheck.maker (Some four) (Some [6]) 5) = Ok (w, rs, Some ps) /\ w_entries w = seven
  /\ incl xs rs /\ length xs = 3 /\ unrelated xs /\ (forall u, In u seven -> (together [1; 1; 1]%Q xs u == nth u [-1; -1; -1; -1; 0; 0; 1]%Q 0)%Q)
  /\ forall max, 1 <= max <= 3 -> whole_run branching seven four [6] 5 max = Err ValueError.
Proof.
  assert (J : exists w rs ps, join_run branching [open_enumerator 1] seven (NetJobCheck.maker (Some four) (Some [6]) 5) = Ok (w, rs, Some ps) /\ w_entries w = seven
    /\ exists x y z, (nth_error rs 1 = Some x /\ nth_error rs 3 = Some y /\ nth_error rs 5 = Some z) /\ unrelated [x; y; z] /\ (forall u, In u seven -> (together [1; 1; 1]%Q [x; y; z] u == nth u [-1; -1; -1; -1; 0; 0; 1]%Q 0)%Q)).
  { do 3 eexists. split; [vm_compute; reflexivity|]. split; [reflexivity|]. do 3 eexists. split; [split; [reflexivity|split; reflexivity]|]. split.
    - intros [|a [|b [|c [|d ks]]]] L H; try discriminate L. pose proof (H 0) as H0. pose proof (H 2) as H2. pose proof (H 6) as H6. unfold together, amount in H0, H2, H6. cbn in H0, H2, H6.
      constructor; [lra|]. constructor; [lra|]. constructor; [lra|]. constructor.
    - intros u I. cbn in I. one_of I; vm_compute; reflexivity. }
  destruct J as (w & rs & ps & E & Ew & x & y & z & (I1 & I2 & I3) & U & T). exists w, rs, ps, [x; y; z]. split; [exact E|]. split; [exact Ew|]. split; [|split; [reflexivity|split; [exact U|split; [exact T|]]]].
  { intros a [<-|[<-|[<-|[]]]]; eapply nth_error_In; eassumption. }
  intros max H. do 4 (destruct max as [|max]; [try lia; vm_compute; reflexivity|]). lia.
Qed.
