(* Concrete runs of the search for reactions between intermediates when oxygen is open: manganese oxides in air. *)
From Coq Require Import Lqa.
From Verif Require Import Prelude NumQ SumQ UtilsModel UtilsSpec ReactionModel ReactionSpec ReactionBalanceProofs ChemTable EnumModel EnumSpec EnumLinkModel EnumCheck RxnSetModel RxnSetSpec LinModel LinSpec LinProofs LinBalanceProofs LinCheck SolveJobModel SolveJobSpec ChainCheck MinSpec JoinModel JoinSpec JoinCheck
  MinJoinModel MinJoinSpec MinJoinCheck IntModel IntSpec IntProofs IntCheck IntMinModel IntMinSpec IntMinCheck AnyWholeCheck IntOpenModel IntOpenSpec.
From Verif Require RxnSetCheck.
Open Scope list_scope.
Open Scope nat_scope.

(* Mn, Mn2O3, MnO, MnO2 and O2; the elements are Mn and O *)
Definition airy : chem := table_chem (mn_table ++ [([(1, 2%Q)], 4, 1%Q)]).
Definition in_air : list entry := oxides ++ [warm 4 0].
Definition between_in_air (l : list nat) (ks : list Q) := computed_init airy (map (with_index in_air) l) ks None.
(* Mn2O3 -> MnO + MnO2 for open oxygen, and Mn + Mn2O3 -> 3 MnO *)
Definition split_in_air : rxn := ROpen {| o_base := between_in_air [1; 2; 3] [-1; 1; 1]%Q; chempots := [(1, (-3)%Q)] |}.
Definition back_together : rxn := RComputed (between_in_air [0; 1; 2] [-1; -1; 3]%Q).
Definition no_grand (mids ts : list nat) : result rset := set_of_objects airy (with_index in_air) RxnSetCheck.arrange RxnSetCheck.argsort (fun l => l) mids false (Ok []).
Definition open_run (ub um : bool) (cutoff : Q) :=
  find_open airy (exact_solve airy) (exact_rank airy) (fun k => k) free_build mn_kinks (fun l => l) RxnSetCheck.arrange RxnSetCheck.argsort (fun l => l) RxnSetCheck.lifo_any RxnSetCheck.lifo_any RxnSetCheck.lifo_any (fun l => l) 10 10 10 10 no_grand 1 (-3)%Q 4 cutoff ub um in_air [split_in_air] back_together.

Lemma airy_wf : wf_chem airy.
Proof. apply table_ok_wf. vm_compute. reflexivity. Qed.
Lemma airy_big : forall c e, In e (ReactionModel.elems airy c) -> (1 # 100 < amt airy (red airy c) e)%Q.
Proof.
  intros c e H. do 5 (destruct c as [|c]; [cbn in H; repeat (destruct H as [<-|H]; [vm_compute; reflexivity|]); destruct H|]). cbn in H. destruct c; destruct H.
Qed.
Lemma airy_other l e : 2 <= e -> (ReactionSpec.net airy l e == 0)%Q.
Proof.
  intros H. apply (net_unlisted airy airy_wf). intros I. apply in_flat_map in I as (c & _ & I).
  do 5 (destruct c as [|c]; [cbn in I; repeat (destruct I as [<-|I]; [lia|]); destruct I|]). cbn in I. destruct c; destruct I.
Qed.
Lemma air_ids : forall i e, nth_error in_air i = Some e -> e_id e = i.
Proof. intros [|[|[|[|[|i]]]]] e H; cbn in H; try (injection H as <-; reflexivity); destruct i; discriminate. Qed.
Lemma air_elems : forall i e, nth_error in_air i = Some e -> ReactionModel.elems airy (e_comp e) <> [].
Proof. intros [|[|[|[|[|i]]]]] e H; cbn in H; try (injection H as <-; discriminate); destruct i; discriminate. Qed.
Lemma air_names : names_entries in_air split_in_air /\ names_entries in_air back_together.
Proof. split; (split; [discriminate|]; intros e k I; cbn in I; repeat (destruct I as [I|I]; [injection I as <- <-; eexists; split; reflexivity|]); destruct I). Qed.
Lemma air_full : each_with_amount split_in_air.
Proof. intros c [E|(mus & E)]; [discriminate|]. injection E as <- _. reflexivity. Qed.
Lemma air_once : forall i j a b, target back_together i -> intermediate airy in_air [split_in_air] back_together j -> nth_error in_air i = Some a -> nth_error in_air j = Some b -> red airy (e_comp b) = red airy (e_comp a) -> j = i \/ (e_energy a / natoms airy (e_comp a) < e_energy b / natoms airy (e_comp b))%Q.
Proof.
  intros i j a b _ _ Ea Eb. do 5 (destruct i as [|i]; [do 5 (destruct j as [|j]; [cbn in Ea, Eb; injection Ea as <-; injection Eb as <-; vm_compute; intros; try (left; reflexivity); discriminate|]); destruct j; discriminate|]). destruct i; discriminate.
Qed.
Lemma air_target : target back_together 2.
Proof. exists (warm 2 (-4)), 3%Q. split; [right; right; left; reflexivity|]. split; reflexivity. Qed.
Lemma air_contains : forall t, target back_together t -> exists x, occurs airy in_air t x /\ x <> 1.
Proof.
  intros t (e & k & I & Hk & <-). exists 0. split; [|discriminate]. cbn in I. repeat (destruct I as [I|I]; [injection I as <- <-; eexists; split; [reflexivity|cbn; auto]|]). destruct I.
Qed.
Lemma air_mid i : i < 5 -> intermediate airy in_air [split_in_air] back_together i.
Proof.
  intros H. destruct i as [|i]; [right; right; exists (warm 0 0), 0; split; reflexivity|]. destruct (Nat.eq_dec i 3) as [->|N]; [right; right; exists (warm 4 0), 1; split; reflexivity|].
  left. exists split_in_air. destruct i as [|[|[|i]]]; [exists (warm 1 (-10)), (-1)%Q|exists (warm 2 (-4)), 1%Q|exists (warm 3 (-54 # 10)), 1%Q|lia]; (split; [left; reflexivity|]; split; [cbn; tauto|reflexivity]).
Qed.
Lemma air_mids i : intermediate airy in_air [split_in_air] back_together i -> i < 5.
Proof.
  intros [(r & e & k & [<-|[]] & Ie & <-)|[(e & k & Ie & _ & <-)|(e & el & Ee & _)]].
  - cbn in Ie. repeat (destruct Ie as [E|Ie]; [injection E as <- <-; cbn; lia|]). destruct Ie.
  - cbn in Ie. repeat (destruct Ie as [E|Ie]; [injection E as <- <-; cbn; lia|]). destruct Ie.
  - assert (i < length in_air) by (apply nth_error_Some; rewrite Ee; discriminate). cbn in *. assumption.
Qed.
Lemma air_formula i : i < 5 -> formula_at airy in_air i = i.
Proof. intros H. destruct i as [|[|[|[|[|i]]]]]; try reflexivity. lia. Qed.
Lemma air_occurs i el : i < 5 -> (occurs airy in_air i el <-> In el (ReactionModel.elems airy i)).
Proof.
  intros H. unfold occurs. destruct i as [|[|[|[|[|i]]]]]; try lia; (split; [intros (e & [= <-] & I); exact I|intros I; eexists; split; [reflexivity|exact I]]).
Qed.
Lemma air_any_elem j el : j < 5 -> In el (ReactionModel.elems airy j) -> el = 0 \/ el = 1.
Proof. intros H I. destruct j as [|[|[|[|[|j]]]]]; try lia; cbn in I; intuition. Qed.

(* --- the interfaces --- *)
Lemma air_kinks : kinks_make_sense airy in_air [split_in_air] back_together free_build mn_kinks.
Proof.
  intros c s ((_ & _) & Mc & _ & Hs). exists tt. split; [reflexivity|]. intros a b Ia Ib. eexists. split; [reflexivity|]. intros kink I.
  assert (Self : forall e, In e c -> exists e', In e' s /\ formula_at airy in_air e' = e).
  { intros e Ie. exists e. split; [|apply air_formula, air_mids, Mc; exact Ie]. apply Hs. split; [apply Mc; exact Ie|]. intros el Hel. exists e. split; assumption. }
  assert (Sys : forall e, In e c -> e = 1 \/ e = 3 -> forall f, f < 5 -> exists e', In e' s /\ formula_at airy in_air e' = f).
  { intros e Ie He f Lf. exists f. split; [|apply air_formula; exact Lf]. apply Hs. split; [apply air_mid; exact Lf|]. intros el Hel. exists e. split; [exact Ie|]. apply air_occurs in Hel; [|exact Lf]. apply air_occurs; [lia|].
    destruct (air_any_elem f el Lf Hel) as [->| ->]; destruct He as [->| ->]; cbn; auto. }
  assert (Two : forall x, In x [a; b] -> In x c) by (intros x [<-|[<-|[]]]; assumption).
  destruct (mn_kink_cases tt a b _ kink eq_refl I) as [->|[->|(_ & H13 & G)]]; cbn [fst snd].
  1, 2: split; [discriminate|split; [discriminate|]]; intros f [[<-|[]]|[<-|[]]]; apply Self; assumption.
  assert (S2 : forall f, f < 5 -> exists e', In e' s /\ formula_at airy in_air e' = f).
  { destruct H13 as [H|H]; [apply (Sys 1 (Two 1 H)); auto|apply (Sys 3 (Two 3 H)); auto]. }
  destruct G as [[-> _]|[[->| ->] _]]; cbn [fst snd]; (split; [discriminate|split; [discriminate|]]); intros f Hf; apply S2; cbn in Hf; lia.
Qed.
Lemma air_sure : sure_kink airy in_air [split_in_air] back_together free_build mn_kinks [0; 3] [2].
Proof.
  split; [|exists 2; split; [left; reflexivity|exact air_target]].
  exists [0; 3], ([0; 3], [2]). split; [apply few_two; discriminate|]. split; [intros i I; apply air_mid; cbn in I; lia|]. split.
  - exists [0; 1]. split; [repeat constructor; cbn; intuition discriminate|]. split; [cbn; lia|]. intros el. split.
    + intros I. exists 3. split; [right; left; reflexivity|]. apply air_occurs; [lia|exact I].
    + intros (i & [<-|[<-|[]]] & O); (apply air_occurs in O; [|lia]); cbn in *; tauto.
  - intros s (_ & _ & _ & Hs). assert (S : forall e, e < 5 -> most_stable_only airy in_air s e e).
    { intros e He. split; [apply air_formula; exact He|]. split.
      - apply Hs. split; [apply air_mid; exact He|]. intros el Hel. exists 3. split; [right; left; reflexivity|]. apply air_occurs in Hel; [|exact He]. apply air_occurs; [lia|]. destruct (air_any_elem e el He Hel) as [->| ->]; cbn; auto.
      - intros x Ix Fx. left. rewrite air_formula in Fx; [exact Fx|]. apply air_mids, Hs. exact Ix. }
    split; [repeat (apply Forall2_cons; [apply S; lia|]); apply Forall2_nil|]. split; [apply Forall2_cons; [apply S; lia|apply Forall2_nil]|]. exists tt. split; [reflexivity|].
    intros a b [[E _]|[E|E]]; [discriminate|injection E as <- <-|injection E as <- <-]; (eexists; split; [reflexivity|right; left; reflexivity]).
Qed.
Lemma air_grand : forall targets mids, targets_of back_together = Ok targets -> intermediates airy (fun l => l) in_air [split_in_air] targets = Ok mids ->
  exists s, no_grand mids (map e_id targets) = Ok s /\ well_formed s /\ r_entries s = RxnSetCheck.arrange (map (in_set airy (with_index in_air)) mids).
Proof.
  intros targets mids Et Em. vm_compute in Et. injection Et as <-. vm_compute in Em. injection Em as <-. eexists. split; [vm_compute; reflexivity|]. split; [|vm_compute; reflexivity].
  split; [constructor|]. split; [reflexivity|]. split; [reflexivity|]. intros n is cs ds [].
Qed.

(* --- 2 MnO2 -> 2 MnO + O2 --- *)
Lemma air_solids c : few c -> (forall i, In i c -> i < 4) -> few_solids airy in_air [split_in_air] back_together 4 c.
Proof. intros F L. split; [exact F|]. intros i I. specialize (L i I). split; [apply air_mid; lia|]. unfold is_gas. rewrite air_formula by lia. lia. Qed.
Lemma air_reacts : gas_reacts airy in_air [split_in_air] back_together 4 [3] [2; 4].
Proof.
  split; [|split; [|split]].
  - left. split; [apply air_solids; [apply few_one|cbn; intros i I; lia]|]. exists [2], [4]. split; [apply air_solids; [apply few_one|cbn; intros i I; lia]|]. split; [|apply Permutation_refl].
    split; [repeat constructor; intros []|]. split; [discriminate|]. intros i [<-|[]]. split; [apply air_mid; lia|reflexivity].
  - intros i [<-|[]] [H|[H|[]]]; discriminate.
  - exists 2. split; [left; reflexivity|]. split; [exact air_target|discriminate].
  - exists [0; 1]. split; [repeat constructor; cbn; intuition discriminate|]. split; [cbn; lia|]. intros el. split.
    + intros I. exists 3. split; [left; left; reflexivity|]. apply air_occurs; [lia|exact I].
    + intros (i & [[<-|[]]|(M & G)] & O); [apply air_occurs in O; [exact O|lia]|]. apply air_mids in M. unfold is_gas in G. rewrite air_formula in G by exact M. subst i. apply air_occurs in O; [|lia]. right. exact O.
Qed.
Lemma air_only : only_combination airy [3; 2; 4] [(-2)%Q; 2%Q; 1%Q].
Proof.
  split; [split; [reflexivity|]; intros e; do 2 (destruct e as [|e]; [vm_compute; reflexivity|]); apply airy_other; lia|]. split; [intros k [<-|[<-|[<-|[]]]]; vm_compute; discriminate|].
  intros w (L & H). destruct w as [|a [|b [|c [|]]]]; try discriminate. pose proof (H 0) as H0. pose proof (H 1) as H1. oxide_net H0. oxide_net H1. exists c. repeat constructor; lra.
Qed.
Lemma air_sides : LinSpec.sides 1 [(-2)%Q; 2%Q; 1%Q].
Proof. intros [|[|[|i]]] q H; cbn in H; try (injection H as <-; split; intros; lia || reflexivity). destruct i; discriminate. Qed.
Lemma air_low : grand_low airy 1 (-3) 0 (combine [warm 3 (-54 # 10); warm 2 (-4); warm 4 0] [(-2)%Q; 2%Q; 1%Q]) /\ ~ low airy 0 (combine [warm 3 (-54 # 10); warm 2 (-4); warm 4 0] [(-2)%Q; 2%Q; 1%Q]).
Proof. split; [vm_compute; reflexivity|]. vm_compute. discriminate. Qed.

Definition air_basics mids ts := basic_objects airy (exact_solve airy) (exact_rank airy) (fun k => k) RxnSetCheck.lifo_any 10 10 in_air mids ts.
Definition air_gases mids ts := gas_objects airy (exact_solve airy) (exact_rank airy) (fun k => k) RxnSetCheck.lifo_any 10 10 4 in_air mids ts.
Definition air_minis mids ts := min_objects airy (exact_solve airy) (exact_rank airy) free_build mn_kinks (fun l => l) RxnSetCheck.lifo_any 10 10 in_air mids ts.
Lemma air_sharp (ub um : bool) : forall targets mids xb xo xm, targets_of back_together = Ok targets -> intermediates airy (fun l => l) in_air [split_in_air] targets = Ok mids ->
  (if ub then air_basics mids (map e_id targets) else Ok []) = Ok xb -> (if ub then air_gases mids (map e_id targets) else Ok []) = Ok xo -> (if um then air_minis mids (map e_id targets) else Ok []) = Ok xm -> sharp (map (set_rxn airy) (xb ++ xo ++ xm)).
Proof.
  intros targets mids xb xo xm Et Em Eb Eo Ex. vm_compute in Et. injection Et as <-. vm_compute in Em. injection Em as <-. cbn [map e_id] in Eb, Eo, Ex.
  assert (Db : exists xs, air_basics [1; 3; 2; 0; 4] [2] = Ok xs /\ exists zs, air_gases [1; 3; 2; 0; 4] [2] = Ok zs /\ exists ys, air_minis [1; 3; 2; 0; 4] [2] = Ok ys /\ told_or_multiple (map (set_rxn airy) (xs ++ zs ++ ys)) = true
    /\ one_of_each (flat_map x_entries (map (set_rxn airy) (xs ++ zs ++ ys))) = true /\ Forall plain (map (set_rxn airy) (xs ++ zs ++ ys))).
  { eexists. split; [vm_compute; reflexivity|]. eexists. split; [vm_compute; reflexivity|]. eexists. split; [vm_compute; reflexivity|]. split; [vm_compute; reflexivity|]. split; [vm_compute; reflexivity|]. cbn [app map]. repeat (apply Forall_cons; [plain_rxn|]). apply Forall_nil. }
  destruct Db as (xs & Exs & zs & Ezs & ys & Eys & T & U & Pl). rewrite Exs in Eb. rewrite Ezs in Eo. rewrite Eys in Ex.
  assert (Sh : sharp (map (set_rxn airy) (xs ++ zs ++ ys))) by (apply told_or_multiple_sharp; [apply Forall_forall; exact Pl|apply one_of_each_iff; exact U|exact T]).
  assert (Ib : incl xb xs) by (destruct ub; injection Eb as <-; [apply incl_refl|intros x []]). assert (Io : incl xo zs) by (destruct ub; injection Eo as <-; [apply incl_refl|intros x []]). assert (Im : incl xm ys) by (destruct um; injection Ex as <-; [apply incl_refl|intros x []]).
  clear -Sh Ib Io Im. intros x y Ix Iy. apply Sh; [revert Ix|revert Iy]; apply incl_map; intros z Iz; (apply in_app_iff in Iz as [Iz|Iz]; [|apply in_app_iff in Iz as [Iz|Iz]]); rewrite !in_app_iff; auto.
Qed.
Definition rows_in_air (ys : list rxn) := map (fun r => map (fun i => Qred (turnover r i)) [0; 1; 2; 3; 4]) ys.
Lemma air_runs : (exists ys, open_run true true 0 = Ok ys /\ rows_in_air ys = [[-1; 0; 1; 0; -1 # 2]; [0; 0; 1; -1; 1 # 2]; [-1 # 3; -1 # 3; 1; 0; 0]; [-1 # 2; 0; 1; -1 # 2; 0]; [0; -1 # 2; 1; 0; 1 # 4]]%Q)
  /\ (exists ys, open_run true false 0 = Ok ys /\ rows_in_air ys = [[-1; -1; 3; 0; 0]; [-1; 0; 2; -1; 0]; [-1; 0; 1; 0; -1 # 2]; [0; 0; 1; -1; 1 # 2]; [0; -1 # 2; 1; 0; 1 # 4]]%Q)
  /\ exists ys, open_run false true 0 = Ok ys /\ rows_in_air ys = [[-1 # 3; -1 # 3; 1; 0; 0]; [-1 # 2; 0; 1; -1 # 2; 0]]%Q.
Proof.
  split; [eexists; split; [vm_compute; reflexivity|]; vm_compute; reflexivity|]. split; [eexists; split; [vm_compute; reflexivity|]; vm_compute; reflexivity|]. eexists; split; [vm_compute; reflexivity|]; vm_compute; reflexivity.
Qed.
