(* Manganese and its oxides: in how many ways they react. *)
From Coq Require Import Lia Lqa.
From Verif Require Import Prelude NumQ SumQ UtilsModel ReactionModel ReactionSpec LinModel LinSpec LinProofs LinBalanceProofs LinCheck EnumCheck EnumLinkModel JoinModel JoinSpec JoinCheck RxnSetModel RxnSetSpec RxnSetCheck FreeSpec FreeProofs.
Open Scope nat_scope.

Lemma three_rank : exact_rank mno [0; 1] [2] = 2.
Proof. vm_compute. reflexivity. Qed.
Lemma four_rank : exact_rank mno [0; 1] [2; 3] = 2.
Proof. vm_compute. reflexivity. Qed.
Lemma two_rank : exact_rank mno [0] [3] = 2.
Proof. vm_compute. reflexivity. Qed.
Lemma mn_ways : independent_ways mno (fun i => i) [0; 3] 0 /\ independent_ways mno (fun i => i) [0; 1; 2] 1 /\ independent_ways mno (fun i => i) [0; 1; 2; 3] 2.
Proof.
  split; [|split].
  - destruct (ways_rank mno mno_wf (fun i => i) [0] [3] [0; 3]) as [_ H]; [repeat constructor; cbn; intuition discriminate|reflexivity|]. rewrite two_rank in H. exact H.
  - destruct (ways_rank mno mno_wf (fun i => i) [0; 1] [2] [0; 1; 2]) as [_ H]; [repeat constructor; cbn; intuition discriminate|reflexivity|]. rewrite three_rank in H. exact H.
  - destruct (ways_rank mno mno_wf (fun i => i) [0; 1] [2; 3] [0; 1; 2; 3]) as [_ H]; [repeat constructor; cbn; intuition discriminate|reflexivity|]. rewrite four_rank in H. exact H.
Qed.

Lemma mno_cancels l w : (forall el, el < 2 -> (sumQ (fun i => amt mno i el * w i) l == 0)%Q) -> cancels mno (fun i => i) l w.
Proof.
  intros H el. destruct (Nat.lt_ge_cases el 2) as [L|L]; [exact (H el L)|]. apply sumQ_all_zero. intros i _. rewrite (wf_zero mno mno_wf i el); [ring|].
  intros I. do 4 (destruct i as [|i]; [cbn in I; repeat (destruct I as [<-|I]; [lia|]); destruct I|]). cbn in I. destruct i; destruct I.
Qed.
(* Mn + 2 Mn2O3 -> 4 MnO + MnO2 and Mn + Mn2O3 -> 3 MnO *)
Lemma four_ways : ~ one_way mno (fun i => i) [0; 1; 2; 3].
Proof.
  intros H. destruct (H (fun i => nth i [-1; -2; 4; 1] 0)%Q (fun i => nth i [-1; -1; 3; 0] 0)%Q) as (t & E).
  - apply mno_cancels. intros [|[|el]] L; [vm_compute; reflexivity|vm_compute; reflexivity|lia].
  - apply mno_cancels. intros [|[|el]] L; [vm_compute; reflexivity|vm_compute; reflexivity|lia].
  - exists 0. split; [left; reflexivity|]. discriminate.
  - pose proof (E 0 (or_introl eq_refl)) as E0. pose proof (E 3 ltac:(cbn; tauto)) as E3. cbn in E0, E3. lra.
Qed.
