(* Concrete interface hulls: witnesses and non-vacuity for C112 and C113. *)
From Coq Require Import Lqa Qround Sorted.
From Verif Require Import Prelude NumQ SumQ UtilsModel ReactionModel ReactionSpec ReactionBaseProofs ChemTable
  HullModel HullSpec HullCheck IrhModel IrhSpec IrhProofs.
From Verif Require RxnSetCheck.
Open Scope nat_scope.

(* --- library functions as assumed --- *)
Definition round12 (q : Q) : Q := (inject_Z (Qfloor (q * inject_Z (10 ^ 12) + (1 # 2))) / inject_Z (10 ^ 12))%Q.
Lemma round12_rounds : rounds12 round12.
Proof.
  set (T := inject_Z (10 ^ 12)).
  assert (HT : (0 < T)%Q) by reflexivity.
  assert (G : forall q, (- (1 # 2000000000000) <= round12 q - q /\ round12 q - q <= 1 # 2000000000000)%Q).
  { intros q. unfold round12. fold T. pose proof (Qfloor_le (q * T + (1 # 2))) as L. pose proof (Qlt_floor (q * T + (1 # 2))) as U.
    rewrite inject_Z_plus in U. set (n := inject_Z (Qfloor (q * T + (1 # 2)))) in *. change (inject_Z 1) with 1%Q in U.
    assert (E : (n / T == n * (1 # 1000000000000))%Q) by (unfold Qdiv; apply Qmult_comp; reflexivity).
    assert (ET : (T == 1000000000000)%Q) by reflexivity. rewrite E. rewrite ET in L, U. split; lra. }
  split; [intros q; apply Qabs_Qle_condition; apply G|]. intros q [H0 H1]. unfold round12. fold T.
  assert (F0 : (0 <= Qfloor (q * T + (1 # 2)))%Z).
  { assert (M : (0 <= q * T)%Q) by (apply Qmult_le_0_compat; [exact H0|apply Qlt_le_weak; exact HT]).
    change 0%Z with (Qfloor 0). apply Qfloor_resp_le. lra. }
  assert (F1 : (Qfloor (q * T + (1 # 2)) <= 10 ^ 12)%Z).
  { assert (M : (q * T <= 1 * T)%Q) by (apply Qmult_le_compat_r; [exact H1|apply Qlt_le_weak; exact HT]).
    assert (Ht : (T + (1 # 2) == T + (1 # 2))%Q) by reflexivity.
    replace (10 ^ 12)%Z with (Qfloor (T + (1 # 2))) by reflexivity. apply Qfloor_resp_le. lra. }
  split; [apply Qle_shift_div_l; [exact HT|]|apply Qle_shift_div_r; [exact HT|]].
  - rewrite Qmult_0_l. change 0%Q with (inject_Z 0). rewrite <- Zle_Qle. exact F0.
  - rewrite Qmult_1_l. unfold T. rewrite <- Zle_Qle. exact F1.
Qed.

Definition key_le (a b : Q * nat) : Prop := (fst a <= fst b)%Q.
Lemma ins_sorted x l : StronglySorted key_le l ->
  StronglySorted key_le (RxnSetCheck.ins (fun a b => Qle_bool (fst a) (fst b)) x l).
Proof.
  induction l as [|y l IH]; intros H; [repeat constructor|]. inversion H as [|? ? Hl Hy]; subst. cbn [RxnSetCheck.ins].
  destruct (Qle_bool (fst x) (fst y)) eqn:E.
  - apply Qle_bool_iff in E. constructor; [exact H|]. constructor; [exact E|]. rewrite Forall_forall in Hy |- *. intros z Hz.
    unfold key_le in *. eapply Qle_trans; [exact E|apply Hy, Hz].
  - constructor; [apply IH; exact Hl|]. rewrite Forall_forall in Hy |- *. intros z Hz.
    apply (Permutation_in _ (RxnSetCheck.ins_perm _ x l)) in Hz. destruct Hz as [<-|Hz]; [|apply Hy; exact Hz].
    unfold key_le. apply Qlt_le_weak, Qnot_le_lt. intros L. apply Qle_bool_iff in L. congruence.
Qed.
Lemma argsort_sorts : sorts RxnSetCheck.argsort.
Proof.
  intros l. split; [apply RxnSetCheck.argsort_perm|]. intros i j a b x y Hij Ha Hb Hx Hy. unfold RxnSetCheck.argsort in Ha, Hb.
  set (s := RxnSetCheck.isort _ _) in Ha, Hb.
  assert (S : StronglySorted key_le s).
  { clear. unfold s, RxnSetCheck.isort. clear. induction (combine l (seq 0 (length l))) as [|z m IH]; [constructor|]. apply ins_sorted. exact IH. }
  assert (I : forall z, In z s -> nth_error l (snd z) = Some (fst z)).
  { intros [v n] Hz. apply (Permutation_in _ (RxnSetCheck.isort_perm _ _)) in Hz. cbn [fst snd]. clear -Hz.
    assert (G : forall m k, In (v, n) (combine m (seq k (length m))) -> k <= n /\ nth_error m (n - k) = Some v).
    { clear. induction m as [|w m IH]; intros k H; [destruct H|]. cbn [length seq combine] in H. destruct H as [E|H].
      - injection E as -> ->. split; [lia|]. rewrite Nat.sub_diag. reflexivity.
      - apply IH in H as [H1 H2]. split; [lia|]. replace (n - k) with (S (n - S k)) by lia. exact H2. }
    apply G in Hz as [_ Hz]. rewrite Nat.sub_0_r in Hz. exact Hz. }
  rewrite nth_error_map in Ha, Hb. destruct (nth_error s i) as [p|] eqn:Ei; [|discriminate]. destruct (nth_error s j) as [q|] eqn:Ej; [|discriminate].
  injection Ha as <-. injection Hb as <-. rewrite (I p (nth_error_In _ _ Ei)) in Hx. rewrite (I q (nth_error_In _ _ Ej)) in Hy.
  injection Hx as <-. injection Hy as <-. clear I. revert i j Hij Ei Ej. clearbody s. induction S as [|z m S IH Hz]; intros i j Hij Ei Ej.
  - destruct i; discriminate.
  - destruct j as [|j]; [lia|]. destruct i as [|i].
    + injection Ei as <-. rewrite Forall_forall in Hz. apply Hz. apply nth_error_In with j. exact Ej.
    + apply (IH i j); [lia|exact Ei|exact Ej].
Qed.

(* --- A + B -> AB, 2 A + B -> A2B; A, O -> AO, AO2 --- *)
Definition ab_table : list chem_row :=
  [([(0, 1%Q)], 0, 1%Q); ([(1, 1%Q)], 1, 1%Q); ([(0, 1%Q); (1, 1%Q)], 2, 1%Q); ([(0, 2%Q); (1, 1%Q)], 3, 1%Q);
   ([(2, 1%Q)], 4, 1%Q); ([(0, 1%Q); (2, 1%Q)], 5, 1%Q); ([(0, 1%Q); (2, 2%Q)], 6, 1%Q)].
Definition ab : chem := table_chem ab_table.
Lemma ab_wf : wf_chem ab.
Proof. apply table_ok_wf. vm_compute. reflexivity. Qed.
Definition en (c : nat) (e : Q) : entry := {| e_id := c; e_comp := c; e_energy := e |}.
Definition a_ab : rxn := RComputed (computed_init ab [en 0 0; en 1 0; en 2 (-6 # 5)] [-1; -1; 1]%Q None).
Definition a_a2b : rxn := RComputed (computed_init ab [en 0 0; en 1 0; en 3 (-2)] [-2; -1; 1]%Q None).
Definition one_one (_ _ _ : list nat) : list Q := [-1; 1]%Q.
Definition one (_ _ : list nat) : nat := 1.
(* the four points are A, A2B, AB, B *)
Definition all_four (_ : list coord) : result (list nat) := Ok [0; 1; 2; 3].
Definition ab_hull : result irh := build ab round12 RxnSetCheck.argsort all_four one_one one 0 1 [a_ab; a_a2b].
(* positions in the tables *)
Definition same_comps (r r' : rxn) : bool :=
  if list_eq_dec Nat.eq_dec (comps (base_of r)) (comps (base_of r')) then true else false.


Ltac conserves := let e := fresh in intros e; destruct e as [|[|[|e]]]; vm_compute; reflexivity.
Lemma a_ab_proper : proper ab a_ab.
Proof.
  split; [|conserves]. exists [en 0 0; en 1 0; en 2 (-6 # 5)], [-1; -1; 1]%Q, None. split; [reflexivity|].
  split; [|left; reflexivity]. apply nodupb_NoDup. vm_compute. reflexivity.
Qed.
Lemma a_a2b_proper : proper ab a_a2b.
Proof.
  split; [|conserves]. exists [en 0 0; en 1 0; en 3 (-2)], [-2; -1; 1]%Q, None. split; [reflexivity|].
  split; [|left; reflexivity]. apply nodupb_NoDup. vm_compute. reflexivity.
Qed.

(* open oxygen *)
Definition a_ao : rxn := ROpen (open_init ab [en 0 0; en 4 0; en 5 (-1)] [-1; -1; 1]%Q [(2, 0%Q)] None).
Definition a_ao2 : rxn := ROpen (open_init ab [en 0 0; en 4 0; en 6 (-2)] [-1; -2; 1]%Q [(2, 0%Q)] None).
Definition ao_hull : result irh := build ab round12 RxnSetCheck.argsort (fun _ => Ok [1; 2; 3]) one_one one 0 4 [a_ao; a_ao2].
Lemma a_ao_proper : proper ab a_ao.
Proof.
  split; [|conserves]. exists [en 0 0; en 4 0; en 5 (-1)], [-1; -1; 1]%Q, None. split; [reflexivity|].
  split; [|right; eexists; reflexivity]. apply nodupb_NoDup. vm_compute. reflexivity.
Qed.
Lemma a_ao2_proper : proper ab a_ao2.
Proof.
  split; [|conserves]. exists [en 0 0; en 4 0; en 6 (-2)], [-1; -2; 1]%Q, None. split; [reflexivity|].
  split; [|right; eexists; reflexivity]. apply nodupb_NoDup. vm_compute. reflexivity.
Qed.

Definition ab_built : irh := Eval vm_compute in match ab_hull with Ok h => h | Err _ => {| i_c1 := 0; i_c2 := 0; i_reactions := []; i_hull := {| coords := []; qhull := [] |} |} end.
Definition ao_built : irh := Eval vm_compute in match ao_hull with Ok h => h | Err _ => {| i_c1 := 0; i_c2 := 0; i_reactions := []; i_hull := {| coords := []; qhull := [] |} |} end.
Lemma ab_correct : correct_hull (coords (i_hull ab_built)) (qhull (i_hull ab_built)) [0; 1; 2; 3].
Proof. apply correct_hull_b_ok; [cbn; tauto|cbn; tauto|vm_compute; reflexivity]. Qed.
Lemma ab_hyps : (forall r, In r [a_ab; a_a2b] -> proper ab r /\ (0 < takes ab r 0 + takes ab r 1)%Q)
  /\ (exists r, In r [a_ab; a_a2b] /\ consumes r 0) /\ (exists r, In r [a_ab; a_a2b] /\ consumes r 1).
Proof.
  split.
  - intros r [<-|[<-|[]]]; (split; [first [exact a_ab_proper|exact a_a2b_proper]|vm_compute; reflexivity]).
  - split; exists a_ab; (split; [left; reflexivity|]); exists (-1)%Q; (split; [cbn; tauto|reflexivity]).
Qed.
Lemma ab_demo : ab_hull = Ok ab_built /\ map fst (coords (i_hull ab_built)) = [0; 333333333333 # 1000000000000; 500000000000 # 1000000000000; 1]%Q
  /\ stable_reactions ab_built = i_reactions ab_built
  /\ (exists c, primary ab round12 ab_built a_ab = Ok c /\ (c == 1 # 15)%Q)
  /\ (exists c, primary ab round12 ab_built a_a2b = Ok c /\ (c == - (1 # 15))%Q)
  /\ exists c, above_hull same_comps ab_built a_a2b = Ok c /\ (c == 0)%Q.
Proof.
  split; [vm_compute; reflexivity|]. split; [vm_compute; reflexivity|]. split; [vm_compute; reflexivity|].
  repeat (split; [eexists; split; vm_compute; reflexivity|]). eexists; split; vm_compute; reflexivity.
Qed.
Lemma ab_exact r p : In (r, p) (combine (i_reactions ab_built) (coords (i_hull ab_built))) ->
  exact_coordinate (coords (i_hull ab_built)) [0; 1; 2; 3] (fst p).
Proof. intros [H|[H|[H|[H|[]]]]]; injection H as <- <-; apply exact_b_ok; vm_compute; reflexivity. Qed.
Lemma ab_single r r' p p' : In (r, p) (combine (i_reactions ab_built) (coords (i_hull ab_built))) ->
  In (r', p') (combine (i_reactions ab_built) (coords (i_hull ab_built))) -> same_comps r' r = true -> p' = p.
Proof.
  intros [H|[H|[H|[H|[]]]]] [H'|[H'|[H'|[H'|[]]]]]; injection H as <- <-; injection H' as <- <-; intros E; vm_compute in E; congruence.
Qed.

(* A + O -> AO scores well although A + 2 O -> AO2 gains more. *)
Lemma open_missed : exists C comp1 comp2 r r' h c v v', wf_chem C /\ proper C r /\ proper C r'
  /\ build C round12 RxnSetCheck.argsort (fun _ => Ok [1; 2; 3]) one_one one comp1 comp2 [r; r'] = Ok h
  /\ consumes r (red C comp1) /\ consumes r (red C comp2) /\ consumes r' (red C comp1) /\ consumes r' (red C comp2)
  /\ ~ (forall x, In x (map fst (product_coeffs (base_of r'))) -> In x (map fst (product_coeffs (base_of r))))
  /\ energy_per_atom C r = Ok v /\ energy_per_atom C r' = Ok v' /\ (v' < v)%Q
  /\ primary C round12 h r = Ok c /\ (c < 0)%Q.
Proof.
  exists ab, 0, 4, a_ao, a_ao2, ao_built, (-1)%Q, (-1)%Q, (-2)%Q. split; [exact ab_wf|]. split; [exact a_ao_proper|]. split; [exact a_ao2_proper|].
  split; [vm_compute; reflexivity|].
  split; [exists (-1)%Q; split; [cbn; tauto|reflexivity]|]. split; [exists (-1)%Q; split; [cbn; tauto|reflexivity]|].
  split; [exists (-1)%Q; split; [cbn; tauto|reflexivity]|]. split; [exists (-2)%Q; split; [cbn; tauto|reflexivity]|].
  split; [intros H; specialize (H 6 (or_introl eq_refl)); vm_compute in H; destruct H as [H|[]]; discriminate|].
  split; [vm_compute; reflexivity|]. split; [vm_compute; reflexivity|]. split; [reflexivity|]. split; [vm_compute; reflexivity|reflexivity].
Qed.
Lemma bad_demo : (forall r, In r [a_ab; a_a2b] -> proper ab r) /\ (forall r, In r [a_ab; a_a2b] -> ~ consumes r 4)
  /\ proper ab a_ab /\ (0 < takes ab a_ab 0)%Q /\ ~ consumes a_ab 3 /\ ~ consumes a_ab 4.
Proof.
  assert (G : forall r c, In r [a_ab; a_a2b] -> consumes r c -> c = 0 \/ c = 1).
  { intros r c [<-|[<-|[]]] (k & Hk & L); cbn in Hk; destruct Hk as [H|[H|[H|[]]]]; injection H as <- <-; [tauto|tauto|discriminate|tauto|tauto|discriminate]. }
  split; [intros r [<-|[<-|[]]]; [exact a_ab_proper|exact a_a2b_proper]|]. split; [intros r Hr Hc; destruct (G r 4 Hr Hc); discriminate|].
  split; [exact a_ab_proper|]. split; [vm_compute; reflexivity|].
  split; intros Hc; destruct (G a_ab _ (or_introl eq_refl) Hc); discriminate.
Qed.
