From Verif Require Import Prelude NumQ ListFacts UtilsModel UtilsSpec UtilsProofs ReactionModel ReactionSpec PathModel PathSpec PathProofs RxnSetBaseProofs RxnSetParProofs EnumReactProofs SolverModel SolverSpec SolverProofs.
Open Scope nat_scope.

(* --- combinations as increasing lists --- *)
Lemma subseq_seq c a n : subseq c (seq a n) <-> StronglySorted lt c /\ Forall (fun i => a <= i < a + n) c.
Proof.
  revert c a. induction n as [|n IH]; intros c a; cbn [seq].
  - split.
    + intros H. inversion H; subst. split; constructor.
    + intros [_ F]. destruct c as [|i c]; [constructor|]. inversion F; subst. lia.
  - split.
    + intros H. inversion H as [|x s l Hs|x s l Hs]; subst.
      * apply IH in Hs as [S F]. split; [exact S|]. eapply Forall_impl; [|exact F]. cbn. intros; lia.
      * apply IH in Hs as [S F]. split; constructor; try lia; try exact S; eapply Forall_impl; try exact F; cbn; intros; lia.
    + intros [S F]. destruct c as [|i c]; [apply subseq_nil_l|]. inversion S as [|? ? S' Hlt]; subst. inversion F as [|? ? Hi F']; subst.
      assert (F2 : Forall (fun k => Datatypes.S a <= k < Datatypes.S a + n) c).
      { rewrite Forall_forall in *. intros k Hk. specialize (Hlt k Hk). specialize (F' k Hk). lia. }
      destruct (Nat.eq_dec i a) as [->|Hne]; [apply subseq_take, IH; split; assumption|].
      apply subseq_skip, IH. split; [constructor; assumption|]. constructor; [lia|exact F2].
Qed.

Lemma in_powerset_seq n max c : In c (limited_powerset (seq 0 n) max) <-> combination n max c.
Proof.
  rewrite in_limited_powerset, subseq_seq. unfold combination. cbn. split.
  - intros [[S F] L]. split; [exact L|]. split; [exact S|]. eapply Forall_impl; [|exact F]. cbn. intros; lia.
  - intros (L & S & F). split; [|exact L]. split; [exact S|]. eapply Forall_impl; [|exact F]. cbn. intros; lia.
Qed.

Lemma subseq_trans {A} (a b c : list A) : subseq a b -> subseq b c -> subseq a c.
Proof.
  intros H1 H2. revert a H1. induction H2 as [|x s l H IH|x s l H IH]; intros a H1; [exact H1|apply subseq_skip, IH; exact H1|].
  inversion H1; subst; [apply subseq_skip, IH; assumption|apply subseq_take, IH; assumption].
Qed.

Lemma subseq_of_filter {A} (f : A -> bool) l : subseq (filter f l) l.
Proof. induction l as [|x l IH]; [constructor|]. cbn. destruct (f x); [apply subseq_take|apply subseq_skip]; exact IH. Qed.

Lemma pick_app {A} (d : A) p l c : pick d (p ++ l) (map (fun i => length p + i) c) = pick d l c.
Proof. unfold pick. rewrite map_map. apply map_ext. intros i. rewrite app_nth2 by lia. f_equal. lia. Qed.

Lemma pick_subseq {A} (d : A) l c : StronglySorted lt c -> Forall (fun i => i < length l) c -> subseq (pick d l c) l.
Proof.
  intros S F. assert (Hs : subseq c (seq 0 (length l))) by (apply subseq_seq; split; [exact S|eapply Forall_impl; [|exact F]; cbn; intros; lia]).
  clear S F. assert (H : forall p, subseq c (seq (length p) (length l)) -> subseq (pick d (p ++ l) c) l).
  { clear Hs. revert c. induction l as [|x l IH]; intros c p Hs; cbn [length seq] in Hs; [inversion Hs; constructor|].
    replace (S (length p)) with (length (p ++ [x])) in Hs by (rewrite app_length; cbn; lia).
    inversion Hs as [|y s l' Hs'|y s l' Hs']; subst.
    - apply subseq_skip. replace (p ++ x :: l) with ((p ++ [x]) ++ l) by (rewrite <- app_assoc; reflexivity). apply IH. exact Hs'.
    - cbn [pick map]. rewrite app_nth2, Nat.sub_diag by lia. cbn [nth]. apply subseq_take. replace (p ++ x :: l) with ((p ++ [x]) ++ l) by (rewrite <- app_assoc; reflexivity). apply IH. exact Hs'. }
  apply (H []). exact Hs.
Qed.

Lemma subseq_pick {A} (d : A) s l : subseq s l -> exists c, StronglySorted lt c /\ Forall (fun i => i < length l) c /\ s = pick d l c.
Proof.
  induction 1 as [|x s l H (c & S & F & E)|x s l H (c & S & F & E)].
  - exists []. repeat split; constructor.
  - exists (map Datatypes.S c). split; [|split].
    + clear - S. induction S as [|i c S IH F]; [constructor|]. cbn. constructor; [exact IH|]. rewrite Forall_map. eapply Forall_impl; [|exact F]. intros; lia.
    + rewrite Forall_map. eapply Forall_impl; [|exact F]. cbn. intros; lia.
    + rewrite E. unfold pick. rewrite map_map. reflexivity.
  - exists (0 :: map Datatypes.S c). split; [|split].
    + constructor.
      * clear - S. induction S as [|i c S IH F]; [constructor|]. cbn. constructor; [exact IH|]. rewrite Forall_map. eapply Forall_impl; [|exact F]. intros; lia.
      * rewrite Forall_map. apply Forall_forall. intros; lia.
    + constructor; [cbn; lia|]. rewrite Forall_map. eapply Forall_impl; [|exact F]. cbn. intros; lia.
    + rewrite E. unfold pick. cbn. rewrite map_map. reflexivity.
Qed.

Lemma pick_Forall2 {A B} (P : A -> B -> Prop) d d' l l' c : Forall2 P l l' -> Forall (fun i => i < length l) c -> Forall2 P (pick d l c) (pick d' l' c).
Proof.
  intros H F. unfold pick. induction F as [|i c Hi F IH]; [constructor|]. cbn. constructor; [|exact IH].
  clear - H Hi. revert i Hi. induction H as [|x y l1 l2 Hxy H IH]; intros i Hi; cbn in Hi; [lia|]. destruct i as [|i]; [exact Hxy|]. cbn. apply IH. lia.
Qed.

(* --- all matrices --- *)
Section Comp.
Context {R : Type} (vec : R -> result (list Q)) (cands : list R).

Lemma all_sizes_inv waits filt chunk max d : (forall k, valid_schedule (waits k)) -> comp_matrices vec waits cands filt chunk max = Ok d -> 1 <= max ->
  1 <= chunk /\ max <= length cands /\ exists vs, Forall2 (fun r v => vec r = Ok v) cands vs.
Proof.
  intros Hw E Hm. unfold comp_matrices in E.
  destruct (mapM (fun n => bind (matrices_of_size vec (waits n) cands filt chunk n) (fun Ms => Ok (n, Ms))) (seq 1 max)) as [d0|] eqn:Ed; [|discriminate].
  apply mapM_Forall2 in Ed. assert (Hs : forall n, 1 <= n <= max -> exists out, matrices_of_size vec (waits n) cands filt chunk n = Ok out).
  { intros n Hn. assert (Hin : In n (seq 1 max)) by (apply in_seq; lia). destruct (Forall2_In_l _ _ _ _ Ed Hin) as (y & _ & Hy).
    destruct (matrices_of_size vec (waits n) cands filt chunk n) as [o|]; [exists o; reflexivity|discriminate]. }
  assert (H1 : 1 <= 1 <= max) by lia. assert (H2 : 1 <= max <= max) by lia.
  destruct (Hs 1 H1) as (o1 & E1). destruct (Hs max H2) as (o2 & E2).
  apply size_inv in E1 as (Hc & _ & Ms & HMs & _); [|apply Hw|lia]. apply size_inv in E2 as (_ & HN & _); [|apply Hw|exact Hm].
  split; [exact Hc|]. split; [exact HN|].
  assert (Hv : forall r, In r cands -> exists v, vec r = Ok v).
  { intros r Hr. apply In_nth_error in Hr as (i & Hi). apply mapM_Forall2 in HMs.
    assert (Hin : In [i] (combinations (seq 0 (length cands)) 1)).
    { apply in_combinations. split; [|reflexivity]. apply subseq_seq. assert (i < length cands) by (apply nth_error_Some; congruence). split; [repeat constructor|constructor; [lia|constructor]]. }
    destruct (Forall2_In_l _ _ _ _ HMs Hin) as (M & _ & HM). unfold matrix_at, index in HM. cbn in HM. rewrite Hi in HM. cbn in HM. destruct (vec r) as [v|]; [exists v; reflexivity|discriminate]. }
  clear - Hv. induction cands as [|r l IH]; [exists []; constructor|]. destruct (Hv r (or_introl eq_refl)) as (v & Ev).
  destruct IH as (vs & IH); [intros r' Hr'; apply Hv; right; exact Hr'|]. exists (v :: vs). constructor; assumption.
Qed.

Lemma any_entry_false net Ms : (exists j, ~ (nth j net 0 == 0)%Q) -> any_entry (filter (touches (net_filter net)) Ms) = false -> filter (touches (net_filter net)) Ms = [].
Proof.
  intros (j & Hj) E. destruct (filter (touches (net_filter net)) Ms) as [|M l] eqn:El; [reflexivity|]. exfalso.
  assert (HM : touches (net_filter net) M = true) by (assert (Hin : In M (filter (touches (net_filter net)) Ms)) by (rewrite El; left; reflexivity); apply filter_In in Hin; tauto).
  apply touches_iff in HM. destruct (HM j Hj) as (row & Hr & Hn). cbn [any_entry existsb] in E. apply orb_false_iff in E as [E _].
  assert (T : existsb (existsb (fun x => negb (Qeq_bool x 0))) M = true); [|congruence].
  apply existsb_exists. exists row. split; [exact Hr|]. apply existsb_exists. exists (nth j row 0%Q). split; [|apply Qneb; exact Hn].
  apply nth_In. destruct (Nat.lt_ge_cases j (length row)) as [L|L]; [exact L|]. exfalso. apply Hn. rewrite nth_overflow by exact L. reflexivity.
Qed.

Lemma any_entry_perm Ms Ms' : Permutation Ms Ms' -> any_entry Ms = any_entry Ms'.
Proof.
  intros H. unfold any_entry. induction H as [|x l l' H IH|x y l|l1 l2 l3 H1 IH1 H2 IH2]; cbn; [reflexivity|rewrite IH; reflexivity| |congruence].
  rewrite !orb_assoc. f_equal. apply orb_comm.
Qed.

Lemma all_sizes_ok waits filt chunk max vs : (forall k, valid_schedule (waits k)) -> 1 <= chunk -> max <= length cands -> Forall2 (fun r v => vec r = Ok v) cands vs ->
  exists d0, mapM (fun n => bind (matrices_of_size vec (waits n) cands filt chunk n) (fun Ms => Ok (n, Ms))) (seq 1 max) = Ok d0
  /\ Forall2 (fun n nM => Permutation (snd nM) (filter (touches filt) (map (pick [] vs) (combinations (seq 0 (length cands)) n)))) (seq 1 max) d0.
Proof.
  intros Hw Hc Hm Hv. assert (H : forall n, In n (seq 1 max) -> exists out, matrices_of_size vec (waits n) cands filt chunk n = Ok out
    /\ Permutation out (filter (touches filt) (map (pick [] vs) (combinations (seq 0 (length cands)) n)))).
  { intros n Hn. apply in_seq in Hn. apply size_ok; [apply Hw|exact Hc|lia|]. apply mapM_ok. intros c Hcin. apply matrix_at_rows; [exact Hv|].
    apply in_combinations in Hcin as [Hs _]. apply subseq_seq in Hs as [_ F]. eapply Forall_impl; [|exact F]. cbn. intros; lia. }
  clear Hw Hc Hm. induction (seq 1 max) as [|n l IH]; [exists []; split; [reflexivity|constructor]|].
  destruct (H n (or_introl eq_refl)) as (out & E & Hp). destruct IH as (d0 & Ed & Hd); [intros m Hmin; apply H; right; exact Hmin|].
  exists ((n, out) :: d0). split; [cbn; rewrite E; cbn; rewrite Ed; reflexivity|]. constructor; [exact Hp|exact Hd].
Qed.

Lemma powerset_matrices (f : list nat -> matrix) filt N max :
  map f (filter (fun c => touches filt (f c)) (limited_powerset (seq 0 N) max)) = flat_map (fun n => filter (touches filt) (map f (combinations (seq 0 N) n))) (seq 1 max).
Proof.
  unfold limited_powerset. induction (seq 1 max) as [|n l IH]; [reflexivity|]. cbn. rewrite filter_app, map_app, IH. f_equal.
  clear. induction (combinations (seq 0 N) n) as [|c cs IH]; [reflexivity|]. cbn. destruct (touches filt (f c)); cbn; rewrite IH; reflexivity.
Qed.

Theorem comp_matrices_ok waits net chunk max vs : (forall k, valid_schedule (waits k)) -> 1 <= chunk -> max <= length cands -> Forall2 (fun r v => vec r = Ok v) cands vs ->
  exists d, comp_matrices vec waits cands (net_filter net) chunk max = Ok d
  /\ (forall M, In M (concat (map snd d)) -> exists c, combination (length cands) max c /\ covers net (pick [] vs c) /\ M = pick [] vs c)
  /\ ((exists j, ~ (nth j net 0 == 0)%Q) -> exists combos, NoDup combos
      /\ (forall c, In c combos <-> combination (length cands) max c /\ covers net (pick [] vs c))
      /\ Permutation (concat (map snd d)) (map (pick [] vs) combos)).
Proof.
  intros Hw Hc Hm Hv. destruct (all_sizes_ok waits (net_filter net) chunk max vs Hw Hc Hm Hv) as (d0 & Ed & Hd).
  unfold comp_matrices. rewrite Ed. cbn [bind]. eexists. split; [reflexivity|].
  set (combos := filter (fun c => touches (net_filter net) (pick [] vs c)) (limited_powerset (seq 0 (length cands)) max)).
  assert (Hin : forall c, In c combos <-> combination (length cands) max c /\ covers net (pick [] vs c)).
  { intros c. unfold combos. rewrite filter_In, in_powerset_seq, touches_iff. reflexivity. }
  assert (Hall : Permutation (concat (map snd d0)) (map (pick [] vs) combos)).
  { unfold combos. rewrite powerset_matrices. clear - Hd. induction Hd as [|n nM l d0 H Hd IH]; [constructor|]. cbn [map concat flat_map]. apply Permutation_app; [exact H|exact IH]. }
  split.
  - intros M HM. assert (HM0 : In M (concat (map snd d0))).
    { apply in_concat in HM as (l & Hl & HM). apply in_concat. exists l. split; [|exact HM]. apply in_map_iff in Hl as (nM & <- & Hf). apply filter_In in Hf as [Hf _]. apply in_map. exact Hf. }
    apply (Permutation_in _ Hall), in_map_iff in HM0 as (c & <- & Hcin). apply Hin in Hcin as [H1 H2]. exists c. split; [exact H1|split; [exact H2|reflexivity]].
  - intros Hnz. exists combos. split; [apply NoDup_filter, NoDup_limited_powerset, seq_NoDup|]. split; [exact Hin|].
    replace (concat (map snd (filter (fun nM => any_entry (snd nM)) d0))) with (concat (map snd d0)); [exact Hall|].
    clear - Hd Hnz. induction Hd as [|n nM l d0 H Hd IH]; [reflexivity|]. cbn. destruct (any_entry (snd nM)) eqn:Ea; [cbn; rewrite IH; reflexivity|].
    rewrite (any_entry_perm _ _ H) in Ea. apply any_entry_false in Ea; [|exact Hnz]. rewrite Ea in H. apply Permutation_sym, Permutation_nil in H. rewrite H. exact IH.
Qed.
End Comp.

(* --- the acceptance test --- *)
Lemma weighted_rows M ms j : (combine_rows M ms j == weighted ms M j)%Q.
Proof.
  unfold combine_rows, weighted. revert ms. induction M as [|row M IH]; intros [|m ms]; try reflexivity. cbn [combine map fst snd].
  change (nth j row 0 * m + Qsum (map (fun rm => nth j (fst rm) 0 * snd rm) (combine M ms)) == m * nth j row 0 + Qsum (map (fun mr => fst mr * nth j (snd mr) 0) (combine ms M)))%Q.
  rewrite IH. ring.
Qed.

Lemma below_iff ms : existsb (fun m => Qlt_bool m (1 # 1000000)) ms = false <-> Forall (fun m => (1 # 1000000 <= m)%Q) ms.
Proof.
  induction ms as [|m ms IH]; cbn; [split; [constructor|reflexivity]|]. rewrite orb_false_iff, IH. unfold Qlt_bool. rewrite negb_false_iff, Qle_bool_iff.
  split; [intros [H1 H2]; constructor; assumption|intros H; inversion H; subst; split; assumption].
Qed.

Lemma accept_iff pinv net M : length (pinv M net) = length M ->
  (balance_one pinv net M = Some (M, pinv M net) <-> covers net M /\ balances net M (pinv M net))
  /\ (balance_one pinv net M = None \/ balance_one pinv net M = Some (M, pinv M net)).
Proof.
  intros Hlen. unfold balance_one. destruct (touches (net_filter net) M) eqn:Et.
  - apply touches_iff in Et. cbv zeta. destruct (existsb (fun m => Qlt_bool m (1 # 1000000)) (pinv M net)) eqn:Eb.
    + split; [|left; reflexivity]. split; [discriminate|]. intros (_ & _ & H & _). apply below_iff in H. congruence.
    + apply below_iff in Eb. match goal with |- context[forallb ?f ?l] => destruct (forallb f l) eqn:Ef end.
      * split; [|right; reflexivity]. split; [intros _|reflexivity]. split; [exact Et|]. split; [exact Hlen|]. split; [exact Eb|].
        intros j Hj. rewrite forallb_forall in Ef. specialize (Ef j). rewrite in_seq in Ef. specialize (Ef (conj (Nat.le_0_l j) Hj)). apply Qle_bool_iff in Ef. rewrite <- weighted_rows. exact Ef.
      * split; [|left; reflexivity]. split; [discriminate|]. intros (_ & _ & _ & H). exfalso. apply not_true_iff_false in Ef. apply Ef. apply forallb_forall. intros j Hj. apply in_seq in Hj.
        apply Qle_bool_iff. rewrite weighted_rows. apply H. lia.
  - split; [|left; reflexivity]. split; [discriminate|]. intros [H _]. apply touches_iff in H. congruence.
Qed.

Lemma in_kernel pinv net Ms a : (forall M, length (pinv M net) = length M) ->
  In a (kernel pinv net Ms) <-> exists M, In M Ms /\ a = (M, pinv M net) /\ covers net M /\ balances net M (pinv M net).
Proof.
  intros Hlen. unfold kernel. rewrite in_flat_map. split.
  - intros (M & HM & Ha). destruct (accept_iff pinv net M (Hlen M)) as [Hi [E|E]]; rewrite E in Ha; [destruct Ha|]. destruct Ha as [<-|[]].
    exists M. split; [exact HM|]. split; [reflexivity|]. apply Hi. exact E.
  - intros (M & HM & -> & H). exists M. split; [exact HM|]. apply accept_iff in H; [|apply Hlen]. rewrite H. left. reflexivity.
Qed.
