From Coq Require Import Reals String Lra.
From Verif Require Import Prelude CostModel.
Open Scope R_scope.

Lemma arg_gt_1 x t : 0 < t -> 1 < 1 + (273 / t) * exp x.
Proof.
  intros Ht. assert (0 < 273 / t) by (apply Rdiv_lt_0_compat; lra).
  pose proof (exp_pos x). assert (0 < 273 / t * exp x) by (apply Rmult_lt_0_compat; assumption). lra.
Qed.

Lemma softplus_pos x t : 0 < t -> 0 < softplus x t.
Proof.
  intros Ht. unfold softplus. rewrite <- ln_1. apply ln_increasing; [lra|]. apply arg_gt_1, Ht.
Qed.

Lemma softplus_incr x y t : 0 < t -> x < y -> softplus x t < softplus y t.
Proof.
  intros Ht Hxy. unfold softplus. pose proof (arg_gt_1 x t Ht). apply ln_increasing; [lra|].
  assert (0 < 273 / t) by (apply Rdiv_lt_0_compat; lra).
  apply Rplus_lt_compat_l, Rmult_lt_compat_l; [assumption|]. apply exp_increasing, Hxy.
Qed.

Lemma softplus_temp x t t' : 0 < t -> t < t' -> softplus x t' < softplus x t.
Proof.
  intros Ht Htt. unfold softplus. pose proof (arg_gt_1 x t' ltac:(lra)). apply ln_increasing; [lra|].
  apply Rplus_lt_compat_l, Rmult_lt_compat_r; [apply exp_pos|].
  unfold Rdiv. apply Rmult_lt_compat_l; [lra|]. apply Rinv_lt_contravar; [|assumption].
  apply Rmult_lt_0_compat; lra.
Qed.

Lemma mapM_values rxn params :
  (forall vs, mapM (param_value rxn) params = Ok vs <->
     Forall2 (fun p v => lookup p (data rxn) = Some v
                         \/ (lookup p (data rxn) = None /\ attr rxn p = Some v)) params vs)
  /\ (forall e, mapM (param_value rxn) params = Err e <->
     e = ValueError /\ exists p, In p params /\ lookup p (data rxn) = None /\ attr rxn p = None).
Proof.
  induction params as [|p params [IH1 IH2]]; simpl.
  - split.
    + intros vs. split; [intros H; injection H as <-; constructor | intros H; inversion H; reflexivity].
    + intros e. split; [discriminate | intros (_ & p & [] & _)].
  - unfold param_value at 1 3. split.
    + intros vs. split.
      * destruct (lookup p (data rxn)) as [v|] eqn:El.
        -- destruct (mapM (param_value rxn) params) as [ys|] eqn:Em; [|discriminate].
           intros H; injection H as <-. constructor; [left; assumption | apply IH1; reflexivity].
        -- destruct (attr rxn p) as [v|] eqn:Ea; [|discriminate].
           destruct (mapM (param_value rxn) params) as [ys|] eqn:Em; [|discriminate].
           intros H; injection H as <-. constructor; [right; auto | apply IH1; reflexivity].
      * intros H; inversion H as [|? v ? vs' H1 H2]; subst.
        apply IH1 in H2. rewrite H2. destruct H1 as [->|[-> ->]]; reflexivity.
    + intros e. split.
      * destruct (lookup p (data rxn)) as [v|] eqn:El.
        -- destruct (mapM (param_value rxn) params) as [ys|e'] eqn:Em; [discriminate|].
           intros H; injection H as <-. destruct (proj1 (IH2 e') eq_refl) as (He & q & Hq & H').
           split; [assumption|]. exists q. auto.
        -- destruct (attr rxn p) as [v|] eqn:Ea.
           ++ destruct (mapM (param_value rxn) params) as [ys|e'] eqn:Em; [discriminate|].
              intros H; injection H as <-. destruct (proj1 (IH2 e') eq_refl) as (He & q & Hq & H').
              split; [assumption|]. exists q. auto.
           ++ intros H; injection H as <-. split; [reflexivity|]. exists p. auto.
      * intros (-> & q & [->|Hq] & Hl & Ha).
        -- rewrite Hl, Ha. reflexivity.
        -- assert (Hr : mapM (param_value rxn) params = Err ValueError) by (apply IH2; eauto).
           rewrite Hr. destruct (lookup p (data rxn)); [reflexivity|].
           destruct (attr rxn p); reflexivity.
Qed.

From Verif Require Import CostSpec ListFacts.

Lemma lookup_Some p d v : NoDup (map fst d) -> lookup p d = Some v <-> In (p, v) d.
Proof.
  induction d as [|[k w] d IH]; simpl; intros Hn.
  - split; [discriminate|tauto].
  - inversion Hn as [|? ? Hk Hn']; subst. destruct (String.eqb_spec p k) as [->|Hne].
    + split.
      * intros H; injection H as ->; auto.
      * intros [H|H]; [congruence|]. exfalso. apply Hk. apply in_map_iff. exists (k, v). auto.
    + rewrite IH by assumption. split; [auto|]. intros [H|H]; [congruence|assumption].
Qed.

Lemma lookup_None p d : lookup p d = None <-> ~ has_key d p.
Proof.
  unfold has_key. induction d as [|[k w] d IH]; simpl.
  - split; [intros _ [v []] | reflexivity].
  - destruct (String.eqb_spec p k) as [->|Hne].
    + split; [discriminate|]. intros H. exfalso. apply H. exists w. auto.
    + rewrite IH. split.
      * intros H [v [Hv|Hv]]; [congruence|]. apply H. exists v; assumption.
      * intros H [v Hv]. apply H. exists v; auto.
Qed.

Lemma dotR_spec vs ws :
  (length vs = length ws -> dotR vs ws = Ok (weighted vs ws))
  /\ (length vs <> length ws -> dotR vs ws = Err ValueError).
Proof.
  unfold weighted. revert ws; induction vs as [|v vs IH]; intros [|w ws]; simpl; split; intros H;
    try reflexivity; try discriminate; try (exfalso; lia).
  - destruct (IH ws) as [IH1 _]. rewrite IH1 by lia. reflexivity.
  - destruct (IH ws) as [_ IH2]. rewrite IH2 by lia. reflexivity.
Qed.

Lemma weighted_sum_spec params weights rxn :
  well_formed rxn ->
  (forall vs, Forall2 (reads rxn) params vs -> length params = length weights ->
     WeightedSum_evaluate params weights rxn = Ok (weighted vs weights))
  /\ (forall p, In p params -> missing rxn p -> WeightedSum_evaluate params weights rxn = Err ValueError)
  /\ (length params <> length weights -> WeightedSum_evaluate params weights rxn = Err ValueError).
Proof.
  intros Hw. unfold WeightedSum_evaluate, weighted_sum.
  destruct (mapM_values rxn params) as [Hv He].
  assert (Hreads : forall vs, Forall2 (reads rxn) params vs <-> mapM (param_value rxn) params = Ok vs).
  { intros vs. rewrite Hv. split; intros H; (eapply Forall2_impl; [|exact H]); intros p v Hr.
    - destruct Hr as [Hr|[Hr Ha]]; [left; apply lookup_Some; assumption|].
      right. split; [apply lookup_None|]; assumption.
    - destruct Hr as [Hr|[Hr Ha]]; [left; apply lookup_Some; assumption|].
      right. split; [apply lookup_None|]; assumption. }
  split; [|split].
  - intros vs Hvs Hl. pose proof Hvs as Hvs'. apply Hreads in Hvs. rewrite Hvs. apply dotR_spec.
    apply Forall2_length in Hvs'. congruence.
  - intros p Hp [Hm Ha]. apply lookup_None in Hm.
    rewrite (proj2 (He ValueError)); [reflexivity|]. eauto.
  - intros Hl. destruct (mapM (param_value rxn) params) as [vs|e] eqn:Em.
    + pose proof (proj2 (Hreads vs) eq_refl) as Hf. apply Forall2_length in Hf.
      apply dotR_spec. congruence.
    + destruct (proj1 (He e) eq_refl) as [-> _]. reflexivity.
Qed.

Lemma softplus_evaluate_spec temp params weights rxn :
  (temp <= 0 -> Softplus_init temp params weights = Err ValueError)
  /\ (0 < temp -> exists self, Softplus_init temp params weights = Ok self
      /\ (forall total, WeightedSum_evaluate params weights rxn = Ok total ->
            Softplus_evaluate self rxn = Ok (ln (1 + 273 / temp * exp total)))
      /\ (forall e, WeightedSum_evaluate params weights rxn = Err e ->
            Softplus_evaluate self rxn = Err e)).
Proof.
  unfold Softplus_init. split; intros Ht; destruct (Rle_dec temp 0); try lra; try reflexivity.
  exists (temp, params, weights). split; [reflexivity|].
  unfold Softplus_evaluate, WeightedSum_evaluate. split; intros x ->; reflexivity.
Qed.

Lemma softplus_shape temp temp' params params' weights weights' self self' rxn rxn' s s' c c' :
  Softplus_init temp params weights = Ok self ->
  Softplus_init temp' params' weights' = Ok self' ->
  WeightedSum_evaluate params weights rxn = Ok s ->
  WeightedSum_evaluate params' weights' rxn' = Ok s' ->
  Softplus_evaluate self rxn = Ok c -> Softplus_evaluate self' rxn' = Ok c' ->
  0 < c /\ (temp = temp' -> s < s' -> c < c') /\ (temp < temp' -> s = s' -> c' < c).
Proof.
  intros Hi Hi' Hs Hs' Hc Hc'. unfold Softplus_init in *.
  destruct (Rle_dec temp 0) as [|Ht]; [discriminate|]. destruct (Rle_dec temp' 0) as [|Ht']; [discriminate|].
  injection Hi as <-. injection Hi' as <-.
  unfold Softplus_evaluate, WeightedSum_evaluate in *. rewrite Hs in Hc. rewrite Hs' in Hc'.
  injection Hc as <-. injection Hc' as <-.
  apply Rnot_le_lt in Ht, Ht'.
  split; [apply softplus_pos; assumption|]. split.
  - intros <- Hlt. apply softplus_incr; assumption.
  - intros Hlt <-. apply softplus_temp; assumption.
Qed.
