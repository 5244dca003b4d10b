From Coq Require Import Lqa.
From Verif Require Import Prelude NumQ ListFacts UtilsModel UtilsSpec UtilsProofs ReactionModel ReactionSpec PathModel PathSpec PathProofs RxnSetBaseProofs RxnSetParProofs EnumReactProofs SolverModel SolverSpec SolverProofs SolverTopProofs.
Open Scope nat_scope.

(* --- sorting --- *)
Lemma insert_by_perm {A} (x : Q * A) l : Permutation (insert_by x l) (x :: l).
Proof.
  induction l as [|y l IH]; [constructor; constructor|]. cbn. destruct (Qlt_bool (fst y) (fst x)); [|apply Permutation_refl].
  eapply perm_trans; [apply perm_skip; exact IH|apply perm_swap].
Qed.

Lemma sort_by_perm {A} (l : list (Q * A)) : Permutation (sort_by l) l.
Proof. induction l as [|x l IH]; [constructor|]. cbn. eapply perm_trans; [apply insert_by_perm|apply perm_skip; exact IH]. Qed.

Lemma insert_by_sorted {A} (x : Q * A) l : StronglySorted (fun a b => (fst a <= fst b)%Q) l -> StronglySorted (fun a b => (fst a <= fst b)%Q) (insert_by x l).
Proof.
  induction 1 as [|y l S IH F]; [repeat constructor|]. cbn. unfold Qlt_bool. destruct (Qle_bool (fst x) (fst y)) eqn:E; cbn.
  - apply Qle_bool_iff in E. constructor; [constructor; assumption|]. constructor; [exact E|]. eapply Forall_impl; [|exact F]. cbn. intros a Ha. eapply Qle_trans; eassumption.
  - constructor; [exact IH|]. eapply Permutation_Forall; [apply Permutation_sym, insert_by_perm|]. constructor; [|exact F].
    assert (H : ~ (fst x <= fst y)%Q) by (intros H; apply Qle_bool_iff in H; congruence). lra.
Qed.

Lemma sort_by_sorted {A} (l : list (Q * A)) : StronglySorted (fun a b => (fst a <= fst b)%Q) (sort_by l).
Proof. induction l as [|x l IH]; [constructor|]. cbn. apply insert_by_sorted. exact IH. Qed.

(* --- costs --- *)
Lemma cost_of_cases {R} (req : R -> R -> bool) cands r :
  cost_of req cands r = [] /\ (forall s, In s cands -> req (fst s) r = false) \/ exists s, In s cands /\ req (fst s) r = true /\ cost_of req cands r = [snd s].
Proof.
  unfold cost_of. induction cands as [|s l IH]; cbn [map py_index]; [left; split; [reflexivity|intros s []]|].
  destruct (req (fst s) r) eqn:E; [right; exists s; split; [left; reflexivity|split; [exact E|reflexivity]]|].
  destruct (py_index req r (map fst l)) as [i|e]; cbn [bind].
  - cbn [nth_error]. destruct IH as [[H1 H2]|(s' & Hs' & Hr & H)].
    + left. split; [exact H1|]. intros s' [<-|Hs']; [exact E|apply H2; exact Hs'].
    + right. exists s'. split; [right; exact Hs'|]. split; [exact Hr|exact H].
  - destruct IH as [[H1 H2]|(s' & Hs' & Hr & H)]; [|discriminate]. left. split; [reflexivity|]. intros s' [<-|Hs']; [exact E|apply H2; exact Hs'].
Qed.

Lemma costs_full {R} (req : R -> R -> bool) cands rxns : length (flat_map (cost_of req cands) rxns) <= length rxns
  /\ (length (flat_map (cost_of req cands) rxns) = length rxns ->
      Forall2 (fun r k => exists s, In s cands /\ req (fst s) r = true /\ snd s = k) rxns (flat_map (cost_of req cands) rxns)).
Proof.
  induction rxns as [|r rxns (IH1 & IH2)]; [split; [cbn; lia|constructor]|]. cbn. destruct (cost_of_cases req cands r) as [[-> _]|(s & Hs & Hr & ->)]; cbn.
  - split; [lia|]. intros H. exfalso. lia.
  - split; [lia|]. intros H. injection H as H. constructor; [exists s; split; [exact Hs|split; [exact Hr|reflexivity]]|]. apply IH2. exact H.
Qed.

Lemma dot_lengths a : forall b d, dot a b = Ok d -> length a = length b.
Proof. induction a as [|x a IH]; intros [|y b] d H; cbn in H; try discriminate; [reflexivity|]. destruct (dot a b) eqn:E; [|discriminate]. cbn. f_equal. eapply IH. exact E. Qed.

Lemma dot_ok a : forall b, length a = length b -> exists d, dot a b = Ok d.
Proof. induction a as [|x a IH]; intros [|y b] H; cbn in H; try discriminate; [eexists; reflexivity|]. injection H as H. destruct (IH b H) as (d & E). cbn. rewrite E. eexists. reflexivity. Qed.

Lemma large_eq row : filter (fun ic => negb (isclose (snd ic) 0)) (combine (seq 0 (length row)) row) = large row.
Proof.
  unfold large. apply filter_ext. intros [i c]. cbn. f_equal. unfold isclose. apply eq_true_iff_eq. rewrite !Qle_bool_iff.
  assert (E1 : (Qabs (c - 0) == Qabs c)%Q) by (apply Qabs_wd; ring). assert (E2 : ((1 # 100000000) + (1 # 100000) * Qabs 0 == 1 # 100000000)%Q) by reflexivity.
  rewrite E1, E2. reflexivity.
Qed.

Lemma row_rxn_iff {R} (rebuild : list (nat * Q) -> R) row r : row_rxn rebuild row = Ok r <-> large row <> [] /\ r = rebuild (large row).
Proof.
  unfold row_rxn. rewrite large_eq. destruct (large row) as [|x l]; [split; [discriminate|intros [H _]; contradiction]|].
  split; [intros H; injection H as <-; split; [discriminate|reflexivity]|intros [_ ->]; reflexivity].
Qed.

Section Solve.
Context {R : Type}.
Variable req : R -> R -> bool.
Variable vec : R -> result (list Q).
Variable rebuild : list (nat * Q) -> R.
Variable rs ps cs prec : R -> list nat.
Variable pinv : matrix -> list Q -> list Q.
Variable waits1 waits2 : nat -> nat -> list nat -> list nat * list nat.
Variable uniq : list (path R) -> list (path R).
Variable clean : list R.
Variable rxns : list (R * Q).
Variable net : R.
Variable chunk : nat.
Variable batch_size : option nat.
Variable cpus max : nat.
Variable filter_interdependent : bool.

Let solve_now (ok : bool) := solve req vec rebuild rs ps cs prec pinv waits1 waits2 uniq clean rxns net ok chunk batch_size cpus max filter_interdependent.
Let cands := pool req clean net rxns.
Definition step_ok (p : path R) : Prop := filter_interdependent = true -> contains_interdependent req rs ps cs p (prec net) = false.

Lemma candidates_eq : candidates req clean net rxns = match cands with [] => Err ValueError | l => Ok l end.
Proof. unfold candidates. change (filter _ rxns) with cands. destruct cands; reflexivity. Qed.

Lemma finish_inv paths out : finish req rs ps cs uniq filter_interdependent (prec net) paths = Ok out ->
  exists kept, (forall p, In p kept <-> In p paths /\ step_ok p) /\ Permutation out (uniq kept)
  /\ (forall p, In p out -> exists a, average_cost p = Ok a) /\ exists avs, Forall2 (fun p a => average_cost p = Ok a) out avs /\ StronglySorted Qle avs.
Proof.
  unfold finish. set (kept := if filter_interdependent then _ else _). intros E. exists kept.
  assert (Hk : forall p, In p kept <-> In p paths /\ step_ok p).
  { intros p. unfold kept, step_ok. destruct filter_interdependent; [rewrite filter_In, negb_true_iff; tauto|]. split; [intros H; split; [exact H|discriminate]|tauto]. }
  split; [exact Hk|]. destruct (mapM (fun p => bind (average_cost p) (fun a => Ok (a, p))) (uniq kept)) as [l|] eqn:El; [|discriminate]. cbn [bind] in E. injection E as <-.
  apply mapM_Forall2 in El.
  assert (Hl : map snd l = uniq kept /\ Forall (fun ap => average_cost (snd ap) = Ok (fst ap)) l).
  { clear - El. induction El as [|p ap pl l H El (IH1 & IH2)]; [split; constructor|]. destruct (average_cost p) as [a|] eqn:Ea; [|discriminate]. cbn in H. injection H as <-. cbn. split; [rewrite IH1; reflexivity|constructor; assumption]. }
  destruct Hl as [Hl HF]. assert (Hs := sort_by_perm l). split; [rewrite <- Hl; apply Permutation_map; exact Hs|].
  assert (HF' : Forall (fun ap => average_cost (snd ap) = Ok (fst ap)) (sort_by l)) by (eapply Permutation_Forall; [apply Permutation_sym; exact Hs|exact HF]).
  split.
  - intros p Hp. apply in_map_iff in Hp as (ap & <- & Hap). rewrite Forall_forall in HF'. exists (fst ap). apply HF'. exact Hap.
  - exists (map fst (sort_by l)). split.
    + clear - HF'. induction HF' as [|ap l1 H HF IH]; [constructor|]. cbn. constructor; assumption.
    + pose proof (sort_by_sorted l) as S. clear - S. induction S as [|x l1 S IH F]; [constructor|]. cbn. constructor; [exact IH|]. rewrite Forall_map. exact F.
Qed.

Hypothesis Hw1 : forall k, valid_schedule (waits1 k).
Hypothesis Hw2 : forall k, valid_schedule (waits2 k).
Hypothesis Hpinv : forall M v, length (pinv M v) = length M.

Lemma pick_steps vs c : Forall2 (fun r v => vec r = Ok v) (map fst cands) vs -> Forall (fun i => i < length cands) c -> forall d,
  Forall2 (fun s row => vec (fst s) = Ok row) (pick d cands c) (pick [] vs c).
Proof. intros HF Hc d. apply pick_Forall2; [|exact Hc]. clear - HF. remember (map fst cands) as l eqn:E. revert HF. revert E. generalize cands as cs0. intros cs0 ->. intros HF. remember (map fst cs0) as l. revert cs0 Heql. induction HF as [|x y l1 l2 H HF IH]; intros [|s cs0] E; cbn in E; try discriminate; [constructor|]. injection E as -> ->. constructor; [exact H|apply IH; reflexivity]. Qed.

Lemma solve_inv ok paths : solve_now ok = Ok paths ->
  ok = true /\ exists netv vs d acc built, vec net = Ok netv /\ cands <> [] /\ 1 <= chunk /\ 1 <= max <= length cands /\ batch_of batch_size cpus <> 0
  /\ Forall2 (fun r v => vec r = Ok v) (map fst cands) vs
  /\ comp_matrices vec waits1 (map fst cands) (net_filter netv) chunk max = Ok d
  /\ Permutation acc (kernel pinv netv (concat (map snd d)))
  /\ mapM (build_path req rebuild cands) acc = Ok built
  /\ finish req rs ps cs uniq filter_interdependent (prec net) built = Ok paths /\ jobs_of chunk d <> [].
Proof.
  intros E. unfold solve_now, solve in E. destruct ok; [|discriminate]. cbn [negb] in E. split; [reflexivity|]. rewrite candidates_eq in E.
  destruct cands as [|s0 l0] eqn:Ec; [discriminate|]. rewrite <- Ec in *. cbn [bind] in E. destruct (vec net) as [netv|] eqn:Ev; [|discriminate]. cbn [bind] in E.
  destruct (comp_matrices vec waits1 (map fst cands) (net_filter netv) chunk max) as [d|] eqn:Ed; [|discriminate]. cbn [bind] in E.
  destruct (balance_all pinv waits2 chunk (batch_of batch_size cpus) netv d) as [acc|] eqn:Ea; [|discriminate]. cbn [bind] in E.
  destruct (mapM (build_path req rebuild cands) acc) as [built|] eqn:Eb; [|discriminate]. cbn [bind] in E.
  apply balance_all_spec in Ea as (Hb & Hj & Hp); [|exact Hw2].
  assert (Hm : 1 <= max).
  { destruct max as [|m]; [|lia]. exfalso. unfold comp_matrices in Ed. cbn in Ed. injection Ed as <-. apply Hj. reflexivity. }
  pose proof (all_sizes_inv vec (map fst cands) waits1 (net_filter netv) chunk max d Hw1 Ed Hm) as (Hc & HN & vs & Hvs). rewrite map_length in HN.
  exists netv, vs, d, acc, built. split; [reflexivity|]. split; [rewrite Ec; discriminate|]. split; [exact Hc|]. split; [split; assumption|]. split; [exact Hb|].
  split; [exact Hvs|]. split; [exact Ed|]. split; [exact Hp|]. split; [exact Eb|]. split; [exact E|exact Hj].
Qed.

Theorem solve_sound ok paths : (forall l p, In p (uniq l) -> In p l) -> solve_now ok = Ok paths ->
  (exists avs, Forall2 (fun p a => average_cost p = Ok a) paths avs /\ StronglySorted Qle avs)
  /\ forall p, In p paths -> exists steps rows netv ms,
     vec net = Ok netv /\ subseq steps cands /\ 1 <= length steps <= max
     /\ Forall2 (fun s row => vec (fst s) = Ok row) steps rows
     /\ balances netv rows ms /\ p_coeffs p = Some ms /\ p_balanced p = true
     /\ Forall2 (fun r row => large row <> [] /\ r = rebuild (large row)) (p_rxns p) rows
     /\ Forall2 (fun r k => exists s, In s cands /\ req (fst s) r = true /\ snd s = k) (p_rxns p) (p_costs p)
     /\ step_ok p.
Proof.
  intros Hu E. apply solve_inv in E as (_ & netv & vs & d & acc & built & Ev & Hne & Hc & (Hm & HN) & Hb & Hvs & Ed & Hp & Eb & Ef & _).
  apply finish_inv in Ef as (kept & Hk & Hperm & Havg & Hsort). split; [exact Hsort|]. intros p Hpin.
  assert (Hpk : In p kept) by (apply Hu; apply (Permutation_in _ Hperm); exact Hpin). apply Hk in Hpk as [Hpb Hok].
  apply mapM_Forall2 in Eb. destruct (Forall2_In_r _ _ _ _ Eb Hpb) as (a & Ha & Hbuild).
  apply (Permutation_in _ Hp), in_kernel in Ha; [|intros M; apply Hpinv]. destruct Ha as (M & HM & -> & _ & Hbal).
  assert (HN' : max <= length (map fst cands)) by (rewrite map_length; exact HN).
  destruct (comp_matrices_ok vec (map fst cands) waits1 netv chunk max vs Hw1 Hc HN' Hvs) as (d' & Ed' & HMs & _). rewrite Ed in Ed'. injection Ed' as <-.
  destruct (HMs M HM) as (c & (Hlen & HS & HF) & _ & ->). rewrite map_length in HF.
  destruct cands as [|s0 l0] eqn:Ecands; [contradiction|]. rewrite <- Ecands in *. clear l0 Ecands.
  unfold build_path in Hbuild. cbn [fst snd] in Hbuild. destruct (mapM (row_rxn rebuild) (pick [] vs c)) as [rl|] eqn:Er; [|discriminate]. cbn [bind] in Hbuild. injection Hbuild as <-. cbn [p_rxns p_costs p_coeffs p_balanced].
  exists (pick s0 cands c), (pick [] vs c), netv, (pinv (pick [] vs c) netv). split; [exact Ev|]. split; [apply pick_subseq; assumption|].
  split; [unfold pick; rewrite map_length; exact Hlen|]. split; [apply pick_steps; assumption|]. split; [exact Hbal|]. split; [reflexivity|]. split; [reflexivity|].
  apply mapM_Forall2 in Er. assert (Hrr : Forall2 (fun r row => large row <> [] /\ r = rebuild (large row)) rl (pick [] vs c)).
  { clear - Er. induction Er as [|row r l1 l2 H Er IH]; [constructor|]. constructor; [apply row_rxn_iff; exact H|exact IH]. }
  split; [exact Hrr|]. split; [|exact Hok]. apply costs_full. destruct (Havg _ Hpin) as (av & Hav). unfold average_cost in Hav. cbn [p_coeffs p_costs] in Hav.
  destruct (dot (pinv (pick [] vs c) netv) (flat_map (cost_of req cands) rl)) as [dd|] eqn:Edot; [|discriminate]. apply dot_lengths in Edot. rewrite <- Edot, Hpinv. symmetry. eapply Forall2_length. exact Hrr.
Qed.

(* every accepted combination is reported *)
Theorem solve_complete ok paths netv steps rows rhash : (forall r, req r r = true) -> set_members req rhash uniq -> solve_now ok = Ok paths ->
  vec net = Ok netv -> (exists j, ~ (nth j netv 0 == 0)%Q) -> subseq steps cands -> 1 <= length steps <= max ->
  Forall2 (fun s row => vec (fst s) = Ok row) steps rows -> covers netv rows -> balances netv rows (pinv rows netv) ->
  exists p, p_coeffs p = Some (pinv rows netv) /\ Forall2 (fun r row => large row <> [] /\ r = rebuild (large row)) (p_rxns p) rows
  /\ (step_ok p -> exists q, In q paths /\ p_coeffs q = p_coeffs p /\ Forall2 (fun a b => req a b = true) (p_rxns p) (p_rxns q)).
Proof.
  intros Hrefl Hu E Ev' Hnz Hsub Hlen Hrows Hcov Hbal. apply solve_inv in E as (_ & netv0 & vs & d & acc & built & Ev & Hne & Hc & (Hm & HN) & Hb & Hvs & Ed & Hp & Eb & Ef & _).
  rewrite Ev in Ev'. injection Ev' as ->. apply finish_inv in Ef as (kept & Hk & Hperm & Havg & Hsort).
  assert (HN' : max <= length (map fst cands)) by (rewrite map_length; exact HN).
  destruct (comp_matrices_ok vec (map fst cands) waits1 netv chunk max vs Hw1 Hc HN' Hvs) as (d' & Ed' & _ & HMs). rewrite Ed in Ed'. injection Ed' as <-.
  destruct (HMs Hnz) as (combos & _ & Hin & HpM).
  destruct cands as [|s0 l0] eqn:Ecands; [contradiction|]. rewrite <- Ecands in *. clear l0 Ecands.
  destruct (subseq_pick s0 _ _ Hsub) as (c & HS & HF & ->).
  assert (rows = pick [] vs c) as ->.
  { pose proof (pick_steps vs c Hvs HF s0) as H2. clear - Hrows H2. revert H2. generalize (pick [] vs c) as r2. induction Hrows as [|s row l1 l2 H Hrows IH]; intros r2 H2; inversion H2; subst; [reflexivity|].
    f_equal; [congruence|]. apply IH. assumption. }
  unfold pick in Hlen. rewrite map_length in Hlen. assert (HM : In (pick [] vs c) (concat (map snd d))).
  { apply (Permutation_in _ (Permutation_sym HpM)), in_map, Hin. split; [|exact Hcov]. split; [exact Hlen|]. split; [exact HS|]. rewrite map_length. exact HF. }
  assert (Ha : In (pick [] vs c, pinv (pick [] vs c) netv) acc).
  { apply (Permutation_in _ (Permutation_sym Hp)), in_kernel; [intros M; apply Hpinv|]. exists (pick [] vs c). split; [exact HM|]. split; [reflexivity|]. split; assumption. }
  apply mapM_Forall2 in Eb. destruct (Forall2_In_l _ _ _ _ Eb Ha) as (p & Hpb & Hbuild). exists p.
  unfold build_path in Hbuild. cbn [fst snd] in Hbuild. destruct (mapM (row_rxn rebuild) (pick [] vs c)) as [rl|] eqn:Er; [|discriminate]. cbn [bind] in Hbuild. injection Hbuild as Ep.
  assert (p_coeffs p = Some (pinv (pick [] vs c) netv) /\ p_rxns p = rl) as [Hco Hrl] by (rewrite <- Ep; split; reflexivity). split; [exact Hco|]. split.
  - rewrite Hrl. apply mapM_Forall2 in Er. clear - Er. induction Er as [|row r l1 l2 H Er IH]; [constructor|]. constructor; [apply row_rxn_iff; exact H|exact IH].
  - intros Hok. destruct (Hu kept) as [_ Hu2]. destruct (Hu2 p (proj2 (Hk p) (conj Hpb Hok))) as (q & Hq & Hqp). exists q. split; [apply (Permutation_in _ (Permutation_sym Hperm)); exact Hq|].
    destruct Hqp as [->|[Hh He]].
    + split; [reflexivity|]. clear - Hrefl. induction (p_rxns p); constructor; auto.
    + unfold hash_key in Hh. injection Hh as Hh1 Hh2. split; [exact Hh2|]. assert (Hl : length (p_rxns p) = length (p_rxns q)) by (apply (f_equal (@length _)) in Hh1; rewrite !map_length in Hh1; symmetry; exact Hh1).
      assert (Heq : rxns_eq req (p_rxns q) (p_rxns p) = true).
      { unfold path_eq in He. rewrite Hco, Hh2, Hco in He. destruct (rxns_eq req (p_rxns q) (p_rxns p)); [reflexivity|discriminate]. }
      unfold rxns_eq in Heq. clear - Heq Hl. revert Heq Hl. generalize (p_rxns q) as m. induction (p_rxns p) as [|a l IH]; intros [|b m] Heq Hl; cbn in Hl; try discriminate; [constructor|].
      cbn in Heq. apply andb_true_iff in Heq as [H1 H2]. constructor; [exact H1|]. apply IH; [exact H2|lia].
Qed.
End Solve.
