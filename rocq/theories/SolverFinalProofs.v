From Coq Require Import Lqa.
From Verif Require Import Prelude NumQ ListFacts UtilsModel UtilsSpec UtilsProofs ReactionModel ReactionSpec PathModel PathSpec PathProofs RxnSetBaseProofs RxnSetParProofs EnumReactProofs SolverModel SolverSpec SolverProofs SolverTopProofs SolverSolveProofs SolverMoreProofs.
Open Scope nat_scope.

Lemma Qsum_pos ms : ms <> [] -> Forall (fun m => (1 # 1000000 <= m)%Q) ms -> (0 < Qsum ms)%Q.
Proof.
  intros Hne F. assert (H : (0 <= Qsum ms)%Q /\ (ms <> [] -> (0 < Qsum ms)%Q)); [|tauto]. clear Hne. induction F as [|m ms Hm F (IH1 & IH2)]; [split; [apply Qle_refl|contradiction]|].
  change (Qsum (m :: ms)) with (m + Qsum ms)%Q. split; [|intros _]; lra.
Qed.

Section Final.
Context {R : Type}.
Variable req : R -> R -> bool.
Variable vec : R -> result (list Q).
Variable rebuild : list (nat * Q) -> R.
Variable rs ps cs prec : R -> list nat.
Variable pinv : matrix -> list Q -> list Q.
Variable waits1 waits2 : nat -> nat -> list nat -> list nat * list nat.
Variable uniq : list (path R) -> list (path R).
Variable clean : list R.
Variable rxns : list (R * Q).
Variable net : R.
Variable chunk : nat.
Variable batch_size : option nat.
Variable cpus max : nat.
Variable fi : bool.
Hypothesis Hw1 : forall k, valid_schedule (waits1 k).
Hypothesis Hw2 : forall k, valid_schedule (waits2 k).
Hypothesis Hpinv : forall M v, length (pinv M v) = length M.

Let solve_now (ok : bool) := solve req vec rebuild rs ps cs prec pinv waits1 waits2 uniq clean rxns net ok chunk batch_size cpus max fi.
Let cands := pool req clean net rxns.

(* the reactions of a reported pathway themselves add up to the net reaction *)
Theorem own_sum ok paths : (forall l p, In p (uniq l) -> In p l) ->
  (forall r row, vec r = Ok row -> large row <> [] -> exists row', vec (rebuild (large row)) = Ok row' /\ trimmed row row') ->
  solve_now ok = Ok paths -> forall p, In p paths -> exists rows netv ms,
  vec net = Ok netv /\ Forall2 (fun r row => vec r = Ok row) (p_rxns p) rows /\ p_coeffs p = Some ms /\ length ms = length rows /\ 1 <= length rows <= max
  /\ Forall (fun m => (1 # 1000000 <= m)%Q) ms
  /\ forall j, j < length netv -> (Qabs (weighted ms rows j - nth j netv 0) <= (1 # 100000000) * (1 + Qsum ms) + (1 # 100000) * Qabs (nth j netv 0))%Q.
Proof.
  intros Hu Hre E p Hp. destruct (solve_sound req vec rebuild rs ps cs prec pinv waits1 waits2 uniq clean rxns net chunk batch_size cpus max fi Hw1 Hw2 Hpinv ok paths Hu E) as [_ H].
  destruct (H p Hp) as (steps & rows & netv & ms & Ev & Hsub & Hlen & Hrows & (HL & Hm & Hbal) & Hco & _ & Hrx & _).
  assert (exists rows', Forall2 (fun r row => vec r = Ok row) (p_rxns p) rows' /\ Forall2 trimmed rows rows') as (rows' & H1 & H2).
  { clear - Hrows Hrx Hre. revert Hrows. generalize steps. induction Hrx as [|r row l1 l2 (Hl & Hr) Hrx IH]; intros steps0 Hrows; [exists []; split; constructor|].
    inversion Hrows as [|s ? ss ? Hs Hss]; subst. destruct (IH _ Hss) as (rows' & H1 & H2). destruct (Hre _ _ Hs Hl) as (row' & Hv & Ht). exists (row' :: rows'). split; constructor; assumption. }
  exists rows', netv, ms. split; [exact Ev|]. split; [exact H1|]. split; [exact Hco|]. rewrite <- (Forall2_length _ _ _ H2). split; [exact HL|].
  split; [rewrite <- (Forall2_length _ _ _ Hrows); exact Hlen|]. split; [exact Hm|]. intros j Hj. specialize (Hbal j Hj).
  assert (Hm0 : Forall (fun m => (0 <= m)%Q) ms) by (eapply Forall_impl; [|exact Hm]; cbn; intros a Ha; lra).
  pose proof (weighted_trimmed ms rows rows' j H2 Hm0 HL) as Ht.
  setoid_replace (weighted ms rows' j - nth j netv 0)%Q with ((weighted ms rows j - nth j netv 0) + - (weighted ms rows j - weighted ms rows' j))%Q by ring.
  eapply Qle_trans; [apply Qabs_triangle|]. rewrite Qabs_opp. lra.
Qed.

(* costs of a reported pathway *)
Theorem own_costs ok paths : (forall l p, In p (uniq l) -> In p l) -> equivalence req -> fresh req rxns ->
  (forall s row, In s rxns -> vec (fst s) = Ok row -> req (fst s) (rebuild (large row)) = true) ->
  solve_now ok = Ok paths -> forall p, In p paths -> exists steps, subseq steps rxns /\ 1 <= length steps <= max
  /\ Forall2 (fun s r => req (fst s) r = true) steps (p_rxns p) /\ p_costs p = map snd steps.
Proof.
  intros Hu (Hr & Hs & Ht) Hfr Hre E p Hp. destruct (solve_sound req vec rebuild rs ps cs prec pinv waits1 waits2 uniq clean rxns net chunk batch_size cpus max fi Hw1 Hw2 Hpinv ok paths Hu E) as [_ H].
  destruct (H p Hp) as (steps & rows & netv & ms & Ev & Hsub & Hlen & Hrows & _ & Hco & _ & Hrx & Hk & _).
  assert (Hin : forall s, In s (pool req clean net rxns) -> In s rxns) by (intros s Hs'; unfold pool in Hs'; apply filter_In in Hs'; tauto).
  exists steps. split; [eapply subseq_trans; [exact Hsub|apply subseq_of_filter]|]. split; [exact Hlen|].
  assert (Hst : forall s, In s steps -> In s rxns) by (intros s Hs'; apply Hin; eapply subseq_In; eassumption).
  assert (HU : forall s t, In s rxns -> In t rxns -> req (fst s) (fst t) = true -> s = t).
  { intros s t H1 H2 Hst'. apply In_nth_error in H1 as (i & Hi). apply In_nth_error in H2 as (j & Hj). destruct (Nat.lt_trichotomy i j) as [L|[->|L]]; [|congruence|].
    - exfalso. destruct (nth_error_split _ _ Hi) as (l1 & l2 & E1 & L1). rewrite E1 in Hj. rewrite nth_error_app2 in Hj by lia. replace (j - length l1) with (S (j - S i)) in Hj by lia. cbn in Hj.
      destruct (nth_error_split _ _ Hj) as (l3 & l4 & E2 & _). rewrite E2 in E1. pose proof (Hfr _ _ _ _ _ E1) as Hf. apply Hs in Hst'. congruence.
    - exfalso. destruct (nth_error_split _ _ Hj) as (l1 & l2 & E1 & L1). rewrite E1 in Hi. rewrite nth_error_app2 in Hi by lia. replace (i - length l1) with (S (i - S j)) in Hi by lia. cbn in Hi.
      destruct (nth_error_split _ _ Hi) as (l3 & l4 & E2 & _). rewrite E2 in E1. pose proof (Hfr _ _ _ _ _ E1) as Hf. congruence. }
  clear - Hrows Hrx Hk Hst Hin HU Hre Hs Ht. revert Hrows Hk Hst. generalize (p_costs p) steps. induction Hrx as [|r row l1 l2 (Hl & Er) Hrx IH]; intros ks steps0 Hrows Hk Hst.
  - inversion Hrows; subst. inversion Hk; subst. split; constructor.
  - inversion Hrows as [|s ? ss ? Hv Hss]; subst. inversion Hk as [|? k ? ks' (t & Ht1 & Ht2 & <-) Hk']; subst.
    destruct (IH ks' ss Hss Hk') as [I1 I2]; [intros s' Hs'; apply Hst; right; exact Hs'|].
    assert (Hreq : req (fst s) (rebuild (large row)) = true) by (apply Hre; [apply Hst; left; reflexivity|exact Hv]).
    split; [constructor; assumption|]. cbn. rewrite I2. f_equal. f_equal. apply HU; [apply Hin; exact Ht1|apply Hst; left; reflexivity|]. eapply Ht; [exact Ht2|apply Hs; exact Hreq].
Qed.

Lemma balances_exact netv rows ms ms' : Forall2 Qeq ms' ms -> length ms = length rows -> Forall (fun m => (1 # 1000000 <= m)%Q) ms ->
  (forall j, j < length netv -> (weighted ms rows j == nth j netv 0)%Q) -> balances netv rows ms'.
Proof.
  intros HF HL Hm Hw. split; [rewrite (Forall2_length _ _ _ HF); exact HL|]. split.
  - clear - HF Hm. induction HF as [|a b l1 l2 E HF IH]; [constructor|]. inversion Hm; subst. constructor; [rewrite E; assumption|apply IH; assumption].
  - intros j Hj. rewrite (weighted_eq _ _ rows j HF), (Hw j Hj). setoid_replace (nth j netv 0 - nth j netv 0)%Q with 0%Q by ring. change (Qabs 0) with 0%Q. pose proof (Qabs_nonneg (nth j netv 0%Q)). lra.
Qed.

Lemma weighted_covers netv rows ms : (forall j, j < length netv -> (weighted ms rows j == nth j netv 0)%Q) -> covers netv rows.
Proof.
  intros Hw j Hj. assert (L : j < length netv) by (destruct (Nat.lt_ge_cases j (length netv)) as [L|L]; [exact L|exfalso; apply Hj; rewrite nth_overflow by exact L; reflexivity]).
  rewrite <- (Hw j L) in Hj. clear - Hj. revert ms Hj. induction rows as [|row rows IH]; intros [|m ms] Hj; try (exfalso; apply Hj; reflexivity).
  rewrite weighted_cons in Hj. destruct (Qeq_dec (nth j row 0%Q) 0) as [E|E]; [|exists row; split; [left; reflexivity|exact E]].
  destruct (IH ms) as (row' & H1 & H2); [intros H; apply Hj; rewrite E, H; ring|]. exists row'. split; [right; exact H1|exact H2].
Qed.

(* a net reaction that is a positive combination of independent reactions is found *)
Theorem solve_finds ok paths netv steps rows ms rhash : (forall r, req r r = true) -> set_members req rhash uniq -> solves pinv rows netv -> solve_now ok = Ok paths ->
  vec net = Ok netv -> (exists j, ~ (nth j netv 0 == 0)%Q) -> subseq steps cands -> 1 <= length steps <= max ->
  Forall2 (fun s row => vec (fst s) = Ok row /\ length row = length netv) steps rows -> independent (length netv) rows ->
  length ms = length rows -> Forall (fun m => (1 # 1000000 <= m)%Q) ms -> (forall j, j < length netv -> (weighted ms rows j == nth j netv 0)%Q) ->
  exists p ms', p_coeffs p = Some ms' /\ Forall2 Qeq ms' ms /\ Forall2 (fun r row => large row <> [] /\ r = rebuild (large row)) (p_rxns p) rows
  /\ (step_ok req rs ps cs prec net fi p -> exists q, In q paths /\ p_coeffs q = p_coeffs p /\ Forall2 (fun a b => req a b = true) (p_rxns p) (p_rxns q)).
Proof.
  intros Hrefl Hu Hsolve E Ev Hnz Hsub Hlen Hrows Hind HL Hm Hw.
  pose proof (Hsolve Hind ms HL Hw) as HF.
  assert (Hrows' : Forall2 (fun s row => vec (fst s) = Ok row) steps rows) by (eapply Forall2_impl; [|exact Hrows]; cbn; tauto).
  destruct (solve_complete req vec rebuild rs ps cs prec pinv waits1 waits2 uniq clean rxns net chunk batch_size cpus max fi Hw1 Hw2 Hpinv ok paths netv steps rows rhash Hrefl Hu E Ev Hnz Hsub Hlen Hrows' (weighted_covers netv rows ms Hw) (balances_exact netv rows ms _ HF HL Hm Hw)) as (p & H1 & H2 & H3).
  exists p, (pinv rows netv). split; [exact H1|]. split; [exact HF|]. split; [exact H2|exact H3].
Qed.

(* when the solver returns *)
Theorem solve_returns netv : (forall l p, In p (uniq l) -> In p l) -> uniq [] = [] -> vec net = Ok netv -> (exists j, ~ (nth j netv 0 == 0)%Q) -> 1 <= chunk ->
  (exists b, batch_size = Some (S b)) \/ (batch_size = None \/ batch_size = Some 0) /\ 2 <= cpus -> 1 <= max <= length cands ->
  (forall s, In s cands -> exists row, vec (fst s) = Ok row /\ large row <> [] /\ exists t, In t cands /\ req (fst t) (rebuild (large row)) = true) ->
  (exists steps rows, subseq steps cands /\ 1 <= length steps <= max /\ Forall2 (fun s row => vec (fst s) = Ok row) steps rows /\ covers netv rows) ->
  exists paths, solve_now true = Ok paths
  /\ ((forall steps rows ms, subseq steps cands -> 1 <= length steps <= max -> Forall2 (fun s row => vec (fst s) = Ok row) steps rows -> ~ balances netv rows ms) -> paths = []).
Proof.
  intros Hu Hu0 Ev Hnz Hc Hb (Hm & HN) Hcand (steps & rows & Hsub & Hlen & Hrows & Hcov).
  unfold solve_now, solve. cbn [negb]. rewrite (candidates_eq req clean rxns net). fold cands.
  assert (exists s0, In s0 cands) as (s0 & Hs0) by (clear - HN Hm; destruct cands as [|s0 l] eqn:Ec; [cbn in HN; exfalso; lia|exists s0; left; reflexivity]).
  replace (match cands with [] => Err ValueError | _ :: _ => Ok cands end) with (@Ok (list (R * Q)) cands) by (clear - Hs0; destruct cands as [|s1 l] eqn:Ec; [destruct Hs0|reflexivity]). cbn [bind]. rewrite Ev. cbn [bind].
  assert (exists vs, Forall2 (fun r v => vec r = Ok v) (map fst cands) vs) as (vs & Hvs).
  { clear - Hcand. assert (H : forall s, In s cands -> exists row, vec (fst s) = Ok row) by (intros s Hs; destruct (Hcand s Hs) as (row & H & _); exists row; exact H). clear Hcand. clearbody cands. induction cands as [|s l IH]; [exists []; constructor|].
    destruct (H s (or_introl eq_refl)) as (v & Hv). destruct IH as (vs & IH); [intros s' Hs'; apply H; right; exact Hs'|]. exists (v :: vs). constructor; assumption. }
  assert (HN' : max <= length (map fst cands)) by (rewrite map_length; exact HN).
  destruct (comp_matrices_ok vec (map fst cands) waits1 netv chunk max vs Hw1 Hc HN' Hvs) as (d & Ed & HMs & HMs2). rewrite Ed. cbn [bind]. destruct (HMs2 Hnz) as (combos & _ & Hcin & HpM).
  destruct (subseq_pick s0 _ _ Hsub) as (c & HS & HF & Esteps). subst steps.
  assert (rows = pick [] vs c) as ->.
  { assert (H2 : Forall2 (fun s row => vec (fst s) = Ok row) (pick s0 cands c) (pick [] vs c)) by (apply (pick_steps req vec clean rxns net vs c Hvs HF s0)). clear - Hrows H2. revert H2. generalize (pick [] vs c) as r2. induction Hrows as [|s row l1 l2 H Hrows IH]; intros r2 H2; inversion H2; subst; [reflexivity|].
    f_equal; [congruence|]. apply IH. assumption. }
  unfold pick in Hlen. rewrite map_length in Hlen. assert (HM : In (pick [] vs c) (concat (map snd d))).
  { apply (Permutation_in _ (Permutation_sym HpM)), in_map, Hcin. split; [|exact Hcov]. split; [exact Hlen|]. split; [exact HS|]. rewrite map_length. exact HF. }
  assert (Hj : jobs_of chunk d <> []) by (intros H; rewrite <- (jobs_concat chunk d), H in HM; destruct HM).
  assert (Hb' : batch_of batch_size cpus <> 0) by (destruct Hb as [(b & ->)|[[->| ->] H]]; cbn; lia).
  destruct (balance_all_ok pinv waits2 chunk (batch_of batch_size cpus) netv d Hw2 Hb' Hj) as (acc & Ea). rewrite Ea. cbn [bind]. apply balance_all_spec in Ea as (_ & _ & Hp); [|exact Hw2].
  assert (Hacc : forall a, In a acc -> exists c', combination (length (map fst cands)) max c' /\ a = (pick [] vs c', pinv (pick [] vs c') netv) /\ balances netv (pick [] vs c') (pinv (pick [] vs c') netv)).
  { intros a Ha. apply (Permutation_in _ Hp), in_kernel in Ha; [|intros M; apply Hpinv]. destruct Ha as (M & HMin & -> & _ & Hbal). destruct (HMs M HMin) as (c' & Hc' & _ & ->). exists c'. split; [exact Hc'|]. split; [reflexivity|exact Hbal]. }
  assert (Hbuild : forall a, In a acc -> exists p, build_path req rebuild cands a = Ok p /\ exists v, average_cost p = Ok v).
  { intros a Ha. destruct (Hacc a Ha) as (c' & (Hlen' & HS' & HF') & -> & (HL & Hmm & _)). rewrite map_length in HF'. unfold build_path. cbn [fst snd].
    assert (exists rl, mapM (row_rxn rebuild) (pick [] vs c') = Ok rl /\ Forall (fun r => exists t, In t cands /\ req (fst t) r = true) rl) as (rl & Hrl & Hfound).
    { assert (H2 : Forall2 (fun s row => vec (fst s) = Ok row) (pick s0 cands c') (pick [] vs c')) by (apply (pick_steps req vec clean rxns net vs c' Hvs HF' s0)).
      assert (H3 : forall s, In s (pick s0 cands c') -> In s cands) by (intros s Hs; eapply subseq_In; [apply pick_subseq; eassumption|exact Hs]).
      clear - H2 H3 Hcand. induction H2 as [|s row l1 l2 H H2 IH]; [exists []; split; [reflexivity|constructor]|].
      destruct IH as (rl & E1 & E2); [intros s' Hs'; apply H3; right; exact Hs'|]. destruct (Hcand s (H3 s (or_introl eq_refl))) as (row' & Hv & Hl & Ht). rewrite H in Hv. injection Hv as <-.
      exists (rebuild (large row) :: rl). split; [|constructor; assumption]. cbn [mapM]. assert (row_rxn rebuild row = Ok (rebuild (large row))) as -> by (apply row_rxn_iff; split; [exact Hl|reflexivity]). rewrite E1. reflexivity. }
    rewrite Hrl. cbn [bind]. eexists. split; [reflexivity|]. unfold average_cost. cbn [p_coeffs p_costs].
    assert (Hk : length (flat_map (cost_of req cands) rl) = length rl).
    { clear - Hfound. induction Hfound as [|r rl (t & Ht & Hr) F IH]; [reflexivity|]. cbn. rewrite app_length, IH. destruct (cost_of_cases req cands r) as [[_ H]|(s & _ & _ & ->)]; [|reflexivity]. specialize (H t Ht). congruence. }
    apply mapM_Forall2, Forall2_length in Hrl.
    destruct (dot_ok (pinv (pick [] vs c') netv) (flat_map (cost_of req cands) rl)) as (dd & ->); [rewrite Hk, <- Hrl; exact HL|]. cbn [bind].
    assert (Hpos : (0 < Qsum (pinv (pick [] vs c') netv))%Q).
    { apply Qsum_pos; [|exact Hmm]. intros H. rewrite H in HL. unfold pick in HL. cbn in HL. rewrite map_length in HL. lia. }
    destruct (Qeq_bool (Qsum (pinv (pick [] vs c') netv)) 0) eqn:Ez; [apply Qeq_bool_iff in Ez; rewrite Ez in Hpos; discriminate|]. eexists. reflexivity. }
  assert (exists built, mapM (build_path req rebuild cands) acc = Ok built /\ (forall p, In p built -> exists v, average_cost p = Ok v) /\ length built = length acc) as (built & -> & Hav & Hbl).
  { clear - Hbuild. induction acc as [|a acc IH]; [exists []; split; [reflexivity|split; [intros p []|reflexivity]]|]. destruct (Hbuild a (or_introl eq_refl)) as (p & E1 & E2).
    destruct IH as (b & E3 & E4 & E5); [intros a' Ha'; apply Hbuild; right; exact Ha'|]. exists (p :: b). cbn [mapM]. rewrite E1, E3. split; [reflexivity|]. split; [intros p' [<-|Hp']; [exact E2|apply E4; exact Hp']|cbn; rewrite E5; reflexivity]. }
  cbn [bind]. unfold finish. set (kept := if fi then _ else _).
  assert (Hkept : forall p, In p kept -> In p built) by (intros p Hpk; unfold kept in Hpk; destruct fi; [apply filter_In in Hpk; tauto|exact Hpk]).
  assert (exists l, mapM (fun p => bind (average_cost p) (fun a => Ok (a, p))) (uniq kept) = Ok l /\ length l = length (uniq kept)) as (l & -> & Hll).
  { assert (H : forall p, In p (uniq kept) -> exists v, average_cost p = Ok v) by (intros p Hpu; apply Hav, Hkept, Hu; exact Hpu). clear - H. induction (uniq kept) as [|p u IH]; [exists []; split; reflexivity|].
    destruct (H p (or_introl eq_refl)) as (v & Hv). destruct IH as (l & E1 & E2); [intros p' Hp'; apply H; right; exact Hp'|]. exists ((v, p) :: l). cbn [mapM]. rewrite Hv. cbn [bind]. rewrite E1. split; [reflexivity|cbn; rewrite E2; reflexivity]. }
  cbn [bind]. eexists. split; [reflexivity|]. intros Hnone.
  assert (acc = []) as ->.
  { destruct acc as [|a acc]; [reflexivity|]. exfalso. destruct (Hacc a (or_introl eq_refl)) as (c' & (Hlen' & HS' & HF') & _ & Hbal). rewrite map_length in HF'.
    apply (Hnone (pick s0 cands c') (pick [] vs c') (pinv (pick [] vs c') netv)); [apply pick_subseq; assumption|unfold pick; rewrite map_length; exact Hlen'|apply (pick_steps req vec clean rxns net vs c' Hvs HF' s0)|exact Hbal]. }
  destruct built; [|discriminate Hbl]. assert (kept = []) as Hk0 by (unfold kept; destruct fi; reflexivity). rewrite Hk0, Hu0 in Hll. destruct l; [reflexivity|discriminate].
Qed.
End Final.
