From Verif Require Import Prelude NumQ ListFacts UtilsModel UtilsSpec UtilsProofs ReactionModel ReactionSpec PathModel PathSpec PathProofs SolverModel SolverSpec SolverProofs SolverTopProofs SolverSolveProofs SolverMoreProofs SolverFinalProofs.
Open Scope nat_scope.

(* C46: what reaches the kernel *)
Theorem jobs_spec {R} vec (cands : list R) waits1 net chunk max vs : (forall k, valid_schedule (waits1 k)) -> 1 <= chunk -> max <= length cands ->
  Forall2 (fun r v => vec r = Ok v) cands vs -> (exists j, ~ (nth j net 0 == 0)%Q) ->
  exists d combos, comp_matrices vec waits1 cands (net_filter net) chunk max = Ok d /\ NoDup combos
  /\ (forall c, In c combos <-> combination (length cands) max c /\ covers net (pick [] vs c))
  /\ Permutation (concat (jobs_of chunk d)) (map (pick [] vs) combos)
  /\ forall pinv waits2 batch, (forall k, valid_schedule (waits2 k)) -> batch <> 0 -> combos <> [] ->
     exists acc, balance_all pinv waits2 chunk batch net d = Ok acc /\ Permutation acc (kernel pinv net (map (pick [] vs) combos)).
Proof.
  intros Hw Hc Hm Hv Hnz. destruct (comp_matrices_ok vec cands waits1 net chunk max vs Hw Hc Hm Hv) as (d & Ed & _ & H). destruct (H Hnz) as (combos & H1 & H2 & H3).
  exists d, combos. split; [exact Ed|]. split; [exact H1|]. split; [exact H2|]. assert (Hp : Permutation (concat (jobs_of chunk d)) (map (pick [] vs) combos)) by (rewrite jobs_concat; exact H3). split; [exact Hp|].
  intros pinv waits2 batch Hw2 Hb Hne. assert (Hj : jobs_of chunk d <> []).
  { intros E. rewrite E in Hp. apply Permutation_nil in Hp. destruct combos; [contradiction|discriminate]. }
  destruct (balance_all_ok pinv waits2 chunk batch net d Hw2 Hb Hj) as (acc & Ea). exists acc. split; [exact Ea|]. apply balance_all_spec in Ea as (_ & _ & Hp'); [|exact Hw2].
  eapply perm_trans; [exact Hp'|]. unfold kernel. apply Permutation_flat_map. exact H3.
Qed.

Section End_.
Context {R : Type}.
Variable req : R -> R -> bool.
Variable vec : R -> result (list Q).
Variable rebuild : list (nat * Q) -> R.
Variable rs ps cs prec : R -> list nat.
Variable pinv : matrix -> list Q -> list Q.
Variable waits1 waits2 : nat -> nat -> list nat -> list nat * list nat.
Variable uniq : list (path R) -> list (path R).
Variable clean : list R.
Variable rxns : list (R * Q).
Variable net : R.
Variable chunk : nat.
Variable batch_size : option nat.
Variable cpus max : nat.
Variable fi : bool.
Hypothesis Hw1 : forall k, valid_schedule (waits1 k).
Hypothesis Hw2 : forall k, valid_schedule (waits2 k).

(* C47: what the solver needs in order to return *)
Theorem solve_needs ok paths : solve req vec rebuild rs ps cs prec pinv waits1 waits2 uniq clean rxns net ok chunk batch_size cpus max fi = Ok paths ->
  let cands := pool req clean net rxns in
  ok = true /\ 1 <= chunk /\ 1 <= max <= length cands /\ batch_of batch_size cpus <> 0
  /\ exists netv, vec net = Ok netv /\ (forall s, In s cands -> exists row, vec (fst s) = Ok row)
  /\ exists steps rows, subseq steps cands /\ 1 <= length steps <= max /\ Forall2 (fun s row => vec (fst s) = Ok row) steps rows /\ covers netv rows.
Proof.
  intros E cands. apply (solve_inv req vec rebuild rs ps cs prec pinv waits1 waits2 uniq clean rxns net chunk batch_size cpus max fi Hw1 Hw2) in E as (Hok & netv & vs & d & acc & built & Ev & Hne & Hc & (Hm & HN) & Hb & Hvs & Ed & Hp & Eb & Ef & Hj).
  fold cands in Hne, HN, Hvs, Ed. split; [exact Hok|]. split; [exact Hc|]. split; [split; assumption|]. split; [exact Hb|]. exists netv. split; [exact Ev|]. split.
  - intros s Hs. assert (Hin : In (fst s) (map fst cands)) by (apply in_map; exact Hs). destruct (Forall2_In_l _ _ _ _ Hvs Hin) as (row & _ & H). exists row. exact H.
  - assert (HN' : max <= length (map fst cands)) by (rewrite map_length; exact HN).
    destruct (comp_matrices_ok vec (map fst cands) waits1 netv chunk max vs Hw1 Hc HN' Hvs) as (d' & Ed' & HMs & _). rewrite Ed in Ed'. injection Ed' as <-.
    assert (exists M, In M (concat (map snd d))) as (M & HM).
    { rewrite <- (jobs_concat chunk d). pose proof (jobs_nonempty chunk d) as F. destruct (jobs_of chunk d) as [|g l]; [contradiction|]. inversion F as [|? ? Hg]; subst. destruct g as [|M g]; [contradiction|]. exists M. left. reflexivity. }
    destruct (HMs M HM) as (c & (Hlen & HS & HF) & Hcov & ->). rewrite map_length in HF.
    assert (exists s0, In s0 cands) as (s0 & _) by (clear - Hne; destruct cands as [|s0 l]; [contradiction|exists s0; left; reflexivity]).
    exists (pick s0 cands c), (pick [] vs c). split; [apply pick_subseq; assumption|]. split; [unfold pick; rewrite map_length; exact Hlen|]. split; [|exact Hcov].
    exact (pick_steps req vec clean rxns net vs c Hvs HF s0).
Qed.
End End_.

(* C45 for closed reactions: the entries of the solver stand at their own indices *)
Theorem own_sum_closed C ents req rs ps cs prec pinv waits1 waits2 uniq clean rxns net ok chunk batch_size cpus max fi paths :
  (forall k, valid_schedule (waits1 k)) -> (forall k, valid_schedule (waits2 k)) -> (forall M v, length (pinv M v) = length M) -> (forall l p, In p (uniq l) -> In p l) ->
  (forall i e, nth_error ents i = Some e -> e_id e = i) ->
  solve req (fun r => get_entry_idx_vector r (length ents)) (rebuild_computed C ents) rs ps cs prec pinv waits1 waits2 uniq clean rxns net ok chunk batch_size cpus max fi = Ok paths ->
  forall p, In p paths -> exists rows netv ms,
  get_entry_idx_vector net (length ents) = Ok netv /\ Forall2 (fun r row => get_entry_idx_vector r (length ents) = Ok row) (p_rxns p) rows
  /\ p_coeffs p = Some ms /\ length ms = length rows /\ 1 <= length rows <= max /\ Forall (fun m => (1 # 1000000 <= m)%Q) ms
  /\ forall j, j < length ents -> (Qabs (weighted ms rows j - nth j netv 0) <= (1 # 100000000) * (1 + Qsum ms) + (1 # 100000) * Qabs (nth j netv 0))%Q.
Proof.
  intros Hw1 Hw2 Hpinv Hu Hid E p Hp.
  destruct (own_sum req (fun r => get_entry_idx_vector r (length ents)) (rebuild_computed C ents) rs ps cs prec pinv waits1 waits2 uniq clean rxns net chunk batch_size cpus max fi Hw1 Hw2 Hpinv ok paths Hu) with (2 := E) (p := p) as (rows & netv & ms & H1 & H2 & H3 & H4 & H5 & H6 & H7); [|exact Hp|].
  - intros r row Hr _. exists (trim row). split; [|apply trim_trimmed]. apply rebuilt_row; [apply vector_length in Hr; exact Hr|exact Hid].
  - exists rows, netv, ms. repeat (split; [assumption|]). intros j Hj. apply H7. rewrite (vector_length _ _ _ H1). exact Hj.
Qed.
