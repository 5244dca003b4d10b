(* The test of the solver with rounding. *)
From Coq Require Import Lia Lqa.
From Verif Require Import Prelude ListFacts NumQ SumQ UtilsModel UtilsSpec UtilsProofs ReactionBaseProofs PathModel PathSpec SolverModel SolverSpec SolverProofs SolverTopProofs SolverMoreProofs SolverSolveProofs SolverFinalProofs
  RoundModel RoundSpec RoundProofs RoundPathModel RoundPathSpec.
Open Scope nat_scope.

Lemma sumQ_sizes {A} (f : A -> Q) l : (Qabs (sumQ f l) <= sumQ (fun x => Qabs (f x)) l)%Q.
Proof. induction l as [|x l IH]; [cbn; discriminate|]. rewrite !sumQ_cons. eapply Qle_trans; [apply Qabs_triangle|]. lra. Qed.

(* --- any order of adding --- *)
Section Order.
Variable fl : Q -> Q.
Hypothesis R : rounds fl.
Local Notation u := (1 # 9007199254740992)%Q.
Fixpoint pw (n : nat) : Q := match n with O => 1 | S m => pw m * (1 + u) end%Q.
Lemma pw_ge n : (1 <= pw n)%Q.
Proof. induction n as [|n IH]; [apply Qle_refl|]. cbn [pw]. lra. Qed.
Lemma pw_plus n k : (pw n <= pw (n + k))%Q.
Proof. induction k as [|k IH]; [rewrite Nat.add_0_r; apply Qle_refl|]. rewrite Nat.add_succ_r. cbn [pw]. pose proof (pw_ge (n + k)). lra. Qed.
Lemma pw_mono n k : n <= k -> (pw n <= pw k)%Q.
Proof. intros L. replace k with (n + (k - n)) by lia. apply pw_plus. Qed.
Lemma pw_20 n : n <= 20 -> (pw n - 1 <= 24 # 9007199254740992)%Q.
Proof. intros L. pose proof (pw_mono n 20 L). assert (E : (pw 20 - 1 <= 24 # 9007199254740992)%Q) by (apply Qle_bool_iff; vm_compute; reflexivity). lra. Qed.

Lemma added_error l a : added_up fl l a -> (Qabs (a - sumQ (fun p => fst p * snd p) l) <= (pw (length l) - 1) * sumQ (fun p => Qabs (fst p * snd p)) l)%Q.
Proof.
  induction 1 as [|x m|l l' a b N N' A IA B IB|l l' a P A IA].
  - cbn. discriminate.
  - rewrite !sumQ_cons. change (sumQ (fun p : Q * Q => fst p * snd p)%Q []) with 0%Q. change (sumQ (fun p : Q * Q => Qabs (fst p * snd p)) []) with 0%Q. cbn [fst snd length pw]. pose proof (R (x * m)%Q) as E. setoid_replace (fl (x * m) - (x * m + 0))%Q with (fl (x * m) - x * m)%Q by ring. lra.
  - rewrite !sumQ_app, app_length. set (S1 := sumQ (fun p => fst p * snd p)%Q l) in *. set (S2 := sumQ (fun p => fst p * snd p)%Q l') in *.
    set (T1 := sumQ (fun p => Qabs (fst p * snd p)) l) in *. set (T2 := sumQ (fun p => Qabs (fst p * snd p)) l') in *.
    assert (ST1 : (Qabs S1 <= T1)%Q) by apply sumQ_sizes. assert (ST2 : (Qabs S2 <= T2)%Q) by apply sumQ_sizes.
    pose proof (R (a + b)%Q) as E. pose proof (Qabs_nonneg S1). pose proof (Qabs_nonneg S2).
    assert (L1 : length l + 1 <= length l + length l') by (destruct l'; [congruence|cbn; lia]). assert (L2 : length l' + 1 <= length l + length l') by (destruct l; [congruence|cbn; lia]).
    apply pw_mono in L1, L2. rewrite Nat.add_1_r in L1, L2. cbn [pw] in L1, L2. set (p1 := pw (length l)) in *. set (p2 := pw (length l')) in *. set (p := pw (length l + length l')) in *.
    assert (Ab : (Qabs (a + b) <= p1 * T1 + p2 * T2)%Q).
    { setoid_replace (a + b)%Q with (((a - S1) + S1) + ((b - S2) + S2))%Q by ring. eapply Qle_trans; [apply Qabs_triangle|].
      pose proof (Qabs_triangle (a - S1) S1). pose proof (Qabs_triangle (b - S2) S2). lra. }
    setoid_replace (fl (a + b) - (S1 + S2))%Q with ((fl (a + b) - (a + b)) + ((a - S1) + (b - S2)))%Q by ring. eapply Qle_trans; [apply Qabs_triangle|]. pose proof (Qabs_triangle (a - S1) (b - S2)).
    assert (M1 : (p1 * (1 + u) * T1 <= p * T1)%Q) by (apply Qmult_le_compat_r; lra). assert (M2 : (p2 * (1 + u) * T2 <= p * T2)%Q) by (apply Qmult_le_compat_r; lra). lra.
  - rewrite <- (sumQ_perm _ _ _ P), <- (sumQ_perm _ _ _ P), <- (Permutation_length P). exact IA.
Qed.
Theorem added_well dot : (forall xs ms, added_up fl (combine xs ms) (dot xs ms)) -> sums_well dot.
Proof.
  intros H xs ms L. eapply Qle_trans; [apply (added_error _ _ (H xs ms))|]. fold (size_dot xs ms). apply Qmult_le_compat_r; [apply pw_20; rewrite combine_length; lia|].
  unfold size_dot. apply sumQ_nonneg. intros p _. apply Qabs_nonneg.
Qed.
End Order.

(* --- multiplicities that are a bit off --- *)
Definition column (rows : list (list Q)) (j : nat) : list Q := map (fun row => nth j row 0%Q) rows.
Lemma column_weighted rows ms j : (exact_dot (column rows j) ms == weighted ms rows j)%Q.
Proof.
  revert ms. induction rows as [|row rows IH]; intros [|m ms]; try reflexivity. unfold exact_dot, column in *. cbn [map combine]. rewrite sumQ_cons, weighted_cons, IH. cbn [fst snd]. ring.
Qed.
Lemma off_sum d rows ms ms' j : (0 <= d)%Q -> within d ms' ms -> length ms = length rows ->
  (Qabs (weighted ms' rows j - weighted ms rows j) <= d * sumQ (fun row => Qabs (nth j row 0)) rows)%Q.
Proof.
  intros D H L. revert rows L. induction H as [|a b l' l E H IH]; intros [|row rows] L; try discriminate; [cbn; lra|].
  rewrite !weighted_cons, sumQ_cons. specialize (IH rows ltac:(injection L; auto)). pose proof (Qabs_nonneg (nth j row 0%Q)) as P.
  setoid_replace (a * nth j row 0 + weighted l' rows j - (b * nth j row 0 + weighted l rows j))%Q with ((a - b) * nth j row 0 + (weighted l' rows j - weighted l rows j))%Q by ring.
  eapply Qle_trans; [apply Qabs_triangle|]. rewrite Qabs_Qmult. assert ((Qabs (a - b) * Qabs (nth j row 0) <= d * Qabs (nth j row 0))%Q) by (apply Qmult_le_compat_r; assumption). lra.
Qed.
Lemma off_size d rows ms ms' j : (0 <= d)%Q -> within d ms' ms -> length ms = length rows ->
  (size_dot (column rows j) ms' <= size_dot (column rows j) ms + d * sumQ (fun row => Qabs (nth j row 0)) rows)%Q.
Proof.
  intros D H L. revert rows L. induction H as [|a b l' l E H IH]; intros [|row rows] L; try discriminate; [cbn; lra|].
  specialize (IH rows ltac:(injection L; auto)). unfold size_dot, column in *. cbn [map combine]. rewrite !sumQ_cons. cbn [fst snd]. pose proof (Qabs_nonneg (nth j row 0%Q)) as P.
  assert (T : (Qabs (nth j row 0 * a) <= Qabs (nth j row 0 * b) + d * Qabs (nth j row 0))%Q).
  { setoid_replace (nth j row 0 * a)%Q with (nth j row 0 * b + (a - b) * nth j row 0)%Q by ring. eapply Qle_trans; [apply Qabs_triangle|]. rewrite (Qabs_Qmult (a - b)).
    assert ((Qabs (a - b) * Qabs (nth j row 0) <= d * Qabs (nth j row 0))%Q) by (apply Qmult_le_compat_r; assumption). lra. }
  lra.
Qed.

Section Test.
Variable fl : Q -> Q.
Hypothesis R : rounds fl.
Variable dot : list Q -> list Q -> Q.
Hypothesis Hdot : sums_well dot.
Variable pinv : list (list Q) -> list Q -> list Q.
Local Notation u := (1 # 9007199254740992)%Q.

Lemma dot_near rows ms j : length rows <= 20 -> (size_dot (column rows j) ms <= 1000001)%Q -> (Qabs (dot (column rows j) ms - weighted ms rows j) <= 3 # 1000000000)%Q.
Proof.
  intros L S. assert (Lc : length (column rows j) <= 20) by (unfold column; rewrite map_length; exact L). pose proof (Hdot (column rows j) ms Lc) as H. rewrite column_weighted in H. lra.
Qed.

Theorem test_accepts net rows ms : length rows <= 20 -> length ms = length rows -> Forall (fun m => (1000002 # 1000000000000 <= m)%Q) ms ->
  (forall j, j < length net -> (weighted ms rows j == nth j net 0)%Q) -> within (1 # 1000000000000) (pinv rows net) ms ->
  (forall j, j < length net -> (sumQ (fun row => Qabs (nth j row 0)) rows <= 1000)%Q /\ (size_dot (map (fun row => nth j row 0%Q) rows) ms <= 1000000)%Q) ->
  rounded_balance fl dot pinv net rows = Some (rows, pinv rows net).
Proof.
  intros L Lm Hm Hw Hp Hs. unfold rounded_balance.
  assert (T : touches (net_filter net) rows = true) by (apply touches_iff; apply (weighted_covers net rows ms Hw)). rewrite T.
  assert (E1 : existsb (fun m => Qlt_bool m (fl (1 # 1000000))) (pinv rows net) = false).
  { apply Bool.not_true_iff_false. intros E. apply existsb_exists in E as (m & Im & Em). apply Qlt_bool_iff' in Em.
    assert (G : (1000001 # 1000000000000 <= m)%Q).
    { clear -Hm Hp Im. revert Hm. induction Hp as [|a b l l' E Hp IH]; intros Hm; [destruct Im|]. inversion Hm as [|? ? H1 H2]; subst. apply Qabs_Qle_condition in E. destruct Im as [<-|Im]; [lra|apply IH; assumption]. }
    pose proof (R (1 # 1000000)) as H. rewrite (Qabs_pos (1 # 1000000)) in H by discriminate. apply Qabs_Qle_condition in H. lra. }
  rewrite E1.
  assert (E2 : forallb (fun j => Qle_bool (Qabs (fl (dot (map (fun row => nth j row 0%Q) rows) (pinv rows net) - nth j net 0)))
    (fl (fl (1 # 100000000) + fl (fl (1 # 100000) * Qabs (nth j net 0%Q)))))%Q (seq 0 (length net)) = true); [|rewrite E2; reflexivity].
  apply forallb_forall. intros j Ij. apply in_seq in Ij as [_ Lj]. cbn [Nat.add] in Lj. destruct (Hs j Lj) as [S1 S2]. apply Qle_bool_iff. fold (column rows j) in *.
  pose proof (off_sum (1 # 1000000000000) rows ms (pinv rows net) j ltac:(discriminate) Hp Lm) as O. pose proof (off_size (1 # 1000000000000) rows ms (pinv rows net) j ltac:(discriminate) Hp Lm) as Z.
  rewrite (Hw j Lj) in O. set (tot := sumQ (fun row : list Q => Qabs (nth j row 0%Q)) rows) in *.
  pose proof (dot_near rows (pinv rows net) j L ltac:(lra)) as N. set (D := dot (column rows j) (pinv rows net)) in *. set (a := nth j net 0%Q) in *. set (W := weighted (pinv rows net) rows j) in *.
  assert (Da : (Qabs (D - a) <= 4 # 1000000000)%Q).
  { setoid_replace (D - a)%Q with ((D - W) + (W - a))%Q by ring. eapply Qle_trans; [apply Qabs_triangle|]. lra. }
  pose proof (fl_upper fl R (D - a)) as F. pose proof (fl_tol fl R (1 # 100000000) ltac:(discriminate)) as [G1 _]. pose proof (fl_tol fl R (1 # 100000) ltac:(discriminate)) as [G2 _].
  pose proof (Qabs_nonneg a) as Pa. assert (P2 : (0 <= fl (1 # 100000) * Qabs a)%Q) by (apply Qmult_le_0_compat; lra). pose proof (fl_tol fl R _ P2) as [G3 _].
  assert (P3 : (0 <= fl (fl (1 # 100000) * Qabs a))%Q) by lra.
  pose proof (fl_tol fl R (fl (1 # 100000000) + fl (fl (1 # 100000) * Qabs a))%Q ltac:(lra)) as [G4 _]. lra.
Qed.

Theorem test_sound net rows a : length rows <= 20 -> rounded_balance fl dot pinv net rows = Some a ->
  a = (rows, pinv rows net) /\ Forall (fun m => (999999 # 1000000000000 <= m)%Q) (pinv rows net)
  /\ forall j, j < length net -> (size_dot (map (fun row => nth j row 0%Q) rows) (pinv rows net) <= 1000000)%Q ->
     (Qabs (weighted (pinv rows net) rows j - nth j net 0) <= (2 # 100000000) + (2 # 100000) * Qabs (nth j net 0))%Q.
Proof.
  intros L. unfold rounded_balance. destruct (touches _ _); [|discriminate]. destruct (existsb _ _) eqn:E1; [discriminate|]. destruct (forallb _ _) eqn:E2; [|discriminate]. intros E. injection E as <-.
  split; [reflexivity|]. split.
  - apply Forall_forall. intros m Im. apply Bool.not_true_iff_false in E1. destruct (Qlt_le_dec m (fl (1 # 1000000))) as [H|H]; [exfalso; apply E1; apply existsb_exists; exists m; split; [exact Im|apply Qlt_bool_iff'; exact H]|].
    pose proof (fl_tol fl R (1 # 1000000) ltac:(discriminate)) as [G _]. lra.
  - intros j Lj S. rewrite forallb_forall in E2. specialize (E2 j ltac:(apply in_seq; lia)). cbv beta in E2. apply Qle_bool_iff in E2. fold (column rows j) in *.
    pose proof (dot_near rows (pinv rows net) j L ltac:(lra)) as N. set (D := dot (column rows j) (pinv rows net)) in *. set (b := nth j net 0%Q) in *. set (W := weighted (pinv rows net) rows j) in *.
    pose proof (fl_lower fl R (D - b)) as F. pose proof (fl_tol fl R (1 # 100000000) ltac:(discriminate)) as [G1 H1]. pose proof (fl_tol fl R (1 # 100000) ltac:(discriminate)) as [G2 H2].
    pose proof (Qabs_nonneg b) as Pb. assert (P2 : (0 <= fl (1 # 100000) * Qabs b)%Q) by (apply Qmult_le_0_compat; lra). pose proof (fl_tol fl R _ P2) as [G3 H3].
    assert (M : (fl (1 # 100000) * Qabs b <= ((1 + u) * (1 # 100000)) * Qabs b)%Q) by (apply Qmult_le_compat_r; assumption).
    pose proof (fl_tol fl R (fl (1 # 100000000) + fl (fl (1 # 100000) * Qabs b))%Q ltac:(lra)) as [_ G4].
    setoid_replace (W - b)%Q with ((D - b) - (D - W))%Q by ring. assert (T : (Qabs ((D - b) - (D - W)) <= Qabs (D - b) + Qabs (D - W))%Q).
    { rewrite <- (Qabs_opp (D - W)). apply Qabs_triangle. }
    pose proof (Qabs_nonneg (D - b)). lra.
Qed.
End Test.

(* --- the solver with multiplicities that are a bit off --- *)
Section Inexact.
Context {R : Type}.
Variable req : R -> R -> bool.
Variable vec : R -> result (list Q).
Variable rebuild : list (nat * Q) -> R.
Variable rs ps cs prec : R -> list nat.
Variable pinv : list (list Q) -> list Q -> list Q.
Variable waits1 waits2 : nat -> nat -> list nat -> list nat * list nat.
Variable uniq : list (path R) -> list (path R).
Variable clean : list R.
Variable rxns : list (R * Q).
Variable net : R.
Variable chunk : nat.
Variable batch_size : option nat.
Variable cpus max : nat.
Variable fi : bool.
Hypothesis Hw1 : forall k, valid_schedule (waits1 k).
Hypothesis Hw2 : forall k, valid_schedule (waits2 k).
Hypothesis Hpinv : forall M v, length (pinv M v) = length M.

Lemma balances_near netv rows ms : length ms = length rows -> Forall (fun m => (1000002 # 1000000000000 <= m)%Q) ms ->
  (forall j, j < length netv -> (weighted ms rows j == nth j netv 0)%Q) -> within (1 # 1000000000000) (pinv rows netv) ms ->
  (forall j, j < length netv -> (sumQ (fun row => Qabs (nth j row 0)) rows <= 1000)%Q) -> balances netv rows (pinv rows netv).
Proof.
  intros Lm Hm Hw Hp Hs. split; [apply Hpinv|]. split.
  - clear -Hm Hp. revert Hm. induction Hp as [|a b l l' E Hp IH]; intros Hm; [constructor|]. inversion Hm as [|? ? H1 H2]; subst. apply Qabs_Qle_condition in E. constructor; [lra|apply IH; exact H2].
  - intros j Lj. specialize (Hs j Lj). pose proof (off_sum (1 # 1000000000000) rows ms (pinv rows netv) j ltac:(discriminate) Hp Lm) as O. rewrite (Hw j Lj) in O. pose proof (Qabs_nonneg (nth j netv 0%Q)). lra.
Qed.
Theorem inexact_finds ok paths netv steps rows ms rhash : (forall r, req r r = true) -> set_members req rhash uniq ->
  solve req vec rebuild rs ps cs prec pinv waits1 waits2 uniq clean rxns net ok chunk batch_size cpus max fi = Ok paths ->
  vec net = Ok netv -> (exists j, ~ (nth j netv 0 == 0)%Q) -> subseq steps (pool req clean net rxns) -> 1 <= length steps <= max ->
  Forall2 (fun s row => vec (fst s) = Ok row) steps rows ->
  length ms = length rows -> Forall (fun m => (1000002 # 1000000000000 <= m)%Q) ms -> (forall j, j < length netv -> (weighted ms rows j == nth j netv 0)%Q) ->
  within (1 # 1000000000000) (pinv rows netv) ms -> (forall j, j < length netv -> (sumQ (fun row => Qabs (nth j row 0)) rows <= 1000)%Q) ->
  exists p ms', p_coeffs p = Some ms' /\ within (1 # 1000000000000) ms' ms /\ Forall2 (fun r row => large row <> [] /\ r = rebuild (large row)) (p_rxns p) rows
  /\ ((fi = true -> contains_interdependent req rs ps cs p (prec net) = false) ->
      exists q, In q paths /\ p_coeffs q = p_coeffs p /\ Forall2 (fun a b => req a b = true) (p_rxns p) (p_rxns q)).
Proof.
  intros Hrefl Hu E Ev Hnz Hsub Hlen Hrows HL Hm Hw Hp Hs.
  destruct (SolverSolveProofs.solve_complete req vec rebuild rs ps cs prec pinv waits1 waits2 uniq clean rxns net chunk batch_size cpus max fi Hw1 Hw2 Hpinv ok paths netv steps rows rhash Hrefl Hu E Ev Hnz Hsub Hlen Hrows
    (weighted_covers netv rows ms Hw) (balances_near netv rows ms HL Hm Hw Hp Hs)) as (p & H1 & H2 & H3).
  exists p, (pinv rows netv). split; [exact H1|]. split; [exact Hp|]. split; [exact H2|exact H3].
Qed.
End Inexact.
