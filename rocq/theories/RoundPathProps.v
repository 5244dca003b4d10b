(* C149: balancing pathways with rounded numbers. *)
From Verif Require Import Prelude NumQ SumQ UtilsModel UtilsSpec RxnSetModel PathModel PathSpec PathCheck SolverModel SolverSpec SolverCheck PinvModel PinvProofs RoundModel RoundSpec RoundProofs RoundPathModel RoundPathSpec RoundPathProofs RoundPathCheck.
Open Scope list_scope.
Open Scope nat_scope.

(* --- C149 --- *)
(* Up to 20 reactions that add up to the net reaction pass the test of the solver, although every number is rounded and the
   multiplicities are off by 1e-12. Missing: larger coefficients (refuted below), and how precise pinv is. *)
Theorem C149_accepts_partial : forall fl, rounds fl -> forall dot, sums_well dot -> forall pinv net rows ms,
  length rows <= 20 -> length ms = length rows -> Forall (fun m => (1000002 # 1000000000000 <= m)%Q) ms ->
  (forall j, j < length net -> (weighted ms rows j == nth j net 0)%Q) -> within (1 # 1000000000000) (pinv rows net) ms ->
  (forall j, j < length net -> (sumQ (fun row => Qabs (nth j row 0)) rows <= 1000)%Q /\ (size_dot (map (fun row => nth j row 0%Q) rows) ms <= 1000000)%Q) ->
  rounded_balance fl dot pinv net rows = Some (rows, pinv rows net).
Proof. exact test_accepts. Qed.
Print Assumptions C149_accepts_partial.

(* And what passes adds up to the net reaction within twice the tolerance, with positive multiplicities. *)
Theorem C149_sound_partial : forall fl, rounds fl -> forall dot, sums_well dot -> forall pinv net rows a, length rows <= 20 ->
  rounded_balance fl dot pinv net rows = Some a ->
  a = (rows, pinv rows net) /\ Forall (fun m => (999999 # 1000000000000 <= m)%Q) (pinv rows net)
  /\ forall j, j < length net -> (size_dot (map (fun row => nth j row 0%Q) rows) (pinv rows net) <= 1000000)%Q ->
     (Qabs (weighted (pinv rows net) rows j - nth j net 0) <= (2 # 100000000) + (2 # 100000) * Qabs (nth j net 0))%Q.
Proof. exact test_sound. Qed.
Print Assumptions C149_sound_partial.

(* In whatever order the products are added, the sum is good enough. *)
Theorem C149_order : forall fl, rounds fl -> forall dot, (forall xs ms, added_up fl (combine xs ms) (dot xs ms)) -> sums_well dot.
Proof. exact added_well. Qed.
Print Assumptions C149_order.

(* The whole solver finds the pathway when pinv is off by up to 1e-12. *)
Theorem C149_finds_partial : forall {R} req vec rebuild (rs ps cs prec : R -> list nat) pinv waits1 waits2 uniq clean rxns net chunk batch_size cpus max fi,
  (forall k, valid_schedule (waits1 k)) -> (forall k, valid_schedule (waits2 k)) -> (forall M v, length (pinv M v) = length M) ->
  forall ok paths netv steps rows ms rhash, (forall r, req r r = true) -> set_members req rhash uniq ->
  solve req vec rebuild rs ps cs prec pinv waits1 waits2 uniq clean rxns net ok chunk batch_size cpus max fi = Ok paths ->
  vec net = Ok netv -> (exists j, ~ (nth j netv 0 == 0)%Q) -> subseq steps (pool req clean net rxns) -> 1 <= length steps <= max ->
  Forall2 (fun s row => vec (fst s) = Ok row) steps rows ->
  length ms = length rows -> Forall (fun m => (1000002 # 1000000000000 <= m)%Q) ms -> (forall j, j < length netv -> (weighted ms rows j == nth j netv 0)%Q) ->
  within (1 # 1000000000000) (pinv rows netv) ms -> (forall j, j < length netv -> (sumQ (fun row => Qabs (nth j row 0)) rows <= 1000)%Q) ->
  exists p ms', p_coeffs p = Some ms' /\ within (1 # 1000000000000) ms' ms /\ Forall2 (fun r row => large row <> [] /\ r = rebuild (large row)) (p_rxns p) rows
  /\ ((fi = true -> contains_interdependent req rs ps cs p (prec net) = false) ->
      exists q, In q paths /\ p_coeffs q = p_coeffs p /\ Forall2 (fun a b => req a b = true) (p_rxns p) (p_rxns q)).
Proof. exact @inexact_finds. Qed.
Print Assumptions C149_finds_partial.

(* 3 A -> I and 3 I -> 3 B, once and a third of a time; a third is rounded. *)
Example C149_demo : rounds binary64 /\ sums_well (left_dot binary64) /\ length small_ms = length small_steps /\ Forall (fun m => (1000002 # 1000000000000 <= m)%Q) small_ms
  /\ (forall j, j < length small_net -> (weighted small_ms small_steps j == nth j small_net 0)%Q)
  /\ within (1 # 1000000000000) (pinv64 small_steps small_net) small_ms /\ ~ Forall2 Qeq (pinv64 small_steps small_net) small_ms
  /\ (forall j, j < length small_net -> (sumQ (fun row => Qabs (nth j row 0)) small_steps <= 1000)%Q /\ (size_dot (map (fun row => nth j row 0%Q) small_steps) small_ms <= 1000000)%Q)
  /\ (forall M v, length (pinv64 M v) = length M) /\ set_members same_row (fun _ => 0) (fun l => l) /\ (forall k, valid_schedule (lifo k))
  /\ pool same_row small_steps small_net small_rxns = small_rxns
  /\ exists p, run64 = Ok [p] /\ p_coeffs p = Some (pinv64 small_steps small_net) /\ length (p_rxns p) = 2.
Proof.
  split; [exact binary64_rounds|]. split; [exact (added_well binary64 binary64_rounds _ (left_added binary64))|]. split; [reflexivity|].
  split; [repeat constructor; vm_compute; discriminate|]. split; [intros j H; apply small_sum; exact H|]. split; [apply small_pinv|]. split; [apply small_pinv|].
  split; [intros j H; apply small_sum; exact H|]. split; [exact pinv64_length|]. split; [exact (all_members same_row (fun _ => 0))|]. split; [exact lifo_valid|]. exact run64_finds.
Qed.

(* A -> 2^30 I and 49 * 2^30 I -> 49 B, once and a 49th of a time, add up to A -> B. All numbers are double precision numbers, the
   multiplicities are the closest ones there are, and the pathway is refused: 2^30 I and what is used up of it differ
   in the last place, by more than 1e-8. *)
Theorem C149_size_refuted : exists net rows ms pinv, Forall (Forall (fun k => binary64 k == k)%Q) (net :: rows) /\ independent (length net) rows /\ length ms = length rows
  /\ Forall (fun m => (1 # 100 <= m)%Q) ms /\ (forall j, j < length net -> (weighted ms rows j == nth j net 0)%Q) /\ pinv rows net = map binary64 ms
  /\ rounded_balance binary64 (left_dot binary64) pinv net rows = None.
Proof.
  exists large_net, large_steps, large_ms, (closest large_ms). split; [apply large_refused|]. split; [exact large_independent|]. split; [reflexivity|].
  split; [repeat constructor; vm_compute; discriminate|]. split; [apply large_refused|]. split; [reflexivity|apply large_refused].
Qed.
Print Assumptions C149_size_refuted.
