(* C122: the solver with the pseudo-inverse computed exactly. *)
From Verif Require Import Prelude NumQ UtilsModel UtilsSpec RxnSetModel PathModel PathSpec PathCheck SolverModel SolverSpec SolverCheck PinvModel PinvProofs PinvCheck.
Open Scope nat_scope.

(* What C46 assumes of the pseudo-inverse holds. *)
Theorem C122_solves_partial : forall rows net, length (path_pinv rows net) = length rows /\ solves path_pinv rows net.
Proof. exact (fun rows net => conj (path_pinv_length rows net) (path_pinv_solves rows net)). Qed.
Print Assumptions C122_solves_partial.

(* Every positive combination of independent reactions is found. *)
Theorem C122_finds_partial : forall {R} req vec rebuild (rs ps cs prec : R -> list nat) waits1 waits2 uniq clean rxns net chunk batch_size cpus max fi,
  (forall k, valid_schedule (waits1 k)) -> (forall k, valid_schedule (waits2 k)) ->
  forall ok paths netv steps rows ms rhash, (forall r, req r r = true) -> set_members req rhash uniq ->
  solve req vec rebuild rs ps cs prec path_pinv waits1 waits2 uniq clean rxns net ok chunk batch_size cpus max fi = Ok paths ->
  vec net = Ok netv -> (exists j, ~ (nth j netv 0 == 0)%Q) -> subseq steps (pool req clean net rxns) -> 1 <= length steps <= max ->
  Forall2 (fun s row => vec (fst s) = Ok row /\ length row = length netv) steps rows -> independent (length netv) rows ->
  length ms = length rows -> Forall (fun m => (1 # 1000000 <= m)%Q) ms -> (forall j, j < length netv -> (weighted ms rows j == nth j netv 0)%Q) ->
  exists p ms', p_coeffs p = Some ms' /\ Forall2 Qeq ms' ms /\ Forall2 (fun r row => large row <> [] /\ r = rebuild (large row)) (p_rxns p) rows
  /\ ((fi = true -> contains_interdependent req rs ps cs p (prec net) = false) ->
      exists q, In q paths /\ p_coeffs q = p_coeffs p /\ Forall2 (fun a b => req a b = true) (p_rxns p) (p_rxns q)).
Proof. exact @exact_finds. Qed.
Print Assumptions C122_finds_partial.

(* Every positive combination, independent or not, contains one with the same sum that is
   found unless a multiplicity is below the tolerance. *)
Theorem C122_some_partial : forall {R} req vec rebuild (rs ps cs prec : R -> list nat) waits1 waits2 uniq clean rxns net chunk batch_size cpus max fi,
  (forall k, valid_schedule (waits1 k)) -> (forall k, valid_schedule (waits2 k)) ->
  forall ok paths netv steps rows ms rhash, (forall r, req r r = true) -> set_members req rhash uniq ->
  solve req vec rebuild rs ps cs prec path_pinv waits1 waits2 uniq clean rxns net ok chunk batch_size cpus max fi = Ok paths ->
  vec net = Ok netv -> (exists j, ~ (nth j netv 0 == 0)%Q) -> subseq steps (pool req clean net rxns) -> length steps <= max ->
  Forall2 (fun s row => vec (fst s) = Ok row /\ length row = length netv) steps rows ->
  length ms = length rows -> Forall (fun m => (0 < m)%Q) ms -> (forall j, j < length netv -> (weighted ms rows j == nth j netv 0)%Q) ->
  exists steps' rows' ms', subseq steps' steps /\ Forall2 (fun s row => vec (fst s) = Ok row) steps' rows' /\ length ms' = length rows'
  /\ Forall (fun m => (0 < m)%Q) ms' /\ (forall j, j < length netv -> (weighted ms' rows' j == nth j netv 0)%Q)
  /\ (Forall (fun m => (1 # 1000000 <= m)%Q) ms' ->
      exists p ms'', p_coeffs p = Some ms'' /\ Forall2 Qeq ms'' ms' /\ Forall2 (fun r row => large row <> [] /\ r = rebuild (large row)) (p_rxns p) rows'
      /\ ((fi = true -> contains_interdependent req rs ps cs p (prec net) = false) ->
          exists q, In q paths /\ p_coeffs q = p_coeffs p /\ Forall2 (fun a b => req a b = true) (p_rxns p) (p_rxns q))).
Proof. exact @exact_some. Qed.
Print Assumptions C122_some_partial.

Example C122_demo : set_members same_row (fun _ => 0) (fun l => l) /\ pool same_row (map fst dependent) six_d dependent = dependent
  /\ (forall j, j < 4 -> (weighted [1; 5; 1]%Q (map fst dependent) j == nth j six_d 0)%Q) /\ exact_run 3 true = Ok two_paths.
Proof. exact (conj (all_members same_row (fun _ => 0)) (conj dependent_pool (conj three_weights (proj1 exact_run_3)))). Qed.

(* The pathway A -> B, 5 (B -> D), A -> D for 2 A + 4 B -> 6 D is not found: the shortest
   solution has a negative multiplicity. *)
Theorem C122_dependent_refuted : exists paths, exact_run 3 false = Ok paths
  /\ subseq dependent (pool same_row (map fst dependent) six_d dependent)
  /\ balances six_d (map fst dependent) [1; 5; 1]%Q /\ forall p, In p paths -> length (p_rxns p) <> 3.
Proof. exact one_missed. Qed.
Print Assumptions C122_dependent_refuted.
