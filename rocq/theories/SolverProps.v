(* C45-C48, C77: theorems about the pathway solver. *)
From Verif Require Import Prelude NumQ UtilsModel UtilsSpec ReactionModel ReactionSpec ReactionCheck RxnSetModel RxnSetSpec RxnSetCheck PathModel PathSpec PathCheck SolverModel SolverSpec SolverProofs SolverTopProofs SolverSolveProofs SolverMoreProofs SolverFinalProofs SolverInterProofs SolverEndProofs SolverCheck.
Open Scope nat_scope.

(* --- C45 --- *)
(* The kernel accepts a combination exactly if it covers and balances the net reaction. *)
Theorem C45_kernel : forall pinv net Ms a, (forall M, length (pinv M net) = length M) ->
  In a (kernel pinv net Ms) <-> exists M, In M Ms /\ a = (M, pinv M net) /\ covers net M /\ balances net M (pinv M net).
Proof. exact in_kernel. Qed.
Print Assumptions C45_kernel.

Theorem C45_balanced : forall {R} req vec rebuild (rs ps cs prec : R -> list nat) pinv waits1 waits2 uniq clean rxns net chunk batch_size cpus max fi,
  (forall k, valid_schedule (waits1 k)) -> (forall k, valid_schedule (waits2 k)) -> (forall M v, length (pinv M v) = length M) ->
  forall ok paths, (forall l p, In p (uniq l) -> In p l) ->
  solve req vec rebuild rs ps cs prec pinv waits1 waits2 uniq clean rxns net ok chunk batch_size cpus max fi = Ok paths ->
  (exists avs, Forall2 (fun p a => average_cost p = Ok a) paths avs /\ StronglySorted Qle avs)
  /\ forall p, In p paths -> exists steps rows netv ms,
     vec net = Ok netv /\ subseq steps (pool req clean net rxns) /\ 1 <= length steps <= max
     /\ Forall2 (fun s row => vec (fst s) = Ok row) steps rows
     /\ balances netv rows ms /\ p_coeffs p = Some ms /\ p_balanced p = true
     /\ Forall2 (fun r row => large row <> [] /\ r = rebuild (large row)) (p_rxns p) rows
     /\ Forall2 (fun r k => exists s, In s (pool req clean net rxns) /\ req (fst s) r = true /\ snd s = k) (p_rxns p) (p_costs p)
     /\ (fi = true -> contains_interdependent req rs ps cs p (prec net) = false).
Proof. exact @solve_sound. Qed.
Print Assumptions C45_balanced.

(* The reported reactions themselves, which are made anew from the large coefficients. *)
Theorem C45_own_sum : forall C ents req rs ps cs prec pinv waits1 waits2 uniq clean rxns net ok chunk batch_size cpus max fi paths,
  (forall k, valid_schedule (waits1 k)) -> (forall k, valid_schedule (waits2 k)) -> (forall M v, length (pinv M v) = length M) -> (forall l p, In p (uniq l) -> In p l) ->
  (forall i e, nth_error ents i = Some e -> e_id e = i) ->
  solve req (fun r => get_entry_idx_vector r (length ents)) (rebuild_computed C ents) rs ps cs prec pinv waits1 waits2 uniq clean rxns net ok chunk batch_size cpus max fi = Ok paths ->
  forall p, In p paths -> exists rows netv ms,
  get_entry_idx_vector net (length ents) = Ok netv /\ Forall2 (fun r row => get_entry_idx_vector r (length ents) = Ok row) (p_rxns p) rows
  /\ p_coeffs p = Some ms /\ length ms = length rows /\ 1 <= length rows <= max /\ Forall (fun m => (1 # 1000000 <= m)%Q) ms
  /\ forall j, j < length ents -> (Qabs (weighted ms rows j - nth j netv 0) <= (1 # 100000000) * (1 + Qsum ms) + (1 # 100000) * Qabs (nth j netv 0))%Q.
Proof. exact own_sum_closed. Qed.
Print Assumptions C45_own_sum.

Theorem C45_costs : forall {R} req vec rebuild (rs ps cs prec : R -> list nat) pinv waits1 waits2 uniq clean rxns net chunk batch_size cpus max fi,
  (forall k, valid_schedule (waits1 k)) -> (forall k, valid_schedule (waits2 k)) -> (forall M v, length (pinv M v) = length M) ->
  forall ok paths, (forall l p, In p (uniq l) -> In p l) -> equivalence req -> fresh req rxns ->
  (forall s row, In s rxns -> vec (fst s) = Ok row -> req (fst s) (rebuild (large row)) = true) ->
  solve req vec rebuild rs ps cs prec pinv waits1 waits2 uniq clean rxns net ok chunk batch_size cpus max fi = Ok paths ->
  forall p, In p paths -> exists steps, subseq steps rxns /\ 1 <= length steps <= max
  /\ Forall2 (fun s r => req (fst s) r = true) steps (p_rxns p) /\ p_costs p = map snd steps.
Proof. exact @own_costs. Qed.
Print Assumptions C45_costs.

Example C45_demo : (forall k, valid_schedule (lifo k)) /\ (forall M v, length (some_pinv M v) = length M)
  /\ equivalence same_row /\ fresh same_row three
  /\ (forall s row, In s three -> row_of (fst s) = Ok row -> same_row (fst s) (from_pairs (large row)) = true)
  /\ run three 1 None 3 2 = Ok [cp [a_to_b; b_to_d] [3; 5]%Q [1; 1]%Q].
Proof.
  split; [exact lifo_valid|]. split; [exact some_pinv_length|]. split; [exact same_row_equivalence|]. split; [exact three_fresh|]. split; [|exact run_three].
  intros s row Hs E. destruct (rebuilt_rows s row Hs E) as [_ ->]. apply same_row_refl.
Qed.

Example C45_entries_demo : (forall i e, nth_error li_entries i = Some e -> e_id e = i) /\ (forall M v, length (li_pinv M v) = length M)
  /\ exists p, solve li_same li_vec (rebuild_computed ReactionCheck.demo li_entries) (li_side ins) (li_side outs) (li_side occs) (li_side ins) li_pinv lifo lifo (fun l => l)
     (map fst li_rxns) li_rxns (li [0; 2] [-3; 1]%Q) true 1 (Some 1) 1 2 true = Ok [p] /\ map li_vec (p_rxns p) = [Ok [-2; 1; 0]%Q; Ok [0; -3; 2]%Q] /\ p_costs p = [1; 2]%Q.
Proof. split; [exact li_ids|]. split; [exact li_pinv_length|exact li_run]. Qed.

(* --- C46 --- *)
Theorem C46_once : forall {R} vec (cands : list R) waits1 net chunk max vs, (forall k, valid_schedule (waits1 k)) -> 1 <= chunk -> max <= length cands ->
  Forall2 (fun r v => vec r = Ok v) cands vs -> (exists j, ~ (nth j net 0 == 0)%Q) ->
  exists d combos, comp_matrices vec waits1 cands (net_filter net) chunk max = Ok d /\ NoDup combos
  /\ (forall c, In c combos <-> combination (length cands) max c /\ covers net (pick [] vs c))
  /\ Permutation (concat (jobs_of chunk d)) (map (pick [] vs) combos)
  /\ forall pinv waits2 batch, (forall k, valid_schedule (waits2 k)) -> batch <> 0 -> combos <> [] ->
     exists acc, balance_all pinv waits2 chunk batch net d = Ok acc /\ Permutation acc (kernel pinv net (map (pick [] vs) combos)).
Proof. exact @jobs_spec. Qed.
Print Assumptions C46_once.

(* Every combination the pseudo-inverse balances is reported, up to equal pathways. *)
Theorem C46_complete : forall {R} req vec rebuild (rs ps cs prec : R -> list nat) pinv waits1 waits2 uniq clean rxns net chunk batch_size cpus max fi,
  (forall k, valid_schedule (waits1 k)) -> (forall k, valid_schedule (waits2 k)) -> (forall M v, length (pinv M v) = length M) ->
  forall ok paths netv steps rows rhash, (forall r, req r r = true) -> set_members req rhash uniq ->
  solve req vec rebuild rs ps cs prec pinv waits1 waits2 uniq clean rxns net ok chunk batch_size cpus max fi = Ok paths ->
  vec net = Ok netv -> (exists j, ~ (nth j netv 0 == 0)%Q) -> subseq steps (pool req clean net rxns) -> 1 <= length steps <= max ->
  Forall2 (fun s row => vec (fst s) = Ok row) steps rows -> covers netv rows -> balances netv rows (pinv rows netv) ->
  exists p, p_coeffs p = Some (pinv rows netv) /\ Forall2 (fun r row => large row <> [] /\ r = rebuild (large row)) (p_rxns p) rows
  /\ ((fi = true -> contains_interdependent req rs ps cs p (prec net) = false) ->
      exists q, In q paths /\ p_coeffs q = p_coeffs p /\ Forall2 (fun a b => req a b = true) (p_rxns p) (p_rxns q)).
Proof. exact @solve_complete. Qed.
Print Assumptions C46_complete.

(* A positive combination of independent reactions that gives the net reaction is found. *)
Theorem C46_finds : forall {R} req vec rebuild (rs ps cs prec : R -> list nat) pinv waits1 waits2 uniq clean rxns net chunk batch_size cpus max fi,
  (forall k, valid_schedule (waits1 k)) -> (forall k, valid_schedule (waits2 k)) -> (forall M v, length (pinv M v) = length M) ->
  forall ok paths netv steps rows ms rhash, (forall r, req r r = true) -> set_members req rhash uniq -> solves pinv rows netv ->
  solve req vec rebuild rs ps cs prec pinv waits1 waits2 uniq clean rxns net ok chunk batch_size cpus max fi = Ok paths ->
  vec net = Ok netv -> (exists j, ~ (nth j netv 0 == 0)%Q) -> subseq steps (pool req clean net rxns) -> 1 <= length steps <= max ->
  Forall2 (fun s row => vec (fst s) = Ok row /\ length row = length netv) steps rows -> independent (length netv) rows ->
  length ms = length rows -> Forall (fun m => (1 # 1000000 <= m)%Q) ms -> (forall j, j < length netv -> (weighted ms rows j == nth j netv 0)%Q) ->
  exists p ms', p_coeffs p = Some ms' /\ Forall2 Qeq ms' ms /\ Forall2 (fun r row => large row <> [] /\ r = rebuild (large row)) (p_rxns p) rows
  /\ ((fi = true -> contains_interdependent req rs ps cs p (prec net) = false) ->
      exists q, In q paths /\ p_coeffs q = p_coeffs p /\ Forall2 (fun a b => req a b = true) (p_rxns p) (p_rxns q)).
Proof. exact @solve_finds. Qed.
Print Assumptions C46_finds.

Example C46_demo : set_members same_row (fun _ => 0) (fun l => l) /\ pool same_row (map fst three) a_to_d three = three /\ subseq [(a_to_b, 3%Q); (b_to_d, 5%Q)] three
  /\ solves some_pinv [a_to_b; b_to_d] a_to_d /\ independent 4 [a_to_b; b_to_d] /\ (forall j, j < 4 -> (weighted [1; 1]%Q [a_to_b; b_to_d] j == nth j a_to_d 0)%Q)
  /\ (forall j, ~ (nth j a_to_d 0 == 0)%Q -> exists row, In row [a_to_b; b_to_d] /\ ~ (nth j row 0 == 0)%Q)
  /\ comp_matrices row_of lifo (map fst three) (net_filter a_to_d) 1 2 = Ok [(2, [[a_to_c; b_to_d]; [a_to_b; b_to_d]])].
Proof.
  split; [apply all_members|]. split; [exact three_pool|]. split; [apply subseq_take, subseq_skip, subseq_take; constructor|]. split; [exact two_solved|]. split; [exact two_independent|]. split; [exact two_weighted|]. split; [|vm_compute; reflexivity].
  intros j Hj. destruct j as [|[|[|[|j]]]]; cbn in Hj; [exists a_to_b; split; [left; reflexivity|discriminate]|exfalso; apply Hj; reflexivity|exfalso; apply Hj; reflexivity|exists b_to_d; split; [right; left; reflexivity|discriminate]|].
  exfalso. apply Hj. destruct j; reflexivity.
Qed.

(* --- C47 --- *)
(* Full claim: for every set of candidates (refuted below). *)
Theorem C47_returns_partial : forall {R} req vec rebuild (rs ps cs prec : R -> list nat) pinv waits1 waits2 uniq clean rxns net chunk batch_size cpus max fi,
  (forall k, valid_schedule (waits1 k)) -> (forall k, valid_schedule (waits2 k)) -> (forall M v, length (pinv M v) = length M) ->
  let cands := pool req clean net rxns in
  forall netv, (forall l p, In p (uniq l) -> In p l) -> uniq [] = [] -> vec net = Ok netv -> (exists j, ~ (nth j netv 0 == 0)%Q) -> 1 <= chunk ->
  (exists b, batch_size = Some (S b)) \/ (batch_size = None \/ batch_size = Some 0) /\ 2 <= cpus -> 1 <= max <= length cands ->
  (forall s, In s cands -> exists row, vec (fst s) = Ok row /\ large row <> [] /\ exists t, In t cands /\ req (fst t) (rebuild (large row)) = true) ->
  (exists steps rows, subseq steps cands /\ 1 <= length steps <= max /\ Forall2 (fun s row => vec (fst s) = Ok row) steps rows /\ covers netv rows) ->
  exists paths, solve req vec rebuild rs ps cs prec pinv waits1 waits2 uniq clean rxns net true chunk batch_size cpus max fi = Ok paths
  /\ ((forall steps rows ms, subseq steps cands -> 1 <= length steps <= max -> Forall2 (fun s row => vec (fst s) = Ok row) steps rows -> ~ balances netv rows ms) -> paths = []).
Proof. exact @solve_returns. Qed.
Print Assumptions C47_returns_partial.

(* The conditions are needed: without them the solver raises. *)
Theorem C47_needs_partial : forall {R} req vec rebuild (rs ps cs prec : R -> list nat) pinv waits1 waits2 uniq clean rxns net chunk batch_size cpus max fi,
  (forall k, valid_schedule (waits1 k)) -> (forall k, valid_schedule (waits2 k)) ->
  forall ok paths, solve req vec rebuild rs ps cs prec pinv waits1 waits2 uniq clean rxns net ok chunk batch_size cpus max fi = Ok paths ->
  let cands := pool req clean net rxns in
  ok = true /\ 1 <= chunk /\ 1 <= max <= length cands /\ batch_of batch_size cpus <> 0
  /\ exists netv, vec net = Ok netv /\ (forall s, In s cands -> exists row, vec (fst s) = Ok row)
  /\ exists steps rows, subseq steps cands /\ 1 <= length steps <= max /\ Forall2 (fun s row => vec (fst s) = Ok row) steps rows /\ covers netv rows.
Proof. exact @solve_needs. Qed.
Print Assumptions C47_needs_partial.

(* Three candidates, combinations of up to four. *)
Theorem C47_fewer_refuted : run three 2 None 3 4 = Err ValueError.
Proof. exact fewer_run. Qed.
Print Assumptions C47_fewer_refuted.

(* No combination contains every phase of the net reaction. *)
Theorem C47_untouched_refuted : run [(a_to_b, 1%Q); (a_to_c, 2%Q)] 2 None 3 2 = Err ValueError.
Proof. exact none_touch_run. Qed.
Print Assumptions C47_untouched_refuted.

(* The only reaction is the net reaction. *)
Theorem C47_none_refuted : run [(a_to_d, 1%Q)] 2 None 3 1 = Err ValueError.
Proof. exact only_net_run. Qed.
Print Assumptions C47_none_refuted.

(* One processor and no batch size. *)
Theorem C47_one_cpu_refuted : run three 2 None 1 2 = Err ZeroDivisionError.
Proof. exact one_cpu_run. Qed.
Print Assumptions C47_one_cpu_refuted.

Example C47_demo : pool same_row (map fst three) a_to_d three = three
  /\ (forall s, In s three -> exists row, row_of (fst s) = Ok row /\ large row <> [] /\ exists t, In t three /\ same_row (fst t) (from_pairs (large row)) = true)
  /\ run [(a_to_b, 3%Q); (b_to_d, 5%Q); (b_to_d, 5%Q)] 1 None 3 2 <> Err ValueError
  /\ solve same_row row_of from_pairs ins outs occs ins (fun M _ => map (fun _ => 0%Q) M) lifo lifo (fun l => l) (map fst three) three a_to_d true 1 None 3 2 true = Ok []
  /\ exists s, from_paths content_eqb arrange [] = Ok s /\ get_paths s = Ok [].
Proof.
  split; [exact three_pool|]. split; [|split; [vm_compute; discriminate|split; [vm_compute; reflexivity|exact no_paths_witness]]].
  intros s Hs. exists (fst s). split; [reflexivity|]. destruct (rebuilt_rows s (fst s) Hs eq_refl) as [H ->]. split; [exact H|]. exists s. split; [exact Hs|apply same_row_refl].
Qed.

(* --- C48 --- *)
(* Full claim: also the reactions of the grand-potential enumerator (refuted below). *)
Theorem C48_kept_partial : forall argsort shuffle, (forall l, Permutation (argsort l) (seq 0 (length l))) -> (forall l, Permutation (shuffle l) l) ->
  forall arrange, arranges arrange -> forall below es op mu ub um sb sbo sm sg rb rbo rm,
  (forall x y, In x es -> In y es -> uid x = uid y -> x = y) ->
  (ub = true -> well_formed sb /\ get_rxns sb = Ok rb /\ r_entries sb = es) ->
  (ub = true -> op <> None -> well_formed sbo /\ get_rxns sbo = Ok rbo /\ r_entries sbo = es) ->
  (um = true -> well_formed sm /\ get_rxns sm = Ok rm /\ r_entries sm = es) ->
  (um = true -> op <> None -> well_formed sg /\ r_entries sg = es) ->
  let all := kept_sets op ub um rb rbo rm in
  let mud := match op with Some el => Some [(el, mu)] | None => None end in
  (forall r, In r all -> plain r) -> sharp all ->
  exists s out, find_intermediate_rxns argsort shuffle arrange below es op mu ub um (Ok sb) (Ok sbo) (Ok sm) (Ok sg) = Ok s /\ well_formed s /\ get_rxns s = Ok out
  /\ (forall r', In r' out -> exists r, In r all /\ r' = with_mu mud r /\ below r' = true /\ forall e, In e (x_entries r') -> In e es)
  /\ (forall r, In r all -> below (with_mu mud r) = true -> (forall e, In e (x_entries r) -> In e es) -> exists r', In r' out /\ multiples r r')
  /\ ForallOrdPairs (fun r r' => ~ multiples r r') out.
Proof. exact intermediates_spec. Qed.
Print Assumptions C48_kept_partial.

Theorem C48_grand_refuted : exists sm sg s out r, let es := [en 0; en 1; en 2] in
  well_formed sm /\ r_entries sm = es /\ get_rxns sm = Ok minimize_rxns /\ well_formed sg /\ r_entries sg = es /\ get_rxns sg = Ok [r] /\ plain r
  /\ find_intermediate_rxns argsort (fun l => l) arrange (fun _ => true) es (Some 7) 0 false true (Err ValueError) (Err ValueError) (Ok sm) (Ok sg) = Ok s
  /\ get_rxns s = Ok out /\ forall r', In r' out -> ~ multiples r r'.
Proof. exact grand_witness. Qed.
Print Assumptions C48_grand_refuted.

Example C48_demo : (forall l, Permutation (argsort l) (seq 0 (length l))) /\ arranges arrange /\ well_formed demo_set
  /\ (forall x y, In x (r_entries demo_set) -> In y (r_entries demo_set) -> uid x = uid y -> x = y)
  /\ exists rs, get_rxns demo_set = Ok rs /\ (forall r, In r (kept_sets None true true rs [] rs) -> plain r) /\ sharp (kept_sets None true true rs [] rs)
  /\ exists s out, find_intermediate_rxns argsort (fun l => l) arrange (fun _ => true) (r_entries demo_set) None 0 true true (Ok demo_set) (Err ValueError) (Ok demo_set) (Err ValueError) = Ok s
  /\ get_rxns s = Ok out /\ length rs = 4 /\ length out = 3.
Proof.
  split; [exact argsort_perm|]. split; [exact arrange_arranges|]. split; [exact RxnSetCheck.demo_wf|]. split.
  - intros x y Hx Hy. cbn in Hx, Hy. repeat (destruct Hx as [<-|Hx]; [repeat (destruct Hy as [<-|Hy]; [cbn; intros E; (reflexivity || discriminate E)|]); destruct Hy|]). destruct Hx.
  - destruct demo_list as (rs & E & Hp & Hs & _). exists rs. split; [exact E|]. assert (I : forall r, In r (kept_sets None true true rs [] rs) -> In r rs) by (intros r Hr; unfold kept_sets in Hr; rewrite app_nil_r in Hr; apply in_app_or in Hr as [H|H]; exact H).
    split; [intros r Hr; apply Hp, I; exact Hr|]. split; [intros r r' Hr Hr'; apply Hs; apply I; assumption|]. assert (E' : get_rxns demo_set = Ok rs) by exact E. vm_compute in E'. injection E' as <-.
    do 2 eexists. split; [vm_compute; reflexivity|]. split; [vm_compute; reflexivity|]. split; reflexivity.
Qed.

(* --- C77 --- *)
(* Full claim: also for pathways without costs (refuted below). *)
Theorem C77_collected_partial : forall {R} (req : R -> R -> bool) paths, (forall r, req r r = true) -> (forall p, In p paths -> length (p_costs p) = length (p_rxns p)) ->
  let out := solver_init req paths in
  subseq out (flat_map (fun p => combine (p_rxns p) (p_costs p)) paths)
  /\ fresh req out /\ forall p r, In p paths -> In r (p_rxns p) -> exists t, In t out /\ req r (fst t) = true.
Proof. exact @collected. Qed.
Print Assumptions C77_collected_partial.

Theorem C77_intermediates : forall {R} (req : R -> R -> bool) cost rxns inter, (forall r, req r r = true) -> fresh req rxns ->
  let out := with_intermediates req cost rxns inter in
  (exists ext, out = rxns ++ ext /\ forall s, In s ext -> In (fst s) inter /\ snd s = cost (fst s))
  /\ fresh req out /\ forall r, In r inter -> exists t, In t out /\ req r (fst t) = true.
Proof. exact @intermediates_added. Qed.
Print Assumptions C77_intermediates.

Theorem C77_no_costs_refuted : exists p : path nat, p_rxns p = [1] /\ solver_init Nat.eqb [p] = [].
Proof. exact no_costs_witness. Qed.
Print Assumptions C77_no_costs_refuted.

Example C77_demo : let paths := [cp [1; 2] [3; 4]%Q [1; 1]%Q; cp [2; 5] [9; 6]%Q [1; 1]%Q] in
  (forall p, In p paths -> length (p_costs p) = length (p_rxns p)) /\ solver_init Nat.eqb paths = [(1, 3%Q); (2, 4%Q); (5, 6%Q)]
  /\ with_intermediates Nat.eqb (fun _ => 7%Q) (solver_init Nat.eqb paths) [5; 8; 8] = [(1, 3%Q); (2, 4%Q); (5, 6%Q); (8, 7%Q)].
Proof. cbv zeta. split; [intros p [<-|[<-|[]]]; reflexivity|]. split; vm_compute; reflexivity. Qed.
