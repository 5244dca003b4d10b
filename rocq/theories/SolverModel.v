(* Model of pathways/solver.py. *)
From Verif Require Import Prelude NumQ UtilsModel ReactionModel RxnSetModel PathModel.
Open Scope nat_scope.

Definition matrix := list (list Q).              (* one row per reaction *)

(* np.argwhere(net_rxn_vector != 0).flatten(), solver.py:211 and 429 *)
Definition net_filter (net : list Q) : list nat := filter (fun j => negb (Qeq_bool (nth j net 0%Q) 0)) (seq 0 (length net)).

(* M[:, idx].any() for every idx of the filter, solver.py:436-442 and 477 *)
Definition touches (filt : list nat) (M : matrix) : bool :=
  forallb (fun j => existsb (fun row => negb (Qeq_bool (nth j row 0%Q) 0)) M) filt.

(* comp_matrices[n].any(), solver.py:237 *)
Definition any_entry (Ms : list matrix) : bool := existsb (existsb (existsb (fun x => negb (Qeq_bool x 0)))) Ms.

(* np.array_split(l, k): the first length mod k parts hold one item more *)
Fixpoint take_sizes {A} (sizes : list nat) (l : list A) : list (list A) :=
  match sizes with
  | [] => []
  | n :: sizes' => firstn n l :: take_sizes sizes' (skipn n l)
  end.
Definition array_split {A} (l : list A) (k : nat) : list (list A) :=
  let q := length l / k in let r := length l mod k in
  take_sizes (repeat (S q) r ++ repeat q (k - r)) l.

(* ray: every task is submitted, to_iterator yields the results in the order in which
   they finish; the exception of a task is raised when its result is fetched. *)
Definition gather {T V} (wait : nat -> list nat -> list nat * list nat) (f : T -> result V) (tasks : list T) : result (list V) :=
  bind (to_iterator wait (fun i => match nth_error tasks i with Some t => f t | None => Err IndexError end) (seq 0 (length tasks)))
       (fun rs => mapM (fun r => r) rs).

Section Kernel.
(* np.linalg.pinv(M).T @ net_coeffs; assumed not to raise *)
Variable pinv : matrix -> list Q -> list Q.

(* comp_matrices[i].T @ multiplicities *)
Definition combine_rows (M : matrix) (ms : list Q) (j : nat) : Q := Qsum (map (fun rm => nth j (fst rm) 0 * snd rm)%Q (combine M ms)).

(* solver.py:434-455 for one matrix *)
Definition balance_one (net : list Q) (M : matrix) : option (matrix * list Q) :=
  if touches (net_filter net) M then
    let ms := pinv M net in
    if existsb (fun m => Qlt_bool m (1 # 1000000)) ms then None
    else if forallb (fun j => Qle_bool (Qabs (combine_rows M ms j - nth j net 0)) ((1 # 100000000) + (1 # 100000) * Qabs (nth j net 0%Q)))%Q (seq 0 (length net))
    then Some (M, ms) else None
  else None.

(* solver.py:411-467 _balance_path_arrays_cpu: the accepted matrices in order *)
Definition kernel (net : list Q) (Ms : list matrix) : list (matrix * list Q) :=
  flat_map (fun M => match balance_one net M with Some a => [a] | None => [] end) Ms.
End Kernel.

Section Solver.
Context {R : Type}.
(* == of reactions, assumed not to raise; get_entry_idx_vector(num_entries); the reaction
   made from (index, coefficient) pairs at solver.py:304-316; what the paths look at;
   [prec]: the compositions of the reactant entries, solver.py:181 and 330. Those are not
   reduced, while rs, ps and cs are. *)
Variable req : R -> R -> bool.
Variable vec : R -> result (list Q).
Variable rebuild : list (nat * Q) -> R.
Variable rs ps cs prec : R -> list nat.

(* --- Solver.__init__ and the list of candidates --- *)
(* solver.py:57-60 and 195-198: append unless an equal reaction is there *)
Definition add_new (acc : list (R * Q)) (rc : R * Q) : list (R * Q) :=
  if memb req (fst rc) (map fst acc) then acc else acc ++ [rc].

(* solver.py:45-62: zip stops at the shorter list *)
Definition solver_init (paths : list (path R)) : list (R * Q) :=
  fold_left add_new (flat_map (fun p => combine (p_rxns p) (p_costs p)) paths) [].

(* solver.py:194-198 *)
Definition with_intermediates (cost : R -> Q) (rxns : list (R * Q)) (inter : list R) : list (R * Q) :=
  fold_left add_new (map (fun r => (r, cost r)) inter) rxns.

(* solver.py:200-203: [clean] is the reactions of ReactionSet.from_rxns(reactions,
   filter_duplicates=True). Unpacking an empty zip raises ValueError. *)
Definition candidates (clean : list R) (net : R) (rxns : list (R * Q)) : result (list (R * Q)) :=
  match filter (fun rc => memb req (fst rc) clean && negb (req (fst rc) net)) rxns with
  | [] => Err ValueError
  | l => Ok l
  end.

(* --- the matrices --- *)
(* solver.py:470-477 _create_comp_matrices; combos is one group of grouper, with None
   as filler. np.stack([]) raises ValueError. *)
Definition create_comp_matrices (cands : list R) (filt : list nat) (combos : list (option (list nat))) : result (list matrix) :=
  let some := flat_map (fun c => match c with Some (i :: l) => [i :: l] | _ => [] end) combos in
  bind (mapM (fun combo => mapM (fun i => bind (index cands i) vec) combo) some) (fun Ms =>
  match Ms with [] => Err ValueError | _ => Ok (filter (touches filt) Ms) end).

(* solver.py:218-235 for one n: groups, tasks, np.concatenate (which raises ValueError
   for an empty list) *)
Definition matrices_of_size (wait : nat -> list nat -> list nat * list nat) (cands : list R) (filt : list nat) (chunk n : nat) : result (list matrix) :=
  bind (grouper (map Some (combinations (seq 0 (length cands)) n)) chunk None) (fun groups =>
  bind (gather wait (create_comp_matrices cands filt) groups) (fun parts =>
  match parts with [] => Err ValueError | _ => Ok (concat parts) end)).

(* solver.py:214-238: the dictionary comp_matrices without the all-zero values *)
Definition comp_matrices (waits : nat -> nat -> list nat -> list nat * list nat) (cands : list R) (filt : list nat) (chunk max : nat) : result (list (nat * list matrix)) :=
  bind (mapM (fun n => bind (matrices_of_size (waits n) cands filt chunk n) (fun Ms => Ok (n, Ms))) (seq 1 max)) (fun d =>
  Ok (filter (fun nM => any_entry (snd nM)) d)).

(* --- the jobs --- *)
(* solver.py:252-261. A chunk size of zero fails earlier (np.concatenate). *)
Definition jobs_of (chunk : nat) (d : list (nat * list matrix)) : list (list matrix) :=
  flat_map (fun nM => filter (fun g => negb (Nat.eqb (length g) 0))
    (if 4 <=? fst nM then array_split (snd nM) (length (snd nM) / chunk + 1) else [snd nM])) d.

(* solver.py:263-292: submit, empty the list of references when a batch is full *)
Fixpoint run_batches {V} (waits : nat -> nat -> list nat -> list nat * list nat) (f : list matrix -> result V) (batch k : nat) (refs jobs : list (list matrix)) : result (list V) :=
  match jobs with
  | [] => gather (waits k) f refs
  | j :: jobs' =>
      let refs' := refs ++ [j] in
      if batch <=? length refs' then
        bind (gather (waits k) f refs') (fun out => bind (run_batches waits f batch (S k) [] jobs') (fun rest => Ok (out ++ rest)))
      else run_batches waits f batch k refs' jobs'
  end.

(* solver.py:209: self.batch_size or num_cpus - 1. The size is a natural number. *)
Definition batch_of (batch_size : option nat) (cpus : nat) : nat := match batch_size with Some (S b) => S b | _ => cpus - 1 end.

(* solver.py:242-296: all accepted (matrix, multiplicities). Line 248 divides by the
   batch size; unpacking an empty zip raises ValueError. *)
Definition balance_all (pinv : matrix -> list Q -> list Q) (waits : nat -> nat -> list nat -> list nat * list nat) (chunk batch : nat) (net : list Q) (d : list (nat * list matrix)) : result (list (matrix * list Q)) :=
  if Nat.eqb batch 0 then Err ZeroDivisionError
  else bind (run_batches waits (fun Ms => Ok (kernel pinv net Ms)) batch 1 [] (jobs_of chunk d)) (fun out =>
       match out with [] => Err ValueError | _ => Ok (concat out) end).

(* --- the pathways --- *)
(* solver.py:303-316: the reaction of one row; an empty zip raises ValueError *)
Definition row_rxn (row : list Q) : result R :=
  match filter (fun ic => negb (isclose (snd ic) 0)) (combine (seq 0 (length row)) row) with
  | [] => Err ValueError
  | nz => Ok (rebuild nz)
  end.

(* solver.py:318-323: the reaction has been appended when index fails, its cost has not *)
Definition cost_of (cands : list (R * Q)) (r : R) : list Q :=
  match py_index req r (map fst cands) with
  | Ok i => match nth_error (map snd cands) i with Some c => [c] | None => [] end
  | Err _ => []
  end.

(* solver.py:298-326 *)
Definition build_path (cands : list (R * Q)) (Mm : matrix * list Q) : result (path R) :=
  bind (mapM row_rxn (fst Mm)) (fun rxns =>
  Ok {| p_rxns := rxns; p_costs := flat_map (cost_of cands) rxns; p_coeffs := Some (snd Mm); p_balanced := true |}).

(* sorted(l, key) for evaluated keys, stable *)
Fixpoint insert_by {A} (x : Q * A) (l : list (Q * A)) : list (Q * A) :=
  match l with
  | [] => [x]
  | y :: l' => if Qlt_bool (fst y) (fst x) then y :: insert_by x l' else x :: l
  end.
Definition sort_by {A} (l : list (Q * A)) : list (Q * A) := fold_right insert_by [] l.

(* solver.py:328-338. [uniq l] is the list of the members of set(l). *)
Definition finish (uniq : list (path R) -> list (path R)) (filter_interdependent : bool) (prec : list nat) (paths : list (path R)) : result (list (path R)) :=
  let kept := if filter_interdependent then filter (fun p => negb (contains_interdependent req rs ps cs p prec)) paths else paths in
  bind (mapM (fun p => bind (average_cost p) (fun a => Ok (a, p))) (uniq kept)) (fun l =>
  Ok (map snd (sort_by l))).

(* solver.py:135-340 solve, given the reactions with their costs (solver_init,
   with_intermediates), up to PathwaySet.from_paths (see PathModel). *)
Definition solve (pinv : matrix -> list Q -> list Q) (waits1 waits2 : nat -> nat -> list nat -> list nat * list nat)
  (uniq : list (path R) -> list (path R)) (clean : list R) (rxns : list (R * Q)) (net : R) (net_balanced : bool)
  (chunk : nat) (batch_size : option nat) (cpus max : nat) (filter_interdependent : bool) : result (list (path R)) :=
  if negb net_balanced then Err ValueError else
  bind (candidates clean net rxns) (fun cands =>
  bind (vec net) (fun netv =>
  bind (comp_matrices waits1 (map fst cands) (net_filter netv) chunk max) (fun d =>
  bind (balance_all pinv waits2 chunk (batch_of batch_size cpus) netv d) (fun accepted =>
  bind (mapM (build_path cands) accepted) (fun paths =>
  finish uniq filter_interdependent (prec net) paths))))).
End Solver.

(* solver.py:304-316 for closed reactions: entries[idx] with the entry list of the
   solver; idx is a column of the matrix, so it is in range. *)
Definition rebuild_computed (C : chem) (ents : list entry) (nz : list (nat * Q)) : crxn :=
  computed_init C (map (fun ic => nth (fst ic) ents {| e_id := 0; e_comp := 0; e_energy := 0%Q |}) nz) (map snd nz) None.

(* solver.py:342-403 _find_intermediate_rxns. [intermediates] is the entry list of the
   intermediates, the targets and the elements; the results of the four enumerators
   are arguments; [below r]: r.energy_per_atom < energy_cutoff. The set returned by the
   last add_rxn_set (line 394) is not kept. *)
Definition find_intermediate_rxns argsort shuffle (arrange : list sentry -> list sentry) (below : srxn -> bool)
  (intermediates : list sentry) (open_elem : option nat) (chempot : Q) (use_basic use_minimize : bool)
  (basic basic_open minimize grand : result rset) : result rset :=
  let s0 := rset_init intermediates [] [] open_elem chempot (Some []) in
  bind (if use_basic then
          bind basic (fun b => bind (add_rxn_set s0 b) (fun s =>
          match open_elem with Some _ => bind basic_open (add_rxn_set s) | None => Ok s end))
        else Ok s0) (fun s1 =>
  bind (if use_minimize then
          bind minimize (fun m => bind (add_rxn_set s1 m) (fun s =>
          match open_elem with Some _ => bind grand (fun g => bind (add_rxn_set s g) (fun _ => Ok s)) | None => Ok s end))
        else Ok s1) (fun s2 =>
  bind (get_rxns s2) (fun rxns =>
  let kept := filter (fun r => forallb (fun e => if in_dec sentry_eq_dec e intermediates then true else false) (x_entries r)) (filter below rxns) in
  bind (from_rxns arrange kept [] None 0%Q) (fun s => filter_duplicates argsort shuffle s [])))).
