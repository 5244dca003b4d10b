(* Concrete runs of the solver: witnesses and non-vacuity for C45-C48 and C77. *)
From Coq Require Import Lqa.
From Verif Require Import Prelude NumQ UtilsModel UtilsSpec ReactionModel ReactionSpec RxnSetModel RxnSetSpec RxnSetCheck PathModel PathSpec PathCheck SolverModel SolverSpec SolverProofs.
Open Scope nat_scope.

(* Reactions given by their coefficients over four phases A, B, C, D. *)
Definition same_row (a b : list Q) : bool := Nat.eqb (length a) (length b) && forallb (fun xy => Qeq_bool (fst xy) (snd xy)) (combine a b).
Definition row_of (r : list Q) : result (list Q) := Ok r.
Definition from_pairs (nz : list (nat * Q)) : list Q :=
  map (fun i => match find (fun ic => Nat.eqb (fst ic) i) nz with Some ic => snd ic | None => 0%Q end) (seq 0 4).
Definition signed (f : Q -> bool) (r : list Q) : list nat := map fst (filter (fun ic => f (snd ic)) (combine (seq 0 (length r)) r)).
Definition ins : list Q -> list nat := signed (fun c => Qlt_bool c 0).
Definition outs : list Q -> list nat := signed (fun c => Qlt_bool 0 c).
Definition occs : list Q -> list nat := signed (fun c => negb (Qeq_bool c 0)).

Definition a_to_b : list Q := [-1; 1; 0; 0]%Q.
Definition b_to_d : list Q := [0; -1; 0; 1]%Q.
Definition a_to_c : list Q := [-1; 0; 1; 0]%Q.
Definition a_to_d : list Q := [-1; 0; 0; 1]%Q.
Definition some_pinv (M : matrix) (v : list Q) : list Q :=
  match M with [x; y] => if same_row x a_to_b && same_row y b_to_d && same_row v a_to_d then [1; 1]%Q else [0; 0]%Q | _ => repeat 0%Q (length M) end.
Lemma some_pinv_length M v : length (some_pinv M v) = length M.
Proof. destruct M as [|x [|y [|z M]]]; cbn [some_pinv]; try (rewrite repeat_length; reflexivity). destruct (_ && _); reflexivity. Qed.

Definition lifo (k : nat) : nat -> list nat -> list nat * list nat := lifo_any.
Lemma lifo_valid k : valid_schedule (lifo k).
Proof. apply lifo_any_valid. Qed.
Lemma all_members {R} (req : R -> R -> bool) rhash : set_members req rhash (fun l => l).
Proof. intros l. split; [auto|]. intros p Hp. exists p. split; [exact Hp|]. left. reflexivity. Qed.
Lemma same_row_refl r : same_row r r = true.
Proof. unfold same_row. rewrite Nat.eqb_refl. induction r as [|c r IH]; [reflexivity|]. cbn. rewrite Qeq_bool_refl. exact IH. Qed.
Lemma same_row_iff a b : same_row a b = true <-> Forall2 Qeq a b.
Proof.
  unfold same_row. revert b. induction a as [|x a IH]; intros [|y b]; cbn; try (split; [discriminate|intros H; inversion H]); [split; constructor|]. specialize (IH b). rewrite andb_true_iff in *. rewrite andb_true_iff, Qeq_bool_iff. split.
  - intros (H1 & H2 & H3). constructor; [exact H2|]. apply IH. split; assumption.
  - intros H. inversion H; subst. destruct IH as [_ IH]. destruct IH as [I1 I2]; [assumption|]. repeat split; assumption.
Qed.
Lemma same_row_equivalence : equivalence same_row.
Proof.
  split; [exact same_row_refl|]. split.
  - intros a b H. apply same_row_iff in H. apply same_row_iff. induction H; constructor; [symmetry; assumption|assumption].
  - intros a b c H1 H2. apply same_row_iff in H1, H2. apply same_row_iff. revert c H2. induction H1 as [|x y a b E H1 IH]; intros c H2; inversion H2; subst; constructor; [rewrite E; assumption|apply IH; assumption].
Qed.

Definition three : list (list Q * Q) := [(a_to_b, 3%Q); (a_to_c, 2%Q); (b_to_d, 5%Q)].
Definition run (rxns : list (list Q * Q)) (chunk : nat) (batch : option nat) (cpus max : nat) : result (list (path (list Q))) :=
  solve same_row row_of from_pairs ins outs occs ins some_pinv lifo lifo (fun l => l) (map fst rxns) rxns a_to_d true chunk batch cpus max true.
Lemma run_three : run three 1 None 3 2 = Ok [cp [a_to_b; b_to_d] [3; 5]%Q [1; 1]%Q].
Proof. vm_compute. reflexivity. Qed.

Lemma rebuilt_rows s row : In s three -> row_of (fst s) = Ok row -> large row <> [] /\ from_pairs (large row) = fst s.
Proof. intros [<-|[<-|[<-|[]]]] E; injection E as <-; (split; [vm_compute; discriminate|vm_compute; reflexivity]). Qed.
Lemma three_fresh : fresh same_row three.
Proof.
  intros l1 s l2 t l3 E. unfold three in E.
  repeat (destruct l1 as [|? l1]; [injection E as <- E; repeat (destruct l2 as [|? l2]; [injection E as <- E; vm_compute; reflexivity|injection E as _ E]); destruct l2; discriminate E|injection E as _ E]). destruct l1; discriminate E.
Qed.
Lemma three_pool : pool same_row (map fst three) a_to_d three = three.
Proof. vm_compute. reflexivity. Qed.

Lemma two_independent : independent 4 [a_to_b; b_to_d].
Proof.
  intros [|x [|y [|z ms]]] HL H; try discriminate HL. pose proof (H 1 ltac:(lia)) as H1. pose proof (H 3 ltac:(lia)) as H3. unfold weighted in H1, H3. cbn in H1, H3.
  constructor; [lra|]. constructor; [lra|constructor].
Qed.
Lemma two_solved : solves some_pinv [a_to_b; b_to_d] a_to_d.
Proof.
  intros _ [|x [|y [|z ms]]] HL H; try discriminate HL. pose proof (H 0 ltac:(cbn; lia)) as H1. pose proof (H 3 ltac:(cbn; lia)) as H3. unfold weighted in H1, H3. cbn in H1, H3.
  change (some_pinv _ _) with [1; 1]%Q. constructor; [lra|]. constructor; [lra|constructor].
Qed.
Lemma two_weighted j : j < 4 -> (weighted [1; 1]%Q [a_to_b; b_to_d] j == nth j a_to_d 0)%Q.
Proof. intros H. destruct j as [|[|[|[|j]]]]; try (vm_compute; reflexivity). lia. Qed.

(* C47: the solver fails *)
Definition fewer_run : run three 2 None 3 4 = Err ValueError := eq_refl.
Definition none_touch_run : run [(a_to_b, 1%Q); (a_to_c, 2%Q)] 2 None 3 2 = Err ValueError := eq_refl.
Definition only_net_run : run [(a_to_d, 1%Q)] 2 None 3 1 = Err ValueError := eq_refl.
Definition one_cpu_run : run three 2 None 1 2 = Err ZeroDivisionError := eq_refl.
Lemma no_paths_witness : exists s, from_paths content_eqb arrange [] = Ok s /\ get_paths s = Ok [].
Proof. eexists. split; vm_compute; reflexivity. Qed.

(* C45 for reactions with entries: 2 Li -> Li2, 3 Li2 -> 2 Li3, in all 3 Li -> Li3 *)
Definition li_entries : list entry := [{| e_id := 0; e_comp := 4; e_energy := 0%Q |}; {| e_id := 1; e_comp := 5; e_energy := (-1)%Q |}; {| e_id := 2; e_comp := 6; e_energy := (-2)%Q |}].
Definition li (is : list nat) (ks : list Q) : crxn := computed_init ReactionCheck.demo (map (fun i => nth i li_entries {| e_id := 0; e_comp := 0; e_energy := 0%Q |}) is) ks None.
Definition li_vec (r : crxn) : result (list Q) := get_entry_idx_vector r (length li_entries).
Definition li_same (a b : crxn) : bool := match li_vec a, li_vec b with Ok x, Ok y => same_row x y | _, _ => false end.
Definition li_side (f : list Q -> list nat) (r : crxn) : list nat := match li_vec r with Ok x => f x | _ => [] end.
Definition li_rxns : list (crxn * Q) := [(li [0; 1] [-2; 1]%Q, 1%Q); (li [1; 2] [-3; 2]%Q, 2%Q)].
Definition li_pinv (M : matrix) (v : list Q) : list Q := match M with [_; _] => [3 # 2; 1 # 2]%Q | _ => repeat 0%Q (length M) end.
Lemma li_pinv_length M v : length (li_pinv M v) = length M.
Proof. destruct M as [|x [|y [|z M]]]; cbn [li_pinv]; try (rewrite repeat_length; reflexivity). reflexivity. Qed.
Lemma li_ids i e : nth_error li_entries i = Some e -> e_id e = i.
Proof. destruct i as [|[|[|i]]]; cbn; intros H; try (injection H as <-; reflexivity). destruct i; discriminate. Qed.
Lemma li_run : exists p, solve li_same li_vec (rebuild_computed ReactionCheck.demo li_entries) (li_side ins) (li_side outs) (li_side occs) (li_side ins) li_pinv lifo lifo (fun l => l)
  (map fst li_rxns) li_rxns (li [0; 2] [-3; 1]%Q) true 1 (Some 1) 1 2 true = Ok [p] /\ map li_vec (p_rxns p) = [Ok [-2; 1; 0]%Q; Ok [0; -3; 2]%Q] /\ p_costs p = [1; 2]%Q.
Proof. eexists. split; [vm_compute; reflexivity|]. split; vm_compute; reflexivity. Qed.

(* C48: the last enumerator finds another reaction *)
Definition minimize_rxns : list srxn := [rx [en 0; en 1; en 2] [-1; -1; 1]%Q 0].
Definition grand_rxns : list srxn := [rx [en 0; en 1; en 2] [-1; 1; 1]%Q 0].
Lemma grand_witness : exists sm sg s out r, let es := [en 0; en 1; en 2] in
  well_formed sm /\ r_entries sm = es /\ get_rxns sm = Ok minimize_rxns /\ well_formed sg /\ r_entries sg = es /\ get_rxns sg = Ok [r] /\ plain r
  /\ find_intermediate_rxns argsort (fun l => l) arrange (fun _ => true) es (Some 7) 0 false true (Err ValueError) (Err ValueError) (Ok sm) (Ok sg) = Ok s
  /\ get_rxns s = Ok out /\ forall r', In r' out -> ~ multiples r r'.
Proof.
  exists (set_of minimize_rxns), (set_of grand_rxns). do 2 eexists. exists (rx [en 0; en 1; en 2] [-1; 1; 1]%Q 0). cbv zeta.
  split; [apply wf_check_ok; vm_compute; reflexivity|]. split; [vm_compute; reflexivity|]. split; [vm_compute; reflexivity|].
  split; [apply wf_check_ok; vm_compute; reflexivity|]. split; [vm_compute; reflexivity|]. split; [vm_compute; reflexivity|].
  split; [split; [repeat constructor; simpl; intuition discriminate|split; [reflexivity|intros c [<-|[<-|[<-|[]]]]; discriminate]]|].
  split; [vm_compute; reflexivity|]. split; [vm_compute; reflexivity|].
  intros r' [<-|[]] (k & l & Hk & (P1 & P2) & H). cbn in P1, P2.
  assert (Hin : In (en 1, 1%Q) (map (fun t : sentry * Q * Q => (fst (fst t), snd (fst t))) l)) by (apply (Permutation_in _ (Permutation_sym P1)); right; left; reflexivity).
  apply in_map_iff in Hin as ([[e x] y] & E & Hin). injection E as -> ->. pose proof (H _ _ _ Hin) as Hy.
  assert (Hin' : In (en 1, y) (map (fun t : sentry * Q * Q => (fst (fst t), snd t)) l)) by (apply in_map_iff; exists (en 1, 1%Q, y); split; [reflexivity|exact Hin]).
  apply (Permutation_in _ P2) in Hin'. cbn in Hin'. destruct Hin' as [E|[E|[E|[]]]]; try discriminate E. injection E as <-. lra.
Qed.

(* C77 *)
Lemma no_costs_witness : exists p : path nat, p_rxns p = [1] /\ solver_init Nat.eqb [p] = [].
Proof. exists (bp [1]). split; reflexivity. Qed.
