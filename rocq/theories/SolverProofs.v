From Verif Require Import Prelude NumQ ListFacts UtilsModel UtilsSpec UtilsProofs ReactionModel ReactionSpec PathModel PathSpec RxnSetBaseProofs RxnSetParProofs EnumReactProofs SolverModel SolverSpec.
Open Scope nat_scope.

(* --- parallel tasks --- *)
Lemma mapM_id_perm {A} (l l' : list (result A)) out : Permutation l l' -> mapM (fun r => r) l = Ok out ->
  exists out', mapM (fun r => r) l' = Ok out' /\ Permutation out out'.
Proof.
  intros H E. assert (l = map Ok out) as ->.
  { apply mapM_Forall2 in E. induction E as [|x y l1 l2 Hxy E IH] in l', H |- *; [reflexivity|]. cbn. rewrite Hxy. f_equal. apply (IH _ (Permutation_refl _)). }
  apply Permutation_sym, Permutation_map_inv in H. destruct H as (out' & -> & H). exists out'. split; [|exact H].
  rewrite mapM_over. rewrite (mapM_ok _ (fun x => x)); [rewrite map_id; reflexivity|reflexivity].
Qed.

Lemma nth_tasks {T V} (f : T -> V) (d : V) tasks : map (fun i => match nth_error tasks i with Some t => f t | None => d end) (seq 0 (length tasks)) = map f tasks.
Proof.
  induction tasks as [|t tasks IH]; [reflexivity|]. cbn [length seq map nth_error]. f_equal. rewrite <- seq_shift, map_map. exact IH.
Qed.

Lemma gather_ok {T V} wait (f : T -> result V) tasks vs : valid_schedule wait -> mapM f tasks = Ok vs ->
  exists out, gather wait f tasks = Ok out /\ Permutation out vs.
Proof.
  intros Hw E. unfold gather. destruct (to_iterator_spec wait (fun i => match nth_error tasks i with Some t => f t | None => Err IndexError end) (seq 0 (length tasks)) Hw) as [(out & Eo & _ & Hp) _].
  rewrite Eo. cbn [bind]. rewrite nth_tasks in Hp.
  assert (E' : mapM (fun r => r) (map f tasks) = Ok vs) by (rewrite mapM_over; exact E).
  destruct (mapM_id_perm _ _ _ (Permutation_sym Hp) E') as (o & Ho & Hpo). exists o. split; [exact Ho|apply Permutation_sym; exact Hpo].
Qed.

Lemma gather_inv {T V} wait (f : T -> result V) tasks out : valid_schedule wait -> gather wait f tasks = Ok out ->
  exists vs, mapM f tasks = Ok vs /\ Permutation out vs.
Proof.
  intros Hw E. unfold gather in E. destruct (to_iterator_spec wait (fun i => match nth_error tasks i with Some t => f t | None => Err IndexError end) (seq 0 (length tasks)) Hw) as [(o & Eo & _ & Hp) _].
  rewrite Eo in E. cbn [bind] in E. rewrite nth_tasks in Hp. destruct (mapM_id_perm _ _ _ Hp E) as (vs & Hvs & Hpv).
  exists vs. rewrite mapM_over in Hvs. split; assumption.
Qed.

(* --- array_split --- *)
Lemma take_sizes_concat {A} sizes : forall l : list A, length l <= list_sum sizes -> concat (take_sizes sizes l) = l.
Proof.
  induction sizes as [|n sizes IH]; intros l H; [destruct l; [reflexivity|cbn in H; lia]|].
  change (list_sum (n :: sizes)) with (n + list_sum sizes) in H. cbn [take_sizes concat].
  rewrite IH; [apply firstn_skipn|]. rewrite skipn_length. lia.
Qed.

Lemma list_sum_repeat n k : list_sum (repeat n k) = k * n.
Proof. induction k as [|k IH]; [reflexivity|]. cbn [repeat]. change (list_sum (n :: repeat n k)) with (n + list_sum (repeat n k)). rewrite IH. reflexivity. Qed.

Lemma array_split_concat {A} (l : list A) k : 1 <= k -> concat (array_split l k) = l.
Proof.
  intros Hk. unfold array_split. apply take_sizes_concat. rewrite list_sum_app, !list_sum_repeat.
  pose proof (Nat.div_mod (length l) k). pose proof (Nat.mod_upper_bound (length l) k). nia.
Qed.

Lemma concat_nonempty {A} (ll : list (list A)) : concat (filter (fun g => negb (Nat.eqb (length g) 0)) ll) = concat ll.
Proof. induction ll as [|g ll IH]; [reflexivity|]. cbn. destruct g; cbn; [exact IH|]. rewrite IH. reflexivity. Qed.

Lemma jobs_concat chunk d : concat (jobs_of chunk d) = concat (map snd d).
Proof.
  unfold jobs_of. induction d as [|[n Ms] d IH]; [reflexivity|]. cbn [flat_map map concat fst snd]. rewrite concat_app, IH, concat_nonempty. f_equal.
  destruct (4 <=? n); [apply array_split_concat; lia|cbn; apply app_nil_r].
Qed.

Lemma jobs_nonempty chunk d : Forall (fun g => g <> []) (jobs_of chunk d).
Proof.
  apply Forall_forall. intros g Hg. unfold jobs_of in Hg. apply in_flat_map in Hg as (nM & _ & Hg). apply filter_In in Hg as [_ Hg]. intros ->. discriminate Hg.
Qed.

(* --- batches --- *)
Lemma run_batches_spec {V} waits (f : list matrix -> V) batch : (forall k, valid_schedule (waits k)) ->
  forall jobs k refs, exists out, run_batches waits (fun g => Ok (f g)) batch k refs jobs = Ok out /\ Permutation out (map f (refs ++ jobs)).
Proof.
  intros Hw. assert (G : forall k refs, exists out, gather (waits k) (fun g => Ok (f g)) refs = Ok out /\ Permutation out (map f refs)).
  { intros k refs. apply gather_ok; [apply Hw|]. apply mapM_ok. reflexivity. }
  induction jobs as [|j jobs IH]; intros k refs; cbn [run_batches].
  - rewrite app_nil_r. apply G.
  - destruct (batch <=? length (refs ++ [j])).
    + destruct (G k (refs ++ [j])) as (o1 & -> & H1). cbn [bind]. destruct (IH (S k) []) as (o2 & -> & H2). cbn [bind].
      exists (o1 ++ o2). split; [reflexivity|]. replace (refs ++ j :: jobs) with ((refs ++ [j]) ++ jobs) by (rewrite <- app_assoc; reflexivity).
      rewrite map_app. apply Permutation_app; assumption.
    + destruct (IH k (refs ++ [j])) as (o & -> & H). exists o. split; [reflexivity|]. rewrite <- app_assoc in H. exact H.
Qed.

Lemma kernel_concat pinv net jobs : concat (map (kernel pinv net) jobs) = kernel pinv net (concat jobs).
Proof. unfold kernel. induction jobs as [|g jobs IH]; [reflexivity|]. cbn. rewrite IH, flat_map_app. reflexivity. Qed.

Lemma balance_all_spec pinv waits chunk batch net d acc : (forall k, valid_schedule (waits k)) ->
  balance_all pinv waits chunk batch net d = Ok acc ->
  batch <> 0 /\ jobs_of chunk d <> [] /\ Permutation acc (kernel pinv net (concat (map snd d))).
Proof.
  intros Hw. unfold balance_all. destruct (Nat.eqb batch 0) eqn:Eb; [discriminate|]. apply Nat.eqb_neq in Eb.
  destruct (run_batches_spec waits (kernel pinv net) batch Hw (jobs_of chunk d) 1 []) as (out & -> & Hp). cbn [bind app] in *.
  destruct out as [|o out]; [discriminate|]. intros H. injection H as <-. split; [exact Eb|]. split.
  - intros H. rewrite H in Hp. cbn in Hp. apply Permutation_sym, Permutation_nil in Hp. discriminate.
  - change (o ++ concat out) with (concat (o :: out)). apply Permutation_concat in Hp. rewrite kernel_concat, jobs_concat in Hp. exact Hp.
Qed.

Lemma balance_all_ok pinv waits chunk batch net d : (forall k, valid_schedule (waits k)) -> batch <> 0 -> jobs_of chunk d <> [] ->
  exists acc, balance_all pinv waits chunk batch net d = Ok acc.
Proof.
  intros Hw Hb Hj. unfold balance_all. destruct (Nat.eqb_spec batch 0) as [E|_]; [contradiction|].
  destruct (run_batches_spec waits (kernel pinv net) batch Hw (jobs_of chunk d) 1 []) as (out & -> & Hp). cbn [bind app] in *.
  destruct out as [|o out]; [|eexists; reflexivity]. apply Permutation_nil in Hp. destruct (jobs_of chunk d); [contradiction|discriminate].
Qed.

(* --- matrices --- *)
Lemma Qneb x : negb (Qeq_bool x 0) = true <-> ~ (x == 0)%Q.
Proof. rewrite negb_true_iff. split; intros H; [apply Qeq_bool_neq; exact H|]. destruct (Qeq_bool x 0) eqn:E; [|reflexivity]. apply Qeq_bool_iff in E. contradiction. Qed.

Lemma in_net_filter net j : In j (net_filter net) <-> ~ (nth j net 0 == 0)%Q.
Proof.
  unfold net_filter. rewrite filter_In, in_seq, Qneb. split; [tauto|]. intros H. split; [|exact H]. split; [lia|].
  destruct (Nat.lt_ge_cases j (length net)) as [L|L]; [exact L|]. exfalso. apply H. rewrite nth_overflow by exact L. reflexivity.
Qed.

Lemma touches_iff net M : touches (net_filter net) M = true <-> covers net M.
Proof.
  unfold touches, covers. rewrite forallb_forall. split; intros H j Hj.
  - apply in_net_filter in Hj. apply H, existsb_exists in Hj as (row & Hr & Hn). exists row. split; [exact Hr|apply Qneb; exact Hn].
  - apply in_net_filter, H in Hj as (row & Hr & Hn). apply existsb_exists. exists row. split; [exact Hr|apply Qneb; exact Hn].
Qed.

Definition is_some {A} (o : option A) : bool := match o with Some _ => true | None => false end.

Lemma fill_groups {A} n (gs : list (list (option A))) l k : concat gs = map Some l ++ repeat None k -> k < n -> Forall (fun g => length g = n) gs ->
  Forall (fun g => exists x, In (Some x) g) gs.
Proof.
  revert l. induction gs as [|g gs IH]; intros l E Hk F; [constructor|]. inversion F as [|? ? Hg F']; subst.
  destruct g as [|o g]; [cbn in Hk; lia|]. destruct l as [|x l].
  - exfalso. cbn in E. assert (L : length ((o :: g) ++ concat gs) = k) by (change ((o :: g) ++ concat gs) with (o :: g ++ concat gs); rewrite E; apply repeat_length). rewrite app_length in L. lia.
  - constructor; [exists x; cbn in E; injection E as -> _; left; reflexivity|].
    destruct gs as [|g2 gs]; [constructor|]. set (m := length (o :: g)) in *.
    assert (Hlen : m <= length (x :: l)).
    { assert (L : length (concat ((o :: g) :: g2 :: gs)) = length (map Some (x :: l) ++ repeat (@None A) k)) by (rewrite E; reflexivity).
      inversion F' as [|? ? Hg2 _]; subst. cbn [concat] in L. rewrite !app_length, map_length, repeat_length in L. fold m in L. lia. }
    apply (IH (skipn m (x :: l))); [|exact Hk|exact F'].
    assert (S1 : skipn m (concat ((o :: g) :: g2 :: gs)) = concat (g2 :: gs)).
    { change (concat ((o :: g) :: g2 :: gs)) with ((o :: g) ++ concat (g2 :: gs)). rewrite skipn_app. unfold m. rewrite skipn_all, Nat.sub_diag. reflexivity. }
    rewrite <- S1, E, skipn_app, map_length, skipn_map. replace (m - length (x :: l)) with 0 by lia. reflexivity.
Qed.

Section Matrices.
Context {R : Type} (vec : R -> result (list Q)) (cands : list R).

Definition matrix_at (c : list nat) : result matrix := mapM (fun i => bind (index cands i) vec) c.
Definition the_combos (g : list (option (list nat))) : list (list nat) := flat_map (fun c => match c with Some (i :: l) => [i :: l] | _ => [] end) g.

Lemma the_combos_some l : Forall (fun c => c <> []) l -> the_combos (map Some l) = l.
Proof. induction 1 as [|c l Hc F IH]; [reflexivity|]. cbn. unfold the_combos in IH. rewrite IH. destruct c; [contradiction|reflexivity]. Qed.

Lemma the_combos_groups l k gs : Forall (fun c => c <> []) l -> concat gs = map Some l ++ repeat None k -> flat_map the_combos gs = l.
Proof.
  intros Hl E. assert (H : flat_map the_combos gs = the_combos (concat gs)).
  { unfold the_combos. clear. induction gs as [|g gs IH]; [reflexivity|]. cbn. rewrite IH, flat_map_app. reflexivity. }
  rewrite H, E. unfold the_combos. rewrite flat_map_app. fold the_combos. change (the_combos (map Some l) ++ the_combos (repeat None k) = l). rewrite (the_combos_some l Hl).
  replace (the_combos (repeat None k)) with (@nil (list nat)); [apply app_nil_r|]. clear. induction k; [reflexivity|exact IHk].
Qed.

Lemma mapM_flat {A B} (f : A -> result B) (ll : list (list A)) out : mapM f (concat ll) = Ok out <-> exists outs, mapM (mapM f) ll = Ok outs /\ concat outs = out.
Proof.
  revert out. induction ll as [|l ll IH]; intros out; cbn.
  - split; [intros H; injection H as <-; exists []; split; reflexivity|intros (o & H & <-); injection H as <-; reflexivity].
  - assert (A1 : forall l2, mapM f (l ++ l2) = match mapM f l with Ok a => match mapM f l2 with Ok b => Ok (a ++ b) | Err e => Err e end | Err e => Err e end).
    { intros l2. clear. induction l as [|x l IHl]; cbn; [destruct (mapM f l2); reflexivity|]. destruct (f x); [|reflexivity]. rewrite IHl. destruct (mapM f l); [|reflexivity]. destruct (mapM f l2); reflexivity. }
    rewrite A1. destruct (mapM f l) as [a|e]; [|split; [discriminate|intros (o & H & _); discriminate]].
    destruct (mapM f (concat ll)) as [b|e] eqn:Eb.
    + destruct (proj1 (IH b) eq_refl) as (o & Ho & Hc). rewrite Ho. split; [intros H; injection H as <-; exists (a :: o); split; [reflexivity|cbn; rewrite Hc; reflexivity]|].
      intros (o' & H & <-). injection H as <-. cbn. rewrite Hc. reflexivity.
    + split; [discriminate|]. intros (o' & H & _). destruct (mapM (mapM f) ll) as [o|] eqn:Eo; [|discriminate].
      exfalso. pose proof (proj2 (IH (concat o)) (ex_intro _ o (conj eq_refl eq_refl))). discriminate.
Qed.

Lemma combos_nonempty n N : 1 <= n -> Forall (fun c => c <> []) (combinations (seq 0 N) n).
Proof. intros Hn. apply Forall_forall. intros c Hc. apply combinations_length in Hc. intros ->. cbn in Hc. lia. Qed.

Lemma filter_concat {A} (f : A -> bool) ll : filter f (concat ll) = concat (map (filter f) ll).
Proof. induction ll as [|l ll IH]; [reflexivity|]. cbn. rewrite filter_app, IH. reflexivity. Qed.

Lemma size_ok wait filt chunk n Ms : valid_schedule wait -> 1 <= chunk -> 1 <= n <= length cands ->
  mapM matrix_at (combinations (seq 0 (length cands)) n) = Ok Ms ->
  exists out, matrices_of_size vec wait cands filt chunk n = Ok out /\ Permutation out (filter (touches filt) Ms).
Proof.
  intros Hw Hc Hn E. unfold matrices_of_size. set (cs := combinations (seq 0 (length cands)) n) in *.
  destruct (grouper_spec (map Some cs) chunk None Hc) as (gs & k & -> & Ecat & Hk & Hlen & _). cbn [bind].
  assert (Hne : Forall (fun c => c <> []) cs) by (apply combos_nonempty; lia).
  assert (Egs := the_combos_groups cs k gs Hne Ecat).
  rewrite flat_map_concat_map in Egs. rewrite <- Egs in E. apply mapM_flat in E as (outs & E & Eo).
  assert (Hg : mapM (create_comp_matrices vec cands filt) gs = Ok (map (filter (touches filt)) outs)).
  { rewrite mapM_over in E. apply mapM_Forall2 in E. apply mapM_Forall2.
    assert (Hs : Forall (fun g => exists c, In (Some c) g /\ c <> []) gs).
    { pose proof (fill_groups chunk gs cs k Ecat Hk Hlen) as Hs. apply Forall_forall. intros g Hgin. rewrite Forall_forall in Hs. destruct (Hs g Hgin) as (c & Hcin). exists c. split; [exact Hcin|].
      rewrite Forall_forall in Hne. apply Hne. assert (Hin : In (Some c) (concat gs)) by (apply in_concat; exists g; split; assumption).
      rewrite Ecat in Hin. apply in_app_or in Hin as [Hin|Hin]; [apply in_map_iff in Hin as (c' & Hc' & Hin); injection Hc' as ->; exact Hin|apply repeat_spec in Hin; discriminate]. }
    clear - E Hs. induction E as [|g o gs outs Hgo E IH]; [constructor|]. inversion Hs as [|? ? H1 H2]; subst. constructor; [|apply IH; exact H2].
    unfold create_comp_matrices. fold (the_combos g). cbv zeta. change (bind (mapM matrix_at (the_combos g)) (fun Ms => match Ms with [] => Err ValueError | _ => Ok (filter (touches filt) Ms) end) = Ok (filter (touches filt) o)). rewrite Hgo. cbn [bind].
    destruct o as [|M o]; [|reflexivity]. exfalso. apply mapM_Forall2, Forall2_length in Hgo. destruct H1 as (c & Hcin & Hcn).
    destruct c as [|i c]; [contradiction|]. assert (Hin : In (i :: c) (the_combos g)) by (apply in_flat_map; exists (Some (i :: c)); split; [exact Hcin|left; reflexivity]).
    destruct (the_combos g); [destruct Hin|discriminate Hgo]. }
  destruct (gather_ok wait _ gs _ Hw Hg) as (parts & -> & Hp). cbn [bind].
  destruct parts as [|p parts].
  - exfalso. apply Permutation_nil in Hp. destruct outs as [|o outs]; [|discriminate]. apply mapM_Forall2, Forall2_length in E. rewrite map_length in E. destruct gs; [|discriminate].
    cbn in Ecat. destruct cs as [|c cs'] eqn:Ecs; [|discriminate].
    assert (Hin : In (seq 0 n) cs).
    { unfold cs. apply in_combinations. split; [|apply seq_length]. replace (length cands) with (n + (length cands - n)) by lia. rewrite seq_app.
      clear. induction (seq 0 n) as [|x l IH]; [apply subseq_nil_l|]. apply subseq_take. exact IH. }
    rewrite Ecs in Hin. destruct Hin.
  - exists (concat (p :: parts)). split; [reflexivity|]. rewrite <- Eo, filter_concat. apply Permutation_concat. exact Hp.
Qed.

Lemma size_inv wait filt chunk n out : valid_schedule wait -> 1 <= n -> matrices_of_size vec wait cands filt chunk n = Ok out ->
  1 <= chunk /\ n <= length cands /\ exists Ms, mapM matrix_at (combinations (seq 0 (length cands)) n) = Ok Ms /\ Permutation out (filter (touches filt) Ms).
Proof.
  intros Hw Hn E. destruct chunk as [|chunk]; [cbn in E; discriminate|].
  assert (HN : n <= length cands).
  { destruct (Nat.le_gt_cases n (length cands)) as [L|L]; [exact L|]. exfalso. unfold matrices_of_size in E.
    assert (Hnil : combinations (seq 0 (length cands)) n = []).
    { destruct (combinations (seq 0 (length cands)) n) as [|c cs] eqn:Ec; [reflexivity|]. exfalso. assert (Hin : In c (combinations (seq 0 (length cands)) n)) by (rewrite Ec; left; reflexivity).
      apply in_combinations in Hin as [Hs Hl]. apply subseq_length in Hs. rewrite seq_length in Hs. lia. }
    rewrite Hnil in E. cbn in E. discriminate. }
  split; [lia|]. split; [exact HN|].
  assert (exists Ms, mapM matrix_at (combinations (seq 0 (length cands)) n) = Ok Ms) as (Ms & HMs).
  { unfold matrices_of_size in E. set (cs := combinations (seq 0 (length cands)) n) in *. assert (Hc : 1 <= S chunk) by lia.
    destruct (grouper_spec (map Some cs) (S chunk) None Hc) as (gs & k & Eg & Ecat & _). rewrite Eg in E. cbn [bind] in E.
    destruct (gather wait (create_comp_matrices vec cands filt) gs) as [parts|] eqn:Egat; [|discriminate]. apply gather_inv in Egat as (vs & Hvs & _); [|exact Hw].
    assert (Hne : Forall (fun c => c <> []) cs) by (apply combos_nonempty; lia).
    pose proof (the_combos_groups cs k gs Hne Ecat) as Egs. rewrite flat_map_concat_map in Egs. rewrite <- Egs.
    apply mapM_Forall2 in Hvs. assert (exists outs, mapM (mapM matrix_at) (map the_combos gs) = Ok outs) as (outs & Ho).
    { clear - Hvs. induction Hvs as [|g v gs vs Hg Hvs IH]; [exists []; reflexivity|]. destruct IH as (outs & IH). cbn [map mapM]. unfold create_comp_matrices in Hg. fold (the_combos g) in Hg.
      cbv zeta in Hg. change (bind (mapM matrix_at (the_combos g)) (fun Ms => match Ms with [] => Err ValueError | _ => Ok (filter (touches filt) Ms) end) = Ok v) in Hg. destruct (mapM matrix_at (the_combos g)) as [o|]; [|discriminate]. rewrite IH. exists (o :: outs). reflexivity. }
    exists (concat outs). apply mapM_flat. exists outs. split; [exact Ho|reflexivity]. }
  exists Ms. split; [exact HMs|]. assert (Hc : 1 <= S chunk) by lia. destruct (size_ok wait filt (S chunk) n Ms Hw Hc (conj Hn HN) HMs) as (out' & E' & Hp).
  rewrite E in E'. injection E' as ->. exact Hp.
Qed.

(* all vectors known *)
Lemma matrix_at_rows vs c : Forall2 (fun r v => vec r = Ok v) cands vs -> Forall (fun i => i < length cands) c -> matrix_at c = Ok (pick [] vs c).
Proof.
  intros HF Hc. unfold matrix_at, pick. apply mapM_ok. intros i Hi. rewrite Forall_forall in Hc. specialize (Hc i Hi). unfold index.
  destruct (nth_error cands i) as [r|] eqn:E; [|apply nth_error_None in E; lia]. cbn [bind].
  clear - HF E. revert i E. induction HF as [|x y l1 l2 H HF IH]; intros [|i] E; cbn in *; try discriminate; [injection E as <-; exact H|apply IH; exact E].
Qed.
End Matrices.
