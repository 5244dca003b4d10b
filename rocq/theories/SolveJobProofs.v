From Verif Require Import Prelude NumQ SumQ ListFacts UtilsModel UtilsSpec UtilsProofs ReactionModel ReactionSpec ReactionBaseProofs ReactionBalanceProofs PathModel PathSpec PathProofs
  SolverModel SolverSpec SolverProofs SolverTopProofs SolverSolveProofs SolverMoreProofs SolverFinalProofs FlowModel SolveJobModel SolveJobSpec.
From Verif Require EntrySetModel EntrySetSpec EntrySetProofs RxnSetBaseProofs.
Open Scope nat_scope.

(* --- rows and turnover --- *)
Lemma set_nth_get {V} (d : V) : forall i v l l', set_nth i v l = Ok l' -> i < length l /\ forall j, nth j l' d = if Nat.eqb i j then v else nth j l d.
Proof.
  induction i as [|i IH]; intros v [|x l] l' H; cbn in H; try discriminate.
  - injection H as <-. split; [cbn; lia|]. intros [|j]; reflexivity.
  - destruct (set_nth i v l) as [m|] eqn:E; [|discriminate]. injection H as <-. destruct (IH _ _ _ E) as (L & G). split; [cbn; lia|]. intros [|j]; [reflexivity|]. cbn. apply G.
Qed.

Definition amounts (l : list (entry * Q)) (i : nat) : Q := sumQ (fun ek => if Nat.eqb (e_id (fst ek)) i then snd ek else 0%Q) l.

Lemma amounts_out l i : ~ In i (map (fun ek => e_id (fst ek)) l) -> (amounts l i == 0)%Q.
Proof.
  intros N. apply sumQ_all_zero. intros ek I. destruct (Nat.eqb_spec (e_id (fst ek)) i) as [E|]; [|reflexivity]. exfalso. apply N. rewrite <- E. apply (in_map (fun ek => e_id (fst ek))). exact I.
Qed.

Lemma fill_amounts : forall (l : list (entry * Q)) w v, NoDup (map (fun ek => e_id (fst ek)) l) ->
  fold_left (fun acc ek => bind acc (set_nth (e_id (fst ek)) (snd ek))) l (Ok w) = Ok v ->
  (forall ek, In ek l -> e_id (fst ek) < length w) /\ length v = length w
  /\ forall j, (In j (map (fun ek => e_id (fst ek)) l) -> (nth j v 0 == amounts l j)%Q) /\ (~ In j (map (fun ek => e_id (fst ek)) l) -> nth j v 0%Q = nth j w 0%Q).
Proof.
  induction l as [|[e k] l IH]; intros w v N H; cbn [fold_left bind fst snd] in H.
  - injection H as <-. split; [intros ek []|]. split; [reflexivity|]. intros j. split; [intros []|reflexivity].
  - inversion N as [|? ? Hn N']; subst. destruct (set_nth (e_id e) k w) as [w'|x] eqn:E.
    2:{ exfalso. clear - H. induction l as [|a l IH]; cbn in H; [discriminate|apply IH; exact H]. }
    pose proof (set_nth_length _ _ _ _ E) as L. destruct (set_nth_get 0%Q _ _ _ _ E) as (Li & G). destruct (IH w' v N' H) as (B & L' & A).
    split; [intros ek [<-|I]; [exact Li|rewrite <- L; apply B; exact I]|]. split; [congruence|]. intros j. destruct (A j) as (A1 & A2). split.
    + intros J. unfold amounts. rewrite sumQ_cons. fold (amounts l j). cbn [fst snd]. destruct (Nat.eqb_spec (e_id e) j) as [<-|Nj].
      * rewrite A2 by exact Hn. rewrite G, Nat.eqb_refl, (amounts_out l _ Hn). ring.
      * cbn [map fst] in J. destruct J as [J|J]; [contradiction|]. rewrite (A1 J). ring.
    + intros J. rewrite A2 by (intros I; apply J; right; exact I). rewrite G. destruct (Nat.eqb_spec (e_id e) j) as [<-|_]; [|reflexivity]. exfalso. apply J. left. reflexivity.
Qed.

Lemma nth_repeat0 n j : nth j (repeat 0%Q n) 0%Q = 0%Q.
Proof. revert j. induction n as [|n IH]; intros [|j]; cbn; try reflexivity. apply IH. Qed.

Lemma vector_amounts c n v : NoDup (map e_id (c_entries c)) -> get_entry_idx_vector c n = Ok v ->
  forall i, (nth i v 0 == amounts (combine (c_entries c) (coeffs (c_base c))) i)%Q.
Proof.
  unfold get_entry_idx_vector. intros N H. destruct (Nat.eqb_spec (length (c_entries c)) (length (coeffs (c_base c)))) as [L|]; [|discriminate]. cbn [negb] in H.
  assert (E : map (fun ek => e_id (fst ek)) (combine (c_entries c) (coeffs (c_base c))) = map e_id (c_entries c)).
  { rewrite <- (map_map fst e_id), combine_fst by exact L. reflexivity. }
  rewrite <- E in N. destruct (fill_amounts _ _ _ N H) as (_ & _ & A). intros i. destruct (A i) as (A1 & A2).
  destruct (in_dec Nat.eq_dec i (map (fun ek => e_id (fst ek)) (combine (c_entries c) (coeffs (c_base c))))) as [I|I]; [exact (A1 I)|].
  rewrite A2 by exact I. rewrite nth_repeat0, amounts_out by exact I. reflexivity.
Qed.

Section Job.
Variable C : chem.
Hypothesis W : wf_chem C.
Variable lsq : list nat -> list nat -> list nat -> list Q.
Variable rank : list nat -> list nat -> nat.
Hypothesis Hlsq : forall r p c, length (lsq r p c) = length r + length p.

(* --- the maker --- *)
Theorem constructed mk : let pre := sm_precursors mk in let tar := sm_targets mk in length pre + length tar <> 1 ->
  ((exists b, post_init C lsq rank mk = Ok b) <-> exists c, tried (length pre) (length tar) (rank pre tar) c
     /\ forall e, (Qabs (net C (combine (pre ++ tar) (lsq pre tar c)) e) <= 1 # 100000000)%Q)
  /\ ((forall b, post_init C lsq rank mk <> Ok b) -> post_init C lsq rank mk = Err ValueError).
Proof.
  intros pre tar L. unfold post_init. fold pre tar. destruct (basic_balance C pre tar (lsq pre tar) (rank pre tar)) as [b|x] eqn:E.
  - pose proof (balance_sound C W pre tar _ _ b (Hlsq pre tar) E) as (_ & _ & S1 & S2). cbn [bind]. destruct (balanced b) eqn:B.
    + split; [|intros H; exfalso; exact (H b eq_refl)]. split; [|intros _; exists b; reflexivity]. intros _.
      unfold basic_balance in E. destruct (balance_coeffs C pre tar (lsq pre tar) (rank pre tar)) as [ks low] eqn:K. destruct low as [n|]; [|injection E as <-; discriminate].
      destruct (loop_spec C pre tar (lsq pre tar) _ _ _ _ _ K) as (_ & H2 & _). destruct (H2 n eq_refl) as [[_ X]|(c & Hin & -> & Hc & _)]; [discriminate|].
      exists c. split; [apply in_constraint_list; exact Hin|]. apply conserves_iff; [exact W|rewrite app_length, Hlsq; reflexivity|exact Hc].
    + split; [|reflexivity]. split; [intros (b' & X); discriminate|]. intros (c & T & Hc). exfalso.
      destruct (balance_complete C W pre tar (lsq pre tar) (rank pre tar) c (Hlsq pre tar) L T Hc) as (r & n & E' & B' & _). congruence.
  - exfalso. unfold basic_balance in E. destruct (balance_coeffs C pre tar (lsq pre tar) (rank pre tar)) as [ks [n|]]; [|discriminate].
    rewrite app_length in E. destruct (Nat.eqb_spec (length pre + length tar) 1); [contradiction|discriminate].
Qed.

Lemma signs_split ks n m : length ks = n + m -> wrong_signs n ks = 0 -> exists k1 k2, ks = k1 ++ k2 /\ length k1 = n /\ length k2 = m
  /\ Forall (fun k => (k <= -(1 # 1000000))%Q) k1 /\ Forall (fun k => (1 # 1000000 <= k)%Q) k2.
Proof.
  intros L H. exists (firstn n ks), (skipn n ks). split; [symmetry; apply firstn_skipn|]. assert (L1 : length (firstn n ks) = n) by (rewrite firstn_length; lia). split; [exact L1|].
  split; [rewrite skipn_length; lia|]. pose proof (wrong_signs_0 n ks H) as S. split; apply Forall_forall; intros k I; apply In_nth_error in I as (i & Hi).
  - assert (Li : i < n) by (rewrite <- L1; apply nth_error_Some; congruence). apply (S i); [|exact Li]. rewrite <- (firstn_skipn n ks), nth_error_app1 by lia. exact Hi.
  - apply (S (n + i)); [|lia]. rewrite <- (firstn_skipn n ks), nth_error_app2 by lia. rewrite L1. replace (n + i - n) with i by lia. exact Hi.
Qed.

Lemma combine_app2 {A B} (a1 a2 : list A) (b1 b2 : list B) : length a1 = length b1 -> combine (a1 ++ a2) (b1 ++ b2) = combine a1 b1 ++ combine a2 b2.
Proof. revert b1. induction a1 as [|x a1 IH]; intros [|y b1] L; try discriminate; [reflexivity|]. cbn. rewrite IH by (cbn in L; lia). reflexivity. Qed.

Lemma filter_all {A} (p : A -> bool) l : (forall x, In x l -> p x = true) -> filter p l = l.
Proof. induction l as [|x l IH]; intros H; [reflexivity|]. cbn. rewrite (H x) by (left; reflexivity). rewrite IH; [reflexivity|]. intros y I. apply H. right. exact I. Qed.
Lemma filter_none {A} (p : A -> bool) l : (forall x, In x l -> p x = false) -> filter p l = [].
Proof. induction l as [|x l IH]; intros H; [reflexivity|]. cbn. rewrite (H x) by (left; reflexivity). apply IH. intros y I. apply H. right. exact I. Qed.

Lemma below0 k : (k <= -(1 # 1000000))%Q -> Qlt_bool k 0 = true /\ Qlt_bool 0 k = false.
Proof. intros H. split; [apply Qlt_bool_iff'|apply Qlt_bool_false]; [eapply Qle_lt_trans; [exact H|reflexivity]|eapply Qle_trans; [exact H|discriminate]]. Qed.
Lemma above0 k : (1 # 1000000 <= k)%Q -> Qlt_bool 0 k = true /\ Qlt_bool k 0 = false.
Proof. intros H. split; [apply Qlt_bool_iff'|apply Qlt_bool_false]; [eapply Qlt_le_trans; [|exact H]; reflexivity|eapply Qle_trans; [|exact H]; discriminate]. Qed.

Lemma sides cs1 cs2 k1 k2 fl n : NoDup (cs1 ++ cs2) -> length k1 = length cs1 -> length k2 = length cs2 ->
  Forall (fun k => (k <= -(1 # 1000000))%Q) k1 -> Forall (fun k => (1 # 1000000 <= k)%Q) k2 ->
  reactants (basic_init C (cs1 ++ cs2) (k1 ++ k2) fl n) = cs1 /\ products (basic_init C (cs1 ++ cs2) (k1 ++ k2) fl n) = cs2.
Proof.
  intros N L1 L2 F1 F2. rewrite Forall_forall in F1, F2. unfold reactants, products. rewrite reactant_coeffs_nodup, product_coeffs_nodup by (try exact N; rewrite !app_length; lia).
  rewrite combine_app2 by lia. rewrite !filter_app. rewrite (filter_all _ (combine cs1 k1)), (filter_none _ (combine cs2 k2)).
  - rewrite (filter_none _ (combine cs1 k1)), (filter_all _ (combine cs2 k2)).
    + rewrite app_nil_r. cbn [app]. split; apply combine_fst; lia.
    + intros [c k] I. apply in_combine_r in I. apply above0, F2. exact I.
    + intros [c k] I. apply in_combine_r in I. apply below0, F1. exact I.
  - intros [c k] I. apply in_combine_r in I. apply above0, F2. exact I.
  - intros [c k] I. apply in_combine_r in I. apply below0, F1. exact I.
Qed.

Variable ents : list entry.
Variable members : list nat.
Hypothesis Hid : forall i e, nth_error ents i = Some e -> e_id e = i.
Hypothesis Hmem : Permutation members (seq 0 (length ents)).

Lemma in_members i : In i members <-> i < length ents.
Proof. split; intros H; [apply (Permutation_in _ Hmem), in_seq in H; lia|apply (Permutation_in _ (Permutation_sym Hmem)), in_seq; lia]. Qed.
Lemma entry_at_nth i : i < length ents -> nth_error ents i = Some (entry_at ents i).
Proof. intros H. apply nth_error_nth'. exact H. Qed.

Lemma ground_spec f e : ground C ents members f = Ok e -> lowest_entry C ents f e /\ entry_at ents (e_id e) = e /\ e_id e < length ents.
Proof.
  unfold ground. destruct (EntrySetProofs.min_entry_spec (formula_at C ents) (epa_at C ents) members (red C f)) as (A & _).
  destruct (EntrySetModel.get_min_entry _ _ members (red C f)) as [i|]; [|discriminate]. cbn [bind]. intros [= <-]. destruct (A i eq_refl) as (F & I & G).
  apply in_members in I. pose proof (entry_at_nth i I) as Ei. split; [|rewrite (Hid _ _ Ei); split; [reflexivity|exact I]].
  split; [apply nth_error_In with i; exact Ei|]. split; [exact F|]. intros e' I' F'. apply In_nth_error in I' as (j & Ej).
  assert (Lj : j < length ents) by (apply nth_error_Some; congruence). assert (Aj : entry_at ents j = e') by (apply nth_error_nth; exact Ej).
  rewrite <- Aj. apply (G j); [apply in_members; exact Lj|]. unfold formula_at in *. rewrite Aj. congruence.
Qed.

Lemma ground_all fs es : mapM (ground C ents members) fs = Ok es -> Forall2 (lowest_entry C ents) fs es /\ Forall (fun e => entry_at ents (e_id e) = e /\ e_id e < length ents) es.
Proof.
  intros H. apply RxnSetBaseProofs.mapM_Forall2 in H. induction H as [|f e fs es H _ (IH1 & IH2)]; [split; constructor|]. apply ground_spec in H as (H1 & H2). split; constructor; assumption.
Qed.

Lemma comps_of fs es : Forall2 (lowest_entry C ents) fs es -> (forall f, In f fs -> red C f = f) -> map (fun e => red C (e_comp e)) es = fs.
Proof.
  induction 1 as [|f e fs es (_ & F & _) _ IH]; intros R; [reflexivity|]. cbn. rewrite F, (R f) by (left; reflexivity). rewrite IH; [reflexivity|]. intros f' I. apply R. right. exact I.
Qed.

Lemma NoDup_of_map {A B} (f : A -> B) l : NoDup (map f l) -> NoDup l.
Proof. induction l as [|x l IH]; intros N; [constructor|]. inversion N as [|? ? Hn N']; subst. constructor; [intros I; apply Hn, in_map; exact I|apply IH; exact N']. Qed.

(* the net reaction of the job *)
Lemma net_rxn_spec mk b net0 : let pre := sm_precursors mk in let tar := sm_targets mk in
  NoDup (pre ++ tar) -> (forall f, In f (pre ++ tar) -> red C f = f) ->
  post_init C lsq rank mk = Ok b -> num_errors b = Some 0 -> net_rxn_of C lsq rank ents members (sm_open mk) (sm_chempot mk) b = Ok net0 ->
  exists res pes ks kp, Forall2 (lowest_entry C ents) pre res /\ Forall2 (lowest_entry C ents) tar pes
  /\ length ks = length pre /\ length kp = length tar /\ parts net0 = combine (res ++ pes) (ks ++ kp)
  /\ Forall (fun k => (k <= -(1 # 1000000))%Q) ks /\ Forall (fun k => (1 # 1000000 <= k)%Q) kp
  /\ (forall e, (Qabs (net C (combine (pre ++ tar) (ks ++ kp)) e) <= 1 # 100000000)%Q)
  /\ environment (sm_open mk) (sm_chempot mk) net0
  /\ (exists c, computed_of net0 = Some c /\ c_entries c = res ++ pes /\ coeffs (c_base c) = ks ++ kp /\ NoDup (map e_id (c_entries c)))
  /\ reactants (base_of net0) = pre /\ precursor_comps net0 = map e_comp res.
Proof.
  intros pre tar N R P Z H. unfold post_init in P. fold pre tar in P. destruct (basic_balance C pre tar (lsq pre tar) (rank pre tar)) as [b'|] eqn:B; [|discriminate]. cbn [bind] in P.
  destruct (balanced b') eqn:Bb; [|discriminate]. injection P as ->. unfold basic_balance in B.
  destruct (balance_coeffs C pre tar (lsq pre tar) (rank pre tar)) as [kk low] eqn:K. pose proof (balance_coeffs_spec C W pre tar _ _ kk low (Hlsq pre tar) K) as (Lk & _ & K2).
  destruct low as [n|]; [|injection B as <-; discriminate]. destruct (Nat.eqb (length (pre ++ tar)) 1) eqn:L1; [discriminate|]. injection B as <-. cbn in Z. injection Z as ->.
  destruct (K2 0 eq_refl) as (Kc & Kw & _). destruct (signs_split kk _ _ Lk Kw) as (ks & kp & -> & Ls & Lp & Fs & Fp).
  destruct (sides pre tar ks kp (Some true) (Some 0) N Ls Lp Fs Fp) as (Sr & Sp). unfold net_rxn_of in H. rewrite Sr, Sp in H.
  destruct (mapM (ground C ents members) pre) as [res|] eqn:E1; [|discriminate]. destruct (mapM (ground C ents members) tar) as [pes|] eqn:E2; [|discriminate]. cbn [bind] in H. cbv zeta in H.
  apply ground_all in E1 as (G1 & I1). apply ground_all in E2 as (G2 & I2).
  assert (Rp : forall f, In f pre -> red C f = f) by (intros f I; apply R, in_app_iff; left; exact I). assert (Rt : forall f, In f tar -> red C f = f) by (intros f I; apply R, in_app_iff; right; exact I).
  pose proof (comps_of _ _ G1 Rp) as Cr. pose proof (comps_of _ _ G2 Rt) as Ct. unfold computed_balance in H. rewrite Cr, Ct, K in H.
  pose proof (Forall2_length _ _ _ G1) as Lr. pose proof (Forall2_length _ _ _ G2) as Lt. rewrite app_length in L1. rewrite <- Lr, <- Lt, L1 in H. cbn [bind] in H. injection H as <-.
  assert (Eb : c_base (computed_init C (res ++ pes) (ks ++ kp) (Some 0)) = basic_init C (pre ++ tar) (ks ++ kp) None (Some 0)) by (unfold computed_init; cbn [c_base]; rewrite map_app, Cr, Ct; reflexivity).
  assert (Nid : NoDup (map e_id (res ++ pes))).
  { apply (NoDup_of_map (fun i => red C (e_comp (entry_at ents i)))). rewrite map_map.
    assert (Em : map (fun e => red C (e_comp (entry_at ents (e_id e)))) (res ++ pes) = map (fun e => red C (e_comp e)) (res ++ pes)).
    { apply map_ext_in. intros e I. rewrite Forall_forall in I1, I2. apply in_app_iff in I as [I|I]; [rewrite (proj1 (I1 _ I))|rewrite (proj1 (I2 _ I))]; reflexivity. }
    rewrite Em, map_app, Cr, Ct. exact N. }
  destruct (sides pre tar ks kp None (Some 0) N Ls Lp Fs Fp) as (Sr' & _).
  assert (Lrk : length res = length ks) by congruence. assert (Ltk : length pes = length kp) by congruence.
  assert (Pc : map e_comp (reactant_entries (computed_init C (res ++ pes) (ks ++ kp) (Some 0))) = map e_comp res).
  { unfold reactant_entries. cbn [computed_init c_entries c_base basic_init coeffs]. rewrite combine_app2 by lia. rewrite filter_app, (filter_all _ (combine res ks)), (filter_none _ (combine pes kp)), app_nil_r; [rewrite combine_fst by exact Lrk; reflexivity| |];
      intros [e k] I; apply in_combine_r in I; rewrite Forall_forall in Fs, Fp; [apply above0, Fp|apply below0, Fs]; exact I. }
  exists res, pes, ks, kp. split; [exact G1|]. split; [exact G2|]. split; [exact Ls|]. split; [exact Lp|].
  split; [destruct (sm_open mk); reflexivity|]. split; [exact Fs|]. split; [exact Fp|]. split; [exact Kc|]. split; [destruct (sm_open mk); cbn; [reflexivity|exact I]|].
  split; [|split].
  - exists (computed_init C (res ++ pes) (ks ++ kp) (Some 0)). split; [destruct (sm_open mk); reflexivity|]. split; [reflexivity|]. split; [reflexivity|exact Nid].
  - destruct (sm_open mk); cbn [base_of o_base]; rewrite Eb; exact Sr'.
  - destruct (sm_open mk); cbn [precursor_comps computed_of o_base]; exact Pc.
Qed.

(* --- rebuilt reactions --- *)
Lemma vector_turnover r c v : computed_of r = Some c -> NoDup (map e_id (c_entries c)) -> vector_of ents r = Ok v -> forall i, (nth i v 0 == turnover r i)%Q.
Proof.
  intros E N H i. unfold vector_of in H. rewrite E in H. pose proof (vector_amounts c _ _ N H i) as V. destruct r as [b|c'|o]; cbn in E; [discriminate| |]; injection E as <-; exact V.
Qed.

Lemma rebuilt_nodup row : length row = length ents -> NoDup (map e_id (c_entries (rebuild_computed C ents (large row)))).
Proof.
  intros L. unfold rebuild_computed, computed_init. cbn [c_entries]. rewrite map_map.
  assert (Hr : forall ic, In ic (large row) -> fst ic < length ents).
  { intros [i c] Hin. unfold large in Hin. apply filter_In in Hin as [Hin _]. apply in_combine_l, in_seq in Hin. cbn. lia. }
  assert (E : map (fun ic => e_id (nth (fst ic) ents {| e_id := 0; e_comp := 0; e_energy := 0%Q |})) (large row) = map fst (large row)).
  { apply map_ext_in. intros ic I. apply Hid. apply nth_error_nth'. apply Hr. exact I. }
  rewrite E. unfold large. apply map_fst_filter_nodup. rewrite combine_fst by (rewrite seq_length; reflexivity). apply seq_NoDup.
Qed.

Lemma computed_rebuilt o mu nz : computed_of (rebuilt C ents o mu nz) = Some (rebuild_computed C ents nz).
Proof. destruct o; reflexivity. Qed.
Lemma rebuilt_environment o mu nz : environment o mu (rebuilt C ents o mu nz).
Proof. destruct o; [reflexivity|exact I]. Qed.

Variable req : rxn -> rxn -> bool.
Variable pinv : matrix -> list Q -> list Q.
Variable waits1 waits2 : nat -> nat -> list nat -> list nat * list nat.
Variable uniq : list (path rxn) -> list (path rxn).
Variable clean : list rxn -> list rxn.
Variable cost : rxn -> Q.
Variable inter : list entry -> list rxn -> rxn -> result (list rxn).
Variable chunk cpus : nat.
Hypothesis Hw1 : forall k, valid_schedule (waits1 k).
Hypothesis Hw2 : forall k, valid_schedule (waits2 k).
Hypothesis Hpinv : forall M v, length (pinv M v) = length M.
Hypothesis Huniq : forall l p, In p (uniq l) -> In p l.

Lemma weighted_overall rs rows : Forall2 (fun r row => forall i, (nth i row 0 == turnover r i)%Q) rs rows -> forall ms i, (weighted ms rows i == overall ms rs i)%Q.
Proof.
  assert (G : forall ms rows i, weighted ms rows i = sumQ (fun mr => fst mr * nth i (snd mr) 0)%Q (combine ms rows)) by (intros ms rows0 i; unfold weighted; apply Qsum_map).
  induction 1 as [|r row rs rows H _ IH]; intros [|m ms] i; try reflexivity. specialize (IH ms i). rewrite G in *. unfold overall in *. cbn [combine]. rewrite !sumQ_cons. cbn [fst snd].
  rewrite IH, (H i). reflexivity.
Qed.

Theorem job_pathways mk max find fi pathways b net0 paths : let pre := sm_precursors mk in let tar := sm_targets mk in
  NoDup (pre ++ tar) -> (forall f, In f (pre ++ tar) -> red C f = f) ->
  post_init C lsq rank mk = Ok b -> num_errors b = Some 0 ->
  solve_job C lsq rank ents members req pinv waits1 waits2 uniq clean cost inter chunk cpus mk max find fi pathways = Ok (net0, paths) ->
  (exists res pes ks kp, Forall2 (lowest_entry C ents) pre res /\ Forall2 (lowest_entry C ents) tar pes
   /\ length ks = length pre /\ length kp = length tar /\ parts net0 = combine (res ++ pes) (ks ++ kp)
   /\ Forall (fun k => (k <= -(1 # 1000000))%Q) ks /\ Forall (fun k => (1 # 1000000 <= k)%Q) kp
   /\ (forall e, (Qabs (net C (combine (pre ++ tar) (ks ++ kp)) e) <= 1 # 100000000)%Q))
  /\ environment (sm_open mk) (sm_chempot mk) net0
  /\ (exists avs, Forall2 (fun p a => average_cost p = Ok a) paths avs /\ StronglySorted Qle avs)
  /\ forall p, In p paths -> exists ms, p_coeffs p = Some ms /\ length ms = length (p_rxns p) /\ 1 <= length ms <= max /\ Forall (fun m => (1 # 1000000 <= m)%Q) ms
     /\ Forall (environment (sm_open mk) (sm_chempot mk)) (p_rxns p)
     /\ forall i, (Qabs (overall ms (p_rxns p) i - turnover net0 i) <= (1 # 100000000) * (1 + Qsum ms) + (1 # 100000) * Qabs (turnover net0 i))%Q.
Proof.
  intros pre tar N R P Z H. unfold solve_job in H. rewrite P in H. cbn [bind] in H. cbv zeta in H.
  destruct (net_rxn_of C lsq rank ents members (sm_open mk) (sm_chempot mk) b) as [net1|] eqn:En; [|discriminate]. cbn [bind] in H.
  destruct (negb (balanced (base_of net1))); [discriminate|]. destruct (if find then _ else _) as [rxns|]; [|discriminate]. cbn [bind] in H.
  match type of H with bind ?s _ = _ => destruct s as [ps|] eqn:Es; [|discriminate] end. cbn [bind] in H. assert (net1 = net0 /\ ps = paths) as (-> & ->) by (split; congruence). clear H.
  destruct (net_rxn_spec mk b net0 N R P Z En) as (res & pes & ks & kp & G1 & G2 & L1 & L2 & Ep & F1 & F2 & Fc & Fe & (c & Ec & _ & _ & Nc) & _).
  split; [exists res, pes, ks, kp; repeat (split; [assumption|]); exact Fc|]. split; [exact Fe|].
  destruct (solve_sound req (vector_of ents) _ _ _ _ _ pinv waits1 waits2 uniq _ rxns net0 chunk None cpus max fi Hw1 Hw2 Hpinv true paths Huniq Es) as (Hs & Hp).
  split; [exact Hs|]. intros p Ip.
  destruct (own_sum req (vector_of ents) (rebuilt C ents (sm_open mk) (sm_chempot mk)) (fun r => reactants (base_of r)) (fun r => products (base_of r)) (fun r => comps (base_of r)) precursor_comps
     pinv waits1 waits2 uniq (clean (map fst rxns)) rxns net0 chunk None cpus max fi Hw1 Hw2 Hpinv true paths Huniq) with (2 := Es) (p := p) as (rows & netv & ms & A1 & A2 & A3 & A4 & A5 & A6 & A7); [|exact Ip|].
  { intros r row Hr _. exists (trim row). split; [|apply trim_trimmed]. unfold vector_of. rewrite computed_rebuilt. unfold vector_of in Hr. destruct (computed_of r); [|discriminate].
    apply rebuilt_row; [apply vector_length in Hr; exact Hr|exact Hid]. }
  assert (Lrows : length rows = length (p_rxns p)) by (symmetry; apply (Forall2_length _ _ _ A2)).
  assert (Lv : length netv = length ents) by (unfold vector_of in A1; rewrite Ec in A1; apply vector_length in A1; exact A1).
  assert (Form : Forall (fun r => exists row, length row = length ents /\ r = rebuilt C ents (sm_open mk) (sm_chempot mk) (large row)) (p_rxns p)).
  { destruct (Hp p Ip) as (steps & rows0 & netv0 & ms0 & B1 & _ & _ & B2 & _ & _ & _ & B3 & _). clear - B2 B3.
    apply Forall_forall. intros r I. destruct (Forall2_In_l _ _ _ _ B3 I) as (row & Irow & _ & ->). exists row. split; [|reflexivity].
    destruct (Forall2_In_r _ _ _ _ B2 Irow) as (s & _ & Hv). unfold vector_of in Hv. destruct (computed_of (fst s)); [|discriminate]. apply vector_length in Hv. exact Hv. }
  assert (T : Forall2 (fun r row => forall i, (nth i row 0 == turnover r i)%Q) (p_rxns p) rows).
  { clear - A2 Form Hid. induction A2 as [|r row l1 l2 H _ IH]; [constructor|]. inversion Form as [|? ? (w & Lw & ->) Form']; subst. constructor; [|apply IH; exact Form'].
    apply (vector_turnover _ (rebuild_computed C ents (large w))); [apply computed_rebuilt|apply rebuilt_nodup; exact Lw|exact H]. }
  exists ms. split; [exact A3|]. split; [congruence|]. split; [rewrite A4; exact A5|]. split; [exact A6|]. split.
  - apply Forall_forall. intros r I. rewrite Forall_forall in Form. destruct (Form r I) as (w & _ & ->). apply rebuilt_environment.
  - intros i. pose proof (vector_turnover net0 c netv Ec Nc A1 i) as Tn. rewrite <- Tn, <- (weighted_overall _ _ T). destruct (Nat.lt_ge_cases i (length netv)) as [Li|Li]; [exact (A7 i Li)|].
    rewrite (nth_overflow netv) by exact Li. assert (Zw : (weighted ms rows i == 0)%Q).
    { unfold weighted. rewrite Qsum_map. apply sumQ_all_zero. intros [m row] I. apply in_combine_r in I. destruct (Forall2_In_r _ _ _ _ A2 I) as (r & Ir & Hr).
      cbn [fst snd]. rewrite nth_overflow; [ring|]. unfold vector_of in Hr. destruct (computed_of r); [|discriminate]. apply vector_length in Hr. rewrite Hr, <- Lv. exact Li. }
    rewrite Zw. setoid_replace (0 - 0)%Q with 0%Q by ring. change (Qabs 0) with 0%Q. rewrite Qmult_0_r, Qplus_0_r. apply Qmult_le_0_compat; [discriminate|].
    apply (Qle_trans _ (0 + 0)); [discriminate|]. apply Qplus_le_compat; [discriminate|]. rewrite Qsum_sumQ. apply sumQ_nonneg. intros m I. rewrite Forall_forall in A6. apply A6 in I. eapply Qle_trans; [|exact I]; discriminate.
Qed.

(* --- the filter for interdependent pathways --- *)
Hypothesis Hreq : forall a b, req a b = true <-> a = b.
Notation uses := (fun r : rxn => reactants (base_of r)).
Notation makes := (fun r : rxn => products (base_of r)).

Lemma same_comps pre es : Forall2 (lowest_entry C ents) pre es -> (forall e, In e ents -> In (red C (e_comp e)) pre -> red C (e_comp e) = e_comp e) -> (forall f, In f pre -> red C f = f) -> map e_comp es = pre.
Proof.
  intros G He Hr. transitivity (map (fun e => red C (e_comp e)) es); [|exact (comps_of _ _ G Hr)]. apply map_ext_in. intros e I. symmetry. destruct (Forall2_In_r _ _ _ _ G I) as (f & If & Ie & F & _). apply He; [exact Ie|]. rewrite F, Hr by exact If. exact If.
Qed.

Theorem job_filter mk max find pathways b net0 kept all rhash : let pre := sm_precursors mk in let tar := sm_targets mk in
  NoDup (pre ++ tar) -> (forall f, In f (pre ++ tar) -> red C f = f) -> (forall e, In e ents -> In (red C (e_comp e)) pre -> red C (e_comp e) = e_comp e) ->
  post_init C lsq rank mk = Ok b -> num_errors b = Some 0 -> set_members req rhash uniq ->
  solve_job C lsq rank ents members req pinv waits1 waits2 uniq clean cost inter chunk cpus mk max find true pathways = Ok (net0, kept) ->
  solve_job C lsq rank ents members req pinv waits1 waits2 uniq clean cost inter chunk cpus mk max find false pathways = Ok (net0, all) ->
  (forall p, In p kept -> ~ circular uses makes pre p)
  /\ forall p, In p all -> ~ circular uses makes pre p -> exists q, In q kept /\ p_coeffs q = p_coeffs p /\ p_rxns q = p_rxns p.
Proof.
  intros pre tar N R Hred P Z Hset Hk Ha. unfold solve_job in Hk, Ha. rewrite P in Hk, Ha. cbn [bind] in Hk, Ha. cbv zeta in Hk, Ha.
  destruct (net_rxn_of C lsq rank ents members (sm_open mk) (sm_chempot mk) b) as [net1|] eqn:En; [|discriminate]. cbn [bind] in Hk, Ha.
  destruct (negb (balanced (base_of net1))); [discriminate|]. destruct (if find then _ else _) as [rxns|]; [|discriminate]. cbn [bind] in Hk, Ha.
  match type of Hk with bind ?s _ = _ => destruct s as [k1|] eqn:Ek; [|discriminate] end. match type of Ha with bind ?s _ = _ => destruct s as [a1|] eqn:Ea; [|discriminate] end.
  cbn [bind] in Hk, Ha. assert (net1 = net0 /\ k1 = kept /\ a1 = all) as (-> & -> & ->) by (repeat split; congruence). clear Hk Ha.
  destruct (net_rxn_spec mk b net0 N R P Z En) as (res & pes & ks & kp & G1 & _ & _ & _ & _ & _ & _ & _ & _ & _ & _ & Pc).
  assert (Ep : precursor_comps net0 = pre) by (rewrite Pc; apply same_comps; [exact G1|exact Hred|intros f I; apply R, in_app_iff; left; exact I]).
  unfold solve in Ek, Ea. cbn [negb] in Ek, Ea. destruct (candidates req _ net0 rxns) as [cands|]; [|discriminate]. cbn [bind] in Ek, Ea. destruct (vector_of ents net0) as [netv|]; [|discriminate]. cbn [bind] in Ek, Ea.
  destruct (comp_matrices _ _ _ _ chunk max) as [d|]; [|discriminate]. cbn [bind] in Ek, Ea. destruct (balance_all _ _ _ _ _ d) as [acc|]; [|discriminate]. cbn [bind] in Ek, Ea.
  destruct (mapM _ acc) as [built|]; [|discriminate]. cbn [bind] in Ek, Ea.
  apply (finish_inv req (vector_of ents) (rebuilt C ents None 0%Q) uses makes (fun r => comps (base_of r)) precursor_comps pinv waits1 waits2 uniq [] rxns net0 0 None 0 0 true) in Ek as (K & HK & PK & _).
  apply (finish_inv req (vector_of ents) (rebuilt C ents None 0%Q) uses makes (fun r => comps (base_of r)) precursor_comps pinv waits1 waits2 uniq [] rxns net0 0 None 0 0 false) in Ea as (A & HA & PA & _).
  assert (Hc : forall p, In p K <-> In p built /\ ~ circular uses makes pre p).
  { intros p. rewrite HK. unfold step_ok. rewrite Ep. pose proof (contains_iff uses makes (fun r => comps (base_of r)) req Hreq p pre) as E. split; intros (I & H); (split; [exact I|]).
    - intros X. apply E in X. rewrite (H eq_refl) in X. discriminate.
    - intros _. destruct (contains_interdependent req uses makes (fun r => comps (base_of r)) p pre); [exfalso; apply H, E; reflexivity|reflexivity]. }
  split.
  - intros p I. apply (Permutation_in _ PK), Huniq, Hc in I. apply I.
  - intros p I Np. apply (Permutation_in _ PA), Huniq, HA in I as (I & _). destruct (proj2 (Hset K) p (proj2 (Hc p) (conj I Np))) as (q & Iq & [->|(Hh & He)]).
    + exists p. split; [apply (Permutation_in _ (Permutation_sym PK)); exact Iq|]. split; reflexivity.
    + exists q. split; [apply (Permutation_in _ (Permutation_sym PK)); exact Iq|]. unfold hash_key in Hh. assert (Hm : map rhash (p_rxns q) = map rhash (p_rxns p)) by congruence.
      assert (Hco : p_coeffs q = p_coeffs p) by congruence. split; [exact Hco|]. apply (f_equal (@length nat)) in Hm. rewrite !map_length in Hm.
      unfold path_eq in He. rewrite Hco in He. assert (Hr : rxns_eq req (p_rxns q) (p_rxns p) = true).
      { destruct (p_coeffs p); [|congruence]. destruct (rxns_eq req (p_rxns q) (p_rxns p)); [reflexivity|discriminate]. }
      clear - Hr Hm Hreq. unfold rxns_eq in Hr. revert Hm Hr. generalize (p_rxns p). induction (p_rxns q) as [|x l IH]; intros [|y l'] L Hr; try discriminate; [reflexivity|]. cbn in Hr. apply andb_true_iff in Hr as (H1 & H2).
      apply Hreq in H1. cbn in H1. subst y. f_equal. apply IH; [cbn in L; lia|exact H2].
Qed.
End Job.
