(* The job that balances pathways with exact linear algebra. *)
From Coq Require Import Lqa.
From Verif Require Import Prelude NumQ SumQ ListFacts UtilsModel UtilsSpec ReactionModel ReactionSpec ReactionBaseProofs ReactionBalanceProofs PathModel PathSpec SolverModel SolverSpec
  SolverMoreProofs SolverFinalProofs FlowModel SolveJobModel SolveJobSpec SolveJobProofs LinModel LinSpec LinProofs LinBalanceProofs PinvModel PinvProofs CapSpec.
From Verif Require EntrySetModel EntrySetProofs RxnSetBaseProofs InitProofs UtilsProofs.
Open Scope nat_scope.

Lemma set_nth_ok {V} (v : V) : forall i l, i < length l -> exists l', set_nth i v l = Ok l' /\ length l' = length l.
Proof.
  induction i as [|i IH]; intros [|x l] H; cbn [length] in H; try lia; cbn [set_nth]; [exists (v :: l); split; reflexivity|].
  destruct (IH l) as (l' & E & L); [lia|]. rewrite E. exists (x :: l'). split; [reflexivity|cbn; congruence].
Qed.
Lemma fill_ok : forall (l : list (entry * Q)) w, (forall ek, In ek l -> e_id (fst ek) < length w) ->
  exists v, fold_left (fun acc ek => bind acc (set_nth (e_id (fst ek)) (snd ek))) l (Ok w) = Ok v.
Proof.
  induction l as [|ek l IH]; intros w H; [exists w; reflexivity|]. cbn [fold_left bind].
  destruct (set_nth_ok (snd ek) (e_id (fst ek)) w) as (w' & E & L); [apply H; left; reflexivity|]. rewrite E. apply IH. intros ek' I. rewrite L. apply H. right. exact I.
Qed.
Lemma vector_ok c n : length (c_entries c) = length (coeffs (c_base c)) -> (forall e, In e (c_entries c) -> e_id e < n) -> exists v, get_entry_idx_vector c n = Ok v.
Proof.
  intros L H. unfold get_entry_idx_vector. rewrite L, Nat.eqb_refl. cbn [negb]. apply fill_ok. intros [e k] I. rewrite repeat_length. apply H. apply in_combine_l in I. exact I.
Qed.

(* --- reactions in a circle --- *)
Lemma subseq_rest {A} (s l : list A) : subseq s l -> exists rest, Permutation l (s ++ rest).
Proof.
  induction 1 as [|x s l _ (rest & P)|x s l _ (rest & P)]; [exists []; constructor|exists (x :: rest)|exists rest; cbn; constructor; exact P].
  etransitivity; [apply perm_skip; exact P|]. apply Permutation_middle.
Qed.
Lemma set_list_subseq {R} (req : R -> R -> bool) l : forall seen, subseq (set_list req l seen) l.
Proof. induction l as [|x l IH]; intros seen; cbn; [constructor|]. destruct (memb req x seen); [apply subseq_skip|apply subseq_take]; apply IH. Qed.
Lemma contains_circle {R} (req : R -> R -> bool) (rs ps cs : R -> list nat) (p : path R) prec :
  contains_interdependent req rs ps cs p prec = true -> circle (fun r f => In f (rs r)) (fun r f => In f (ps r)) prec (p_rxns p).
Proof.
  unfold contains_interdependent. set (ds := set_list req (p_rxns p) []). destruct (Nat.eqb (length ds) 1); [discriminate|]. rewrite existsb_exists. intros (combo & Hc & H).
  apply UtilsProofs.in_limited_powerset in Hc as (Hs & Hl). destruct (existsb _ combo || _) eqn:E; [discriminate|]. apply orb_false_iff in E as (_ & E). apply Nat.eqb_neq in E.
  destruct (subseq_rest combo (p_rxns p)) as (rest & P); [eapply SolverTopProofs.subseq_trans; [exact Hs|apply set_list_subseq]|].
  exists combo, rest. split; [exact P|]. split; [lia|]. intros a r b Ec.
  rewrite forallb_forall in H. specialize (H (length a)). unfold overlaps in H. rewrite existsb_exists in H. destruct H as (j & Ij & H); [apply in_seq; rewrite Ec, app_length; cbn; lia|].
  rewrite Ec in H at 1. rewrite nth_error_app2, Nat.sub_diag in H by lia. cbn [nth_error] in H. destruct (nth_error combo j) as [r'|] eqn:Ej; [|rewrite andb_false_r in H; discriminate].
  apply andb_prop in H as (Hij & H). unfold in_other_comp in H. cbn [negb] in H. rewrite andb_true_r, negb_true_iff, Nat.eqb_neq in H.
  destruct (set_inter _ _) as [|c l] eqn:Es; [destruct (H eq_refl)|]. assert (Hc : In c (c :: l)) by (left; reflexivity). rewrite <- Es in Hc.
  apply PathProofs.set_inter_in in Hc as (H1 & H2). apply PathProofs.set_minus_in in H1 as (H1 & H3). apply PathProofs.set_minus_in in H2 as (H2 & _).
  exists r', c. split; [|auto]. apply negb_true_iff, Nat.eqb_neq in Hij. rewrite Ec in Ej. apply in_or_app. destruct (Nat.lt_ge_cases j (length a)) as [Lj|Lj].
  - left. rewrite nth_error_app1 in Ej by exact Lj. exact (nth_error_In _ _ Ej).
  - right. rewrite nth_error_app2 in Ej by exact Lj. replace (j - length a) with (S (j - length a - 1)) in Ej by lia. cbn [nth_error] in Ej. exact (nth_error_In _ _ Ej).
Qed.
Lemma circle_map {A B} (u1 m1 : A -> nat -> Prop) (u2 m2 : B -> nat -> Prop) given l1 l2 :
  Forall2 (fun a b => (forall f, u1 a f -> u2 b f) /\ (forall f, m1 a f -> m2 b f)) l1 l2 -> circle u1 m1 given l1 -> circle u2 m2 given l2.
Proof.
  intros F (group & rest & P & L & H). destruct (Permutation_Forall2 P F) as (l & P' & F'). apply Forall2_app_inv_l in F' as (group' & rest' & G1 & G2 & ->).
  exists group', rest'. split; [exact P'|]. split; [rewrite <- (Forall2_length _ _ _ G1); exact L|]. intros a r b ->. apply Forall2_app_inv_r in G1 as (a0 & b0 & Ga & Gb & ->).
  inversion Gb as [|r0 ? b1 ? (U & _) Gb']; subst. destruct (H a0 r0 b1 eq_refl) as (r' & f & Ir & Hu & Hm & Hg). destruct (Forall2_In_l _ _ _ _ (Forall2_app Ga Gb') Ir) as (r2 & I2 & _ & M).
  exists r2, f. auto.
Qed.
Lemma circle_perm {R} (u m : R -> nat -> Prop) given l l' : Permutation l l' -> circle u m given l -> circle u m given l'.
Proof. intros P (group & rest & P' & H). exists group, rest. split; [exact (Permutation_trans (Permutation_sym P) P')|exact H]. Qed.

Section Cap.
Variable C : chem.
Hypothesis W : wf_chem C.
Variable ents : list entry.
Variable members : list nat.
Hypothesis Hid : forall i e, nth_error ents i = Some e -> e_id e = i.
Hypothesis Hmem : Permutation members (seq 0 (length ents)).

Lemma id_small e : In e ents -> e_id e < length ents.
Proof. intros I. apply In_nth_error in I as (i & E). rewrite (Hid _ _ E). apply nth_error_Some. congruence. Qed.

Lemma ground_ok f : (exists e, In e ents /\ red C (e_comp e) = red C f) -> exists e, ground C ents members f = Ok e.
Proof.
  intros (e & I & E). unfold ground. destruct (EntrySetProofs.min_entry_spec (formula_at C ents) (epa_at C ents) members (red C f)) as (_ & A & B).
  destruct (EntrySetModel.get_min_entry _ _ members (red C f)) as [i|x]; [exists (entry_at ents i); reflexivity|exfalso]. pose proof (B x eq_refl) as ->.
  apply In_nth_error in I as (j & Ej). apply (proj1 A eq_refl j).
  - apply (in_members ents members Hmem). apply nth_error_Some. congruence.
  - unfold formula_at. replace (entry_at ents j) with e by (symmetry; apply nth_error_nth; exact Ej). exact E.
Qed.

(* --- the rows of reactions --- *)
Lemma between_row r : between ents r -> exists row, vector_of ents r = Ok row /\ length row = length ents /\ (forall i, (nth i row 0 == turnover r i)%Q) /\ large row <> [].
Proof.
  intros ((c & F & L & N & I) & (i & Hi)). assert (Ec : computed_of r = Some c) by (destruct F as [->|(mus & ->)]; reflexivity).
  destruct (vector_ok c (length ents) L) as (row & E); [intros e Ie; apply id_small, I; exact Ie|]. assert (Ev : vector_of ents r = Ok row) by (unfold vector_of; rewrite Ec; exact E).
  pose proof (vector_turnover ents r c row Ec N Ev) as T. exists row. split; [exact Ev|]. split; [apply vector_length in E; exact E|]. split; [exact T|].
  intros Hl. assert (In (i, nth i row 0%Q) (large row)) as X; [|rewrite Hl in X; exact X]. unfold large. apply filter_In. rewrite <- (T i) in Hi.
  assert (Li : i < length row) by (destruct (Nat.lt_ge_cases i (length row)) as [H|H]; [exact H|rewrite nth_overflow in Hi by exact H; vm_compute in Hi; discriminate]).
  split.
  - assert (Hn : nth i (combine (seq 0 (length row)) row) (0, 0%Q) = (i, nth i row 0%Q)) by (rewrite combine_nth by apply seq_length; rewrite seq_nth by exact Li; reflexivity).
    rewrite <- Hn. apply nth_In. rewrite combine_length, seq_length. lia.
  - cbn [snd]. apply negb_true_iff. destruct (Qle_bool _ _) eqn:G; [|reflexivity]. apply Qle_bool_iff in G. lra.
Qed.

Lemma restated_list (T : entry -> Q) : forall row es pre, length row = length es -> (forall i e, nth_error es i = Some e -> (nth i row 0 == T e)%Q) ->
  Forall2 (fun a b => fst a = fst b /\ (snd a == snd b)%Q)
    (map (fun ic => (nth (fst ic) (pre ++ es) no_entry, snd ic)) (filter (fun ic => negb (Qle_bool (Qabs (snd ic)) (1 # 100000000))) (combine (seq (length pre) (length row)) row)))
    (filter (fun ek => Qlt_bool (1 # 100000000) (Qabs (snd ek))) (map (fun e => (e, T e)) es)).
Proof.
  induction row as [|c row IH]; intros [|e es] pre L H; try discriminate; [constructor|]. cbn [length seq combine map filter snd].
  assert (E : (c == T e)%Q) by (apply (H 0 e); reflexivity).
  assert (R : Forall2 (fun a b => fst a = fst b /\ (snd a == snd b)%Q)
    (map (fun ic => (nth (fst ic) (pre ++ e :: es) no_entry, snd ic)) (filter (fun ic => negb (Qle_bool (Qabs (snd ic)) (1 # 100000000))) (combine (seq (S (length pre)) (length row)) row)))
    (filter (fun ek => Qlt_bool (1 # 100000000) (Qabs (snd ek))) (map (fun e => (e, T e)) es))).
  { specialize (IH es (pre ++ [e])). rewrite app_length, Nat.add_comm in IH. cbn [length Nat.add] in IH. rewrite <- app_assoc in IH. cbn [app] in IH. apply IH; [cbn in L; congruence|]. intros i e' Hi. apply (H (S i)). exact Hi. }
  assert (B : negb (Qle_bool (Qabs c) (1 # 100000000)) = Qlt_bool (1 # 100000000) (Qabs (T e))) by (unfold Qlt_bool; rewrite E; reflexivity).
  rewrite B. destruct (Qlt_bool (1 # 100000000) (Qabs (T e))); [|exact R]. cbn [map fst snd]. constructor; [|exact R]. cbn [fst snd]. split; [rewrite nth_middle; reflexivity|exact E].
Qed.

Lemma rebuilt_restated o mu r row : length row = length ents -> (forall i, (nth i row 0 == turnover r i)%Q) -> restated C ents r (rebuilt C ents o mu (large row)).
Proof.
  intros L T. split.
  - unfold rebuilt, rebuild_computed. destruct o; cbn [built]; [|do 3 eexists; split; [|reflexivity]; rewrite !map_length; reflexivity].
    do 4 eexists. split; [|reflexivity]. rewrite !map_length. reflexivity.
  - assert (P : parts (rebuilt C ents o mu (large row)) = map (fun ic => (nth (fst ic) ents no_entry, snd ic)) (large row)).
    { assert (E : parts (rebuilt C ents o mu (large row)) = combine (map (fun ic => nth (fst ic) ents no_entry) (large row)) (map snd (large row))) by (destruct o; reflexivity). rewrite E. clear.
      induction (large row) as [|[i c] l IH]; [reflexivity|]. cbn [map combine fst snd]. rewrite IH. reflexivity. }
    rewrite P. apply (restated_list (fun e => turnover r (e_id e)) row ents [] L). intros i e Hi. rewrite (Hid _ _ Hi). apply T.
Qed.

Lemma side_parts r f (p : Q -> bool) : built C r -> computed_of r <> None -> In f (map fst (dict_of (filter (fun kv => p (snd kv)) (combine (comps (base_of r)) (coeffs (base_of r)))))) ->
  exists e k, In (e, k) (parts r) /\ red C (e_comp e) = f /\ p k = true.
Proof.
  intros B Np I. apply (dict_of_keys (filter (fun kv : nat * Q => p (snd kv)) (combine (comps (base_of r)) (coeffs (base_of r))))) in I. apply in_map_iff in I as ([f' k] & Ef & I). cbn [fst] in Ef. subst f'. apply filter_In in I as (I & Hk). cbn [snd] in Hk.
  assert (X : exists es ks, parts r = combine es ks /\ comps (base_of r) = map (fun e => red C (e_comp e)) es /\ coeffs (base_of r) = ks).
  { destruct r as [b|c|o]; [destruct (Np eq_refl)| |]; cbn [built] in B.
    - destruct B as (es & ks & n & _ & ->). exists es, ks. repeat split.
    - destruct B as (es & ks & mu & n & _ & ->). exists es, ks. repeat split. }
  destruct X as (es & ks & E1 & E2 & E3). rewrite E2, E3 in I. rewrite E1. clear - I Hk. revert ks I. induction es as [|e es IH]; intros [|k' ks] I; try destruct I.
  - injection H as <- <-. exists e, k'. split; [left; reflexivity|]. split; [reflexivity|exact Hk].
  - destruct (IH ks H) as (e' & k1 & I' & R). exists e', k1. split; [right; exact I'|exact R].
Qed.
Lemma restated_sides r r' : restated C ents r r' -> computed_of r' <> None -> (forall f, In f (reactants (base_of r')) -> consumes C ents r f) /\ (forall f, In f (products (base_of r')) -> yields C ents r f).
Proof.
  intros (B & F) Nc.
  assert (Big : forall e k, In (e, k) (parts r') -> In e ents /\ (k == turnover r (e_id e))%Q /\ (1 # 100000000 < Qabs (turnover r (e_id e)))%Q).
  { intros e k I. destruct (Forall2_In_l _ _ _ _ F I) as ([e' k'] & I' & E1 & E2). cbn [fst snd] in E1, E2. subst e'. apply filter_In in I' as (I' & H). cbn [snd] in H. apply in_map_iff in I' as (e0 & E0 & I0). injection E0 as -> <-.
    split; [exact I0|]. split; [exact E2|]. apply Qlt_bool_iff'. exact H. }
  assert (Eb : (reactants (base_of r') = map fst (dict_of (filter (fun kv => Qlt_bool (snd kv) 0) (combine (comps (base_of r')) (coeffs (base_of r'))))))
    /\ (products (base_of r') = map fst (dict_of (filter (fun kv => Qlt_bool 0 (snd kv)) (combine (comps (base_of r')) (coeffs (base_of r'))))))).
  { destruct r' as [b|c|o]; cbn [built] in B; [destruct B as (? & ? & ? & ? & _ & ->)|destruct B as (? & ? & ? & _ & ->)|destruct B as (? & ? & ? & ? & _ & ->)]; split; reflexivity. }
  destruct Eb as (E1 & E2).
  split; intros f I.
  - rewrite E1 in I. apply (side_parts r' f (fun k => Qlt_bool k 0) B Nc) in I as (e & k & I & R & Hk). apply Qlt_bool_iff' in Hk. destruct (Big e k I) as (Ie & Ek & Ha). exists e. split; [exact Ie|]. split; [exact R|].
    rewrite Ek in Hk. rewrite Qabs_neg in Ha by (apply Qlt_le_weak; exact Hk). lra.
  - rewrite E2 in I. apply (side_parts r' f (fun k => Qlt_bool 0 k) B Nc) in I as (e & k & I & R & Hk). apply Qlt_bool_iff' in Hk. destruct (Big e k I) as (Ie & Ek & Ha). exists e. split; [exact Ie|]. split; [exact R|].
    rewrite Ek in Hk. rewrite Qabs_pos in Ha by (apply Qlt_le_weak; exact Hk). exact Ha.
Qed.

(* --- the net reaction --- *)
Lemma exact_length r p c : length (exact_solve C r p c) = length r + length p.
Proof.
  unfold exact_solve, pinv_solution. rewrite lincomb_length; [apply app_length|]. intros v I. apply in_map_iff in I as (q & <- & I). apply in_app_iff in I as [I|I]; apply in_map_iff in I as (x & <- & _); cbn [fst].
  - apply map_length.
  - unfold unit_row. rewrite map_length, seq_length. reflexivity.
Qed.

Theorem net_made mk v : let pre := sm_precursors mk in let tar := sm_targets mk in
  NoDup (pre ++ tar) -> (forall f, In f (pre ++ tar) -> red C f = f) -> 2 <= length pre + length tar -> only_combination C (pre ++ tar) v -> LinSpec.sides (length pre) v ->
  (forall f, In f (pre ++ tar) -> exists e, In e ents /\ red C (e_comp e) = f) ->
  exists b c res pes ks t, post_init C (exact_solve C) (exact_rank C) mk = Ok b
  /\ net_rxn_of C (exact_solve C) (exact_rank C) ents members (sm_open mk) (sm_chempot mk) b = Ok (match sm_open mk with None => RComputed c | Some e => ROpen {| o_base := c; chempots := [(e, sm_chempot mk)] |} end)
  /\ c_entries c = res ++ pes /\ coeffs (c_base c) = ks /\ length (res ++ pes) = length ks /\ balanced (c_base c) = true /\ NoDup (map e_id (res ++ pes)) /\ (forall e, In e (res ++ pes) -> In e ents)
  /\ Forall2 (lowest_entry C ents) pre res /\ Forall2 (lowest_entry C ents) tar pes /\ (0 < t)%Q /\ multiple t v ks
  /\ reactant_entries c = res.
Proof.
  intros pre tar N R H2 HV S Hall.
  destruct (determined_coeffs C W pre tar v (exact_solve C pre tar) (exact_rank C pre tar) HV H2 (exact_rank_bound C W pre tar v HV)) as (kk & m & t & E & Tn & M & (i0 & Hi0 & One) & Big & Z); [intros c Hc; exact (exact_fits C pre tar _ c Hc)|].
  assert (m = 0) as -> by (apply Z; left; exact S). clear Z. specialize (Big eq_refl).
  assert (Lv : length v = length (pre ++ tar)) by (destruct HV as ((Lv & _) & _); exact Lv). assert (Lk : length kk = length pre + length tar) by (rewrite <- app_length, <- Lv; symmetry; exact (Forall2_length _ _ _ M)).
  assert (Tp : (0 < t)%Q).
  { pose proof (multiple_nth _ _ _ M i0) as Mi. rewrite One in Mi. destruct (nth_error v i0) as [k|] eqn:Ek; [|apply nth_error_None in Ek; rewrite Lv, app_length, <- Lk in Ek; lia].
    rewrite (nth_error_nth _ _ _ Ek) in Mi. destruct (S i0 k Ek) as (S1 & S2). destruct (Nat.leb_spec (length pre) i0) as [Hl|Hl]; [specialize (S2 Hl)|specialize (S1 Hl)]; nra. }
  assert (exists ks kp, kk = ks ++ kp /\ length ks = length pre /\ length kp = length tar) as (ks & kp & -> & Ls & Lp).
  { exists (firstn (length pre) kk), (skipn (length pre) kk). split; [symmetry; apply firstn_skipn|]. rewrite firstn_length, skipn_length. lia. }
  assert (Fs : Forall (fun k => (k <= -(1 # 1000000))%Q) ks).
  { apply Forall_forall. intros k I. apply In_nth_error in I as (i & Ei). assert (Li : i < length ks) by (apply nth_error_Some; congruence). apply (Big i k); [rewrite nth_error_app1 by exact Li; exact Ei|lia]. }
  assert (Fp : Forall (fun k => (1 # 1000000 <= k)%Q) kp).
  { apply Forall_forall. intros k I. apply In_nth_error in I as (i & Ei). apply (Big (length pre + i) k); [|lia]. rewrite nth_error_app2 by lia. rewrite <- Ei. f_equal. lia. }
  assert (Gp : exists res, mapM (ground C ents members) pre = Ok res).
  { apply InitProofs.mapM_total. intros f I. apply ground_ok. assert (If : In f (pre ++ tar)) by (apply in_app_iff; left; exact I). rewrite (R f If). apply Hall. exact If. }
  assert (Gt : exists pes, mapM (ground C ents members) tar = Ok pes).
  { apply InitProofs.mapM_total. intros f I. apply ground_ok. assert (If : In f (pre ++ tar)) by (apply in_app_iff; right; exact I). rewrite (R f If). apply Hall. exact If. }
  destruct Gp as (res & E1). destruct Gt as (pes & E2).
  destruct (SolveJobProofs.sides C pre tar ks kp (Some true) (Some 0) N Ls Lp Fs Fp) as (Sr & Sp).
  assert (L1 : Nat.eqb (length (pre ++ tar)) 1 = false) by (apply Nat.eqb_neq; rewrite app_length; lia).
  assert (P : post_init C (exact_solve C) (exact_rank C) mk = Ok (basic_init C (pre ++ tar) (ks ++ kp) (Some true) (Some 0))).
  { unfold post_init. fold pre tar. unfold basic_balance. rewrite E, L1. reflexivity. }
  pose proof E1 as E1'. pose proof E2 as E2'. apply (ground_all C ents members Hid Hmem) in E1' as (G1 & I1). apply (ground_all C ents members Hid Hmem) in E2' as (G2 & I2).
  assert (Rp : forall f, In f pre -> red C f = f) by (intros f I; apply R, in_app_iff; left; exact I). assert (Rt : forall f, In f tar -> red C f = f) by (intros f I; apply R, in_app_iff; right; exact I).
  pose proof (comps_of C ents _ _ G1 Rp) as Cr. pose proof (comps_of C ents _ _ G2 Rt) as Ct.
  pose proof (Forall2_length _ _ _ G1) as Lr. pose proof (Forall2_length _ _ _ G2) as Lt.
  exists (basic_init C (pre ++ tar) (ks ++ kp) (Some true) (Some 0)), (computed_init C (res ++ pes) (ks ++ kp) (Some 0)), res, pes, (ks ++ kp), t.
  split; [exact P|]. split.
  { unfold net_rxn_of. rewrite Sr, Sp, E1, E2. cbn [bind]. cbv zeta. unfold computed_balance. rewrite Cr, Ct, E. rewrite app_length in L1. rewrite <- Lr, <- Lt, L1. reflexivity. }
  split; [reflexivity|]. split; [reflexivity|]. split; [rewrite !app_length; lia|].
  assert (Eb : c_base (computed_init C (res ++ pes) (ks ++ kp) (Some 0)) = basic_init C (pre ++ tar) (ks ++ kp) None (Some 0)) by (unfold computed_init; cbn [c_base]; rewrite map_app, Cr, Ct; reflexivity).
  split.
  { rewrite Eb. apply (flag_iff C W); [exact N|rewrite !app_length; lia|]. intros e. rewrite <- net_sides, (net_multiple C _ _ _ (pre ++ tar) e M). destruct HV as ((_ & Hc) & _). rewrite (Hc e). rewrite Qmult_0_r. vm_compute. discriminate. }
  split.
  { apply (NoDup_of_map (fun i => red C (e_comp (entry_at ents i)))). rewrite map_map.
    assert (Em : map (fun e => red C (e_comp (entry_at ents (e_id e)))) (res ++ pes) = map (fun e => red C (e_comp e)) (res ++ pes)).
    { apply map_ext_in. intros e I. rewrite Forall_forall in I1, I2. apply in_app_iff in I as [I|I]; [rewrite (proj1 (I1 _ I))|rewrite (proj1 (I2 _ I))]; reflexivity. }
    rewrite Em, map_app, Cr, Ct. exact N. }
  split.
  { intros e I. apply in_app_iff in I as [I|I]; [destruct (Forall2_In_r _ _ _ _ G1 I) as (f & _ & Ie & _)|destruct (Forall2_In_r _ _ _ _ G2 I) as (f & _ & Ie & _)]; exact Ie. }
  split; [exact G1|]. split; [exact G2|]. split; [exact Tp|]. split; [exact M|].
  rewrite Forall_forall in Fs, Fp. unfold reactant_entries. cbn [c_entries computed_init c_base basic_init coeffs]. rewrite combine_app2 by lia. rewrite filter_app, (filter_all _ (combine res ks)), (filter_none _ (combine pes kp)).
  - rewrite app_nil_r. apply combine_fst. lia.
  - intros [e k] I. apply in_combine_r in I. apply above0, Fp. exact I.
  - intros [e k] I. apply in_combine_r in I. apply below0, Fs. exact I.
Qed.

(* --- the job --- *)
Variable req : rxn -> rxn -> bool.
Variable waits1 waits2 : nat -> nat -> list nat -> list nat * list nat.
Variable uniq : list (path rxn) -> list (path rxn).
Variable clean : list rxn -> list rxn.
Variable cost : rxn -> Q.
Variable inter : list entry -> list rxn -> rxn -> result (list rxn).
Variable chunk cpus : nat.
Variable rhash : rxn -> nat.
Hypothesis Hw1 : forall k, valid_schedule (waits1 k).
Hypothesis Hw2 : forall k, valid_schedule (waits2 k).
Hypothesis Hrefl : forall r, req r r = true.
Hypothesis Hset : set_members req rhash uniq.
Hypothesis Hnil : uniq [] = [].

Lemma turnover_out r : between ents r -> forall i, length ents <= i -> (turnover r i == 0)%Q.
Proof. intros B i Hi. destruct (between_row r B) as (row & _ & L & T & _). rewrite <- (T i). rewrite nth_overflow by lia. reflexivity. Qed.

Lemma rows_of steps : (forall r, In r steps -> between ents r) -> exists rows, Forall2 (fun r row => vector_of ents r = Ok row /\ length row = length ents /\ (forall i, (nth i row 0 == turnover r i)%Q) /\ large row <> []) steps rows.
Proof.
  induction steps as [|r steps IH]; intros H; [exists []; constructor|]. destruct (between_row r (H r (or_introl eq_refl))) as (row & Hr). destruct IH as (rows & IH); [intros r' I; apply H; right; exact I|].
  exists (row :: rows). constructor; assumption.
Qed.

Theorem job_finds mk max find fi pathways v : let pre := sm_precursors mk in let tar := sm_targets mk in
  NoDup (pre ++ tar) -> (forall f, In f (pre ++ tar) -> red C f = f) -> 2 <= length pre + length tar -> only_combination C (pre ++ tar) v -> LinSpec.sides (length pre) v ->
  (forall f, In f (pre ++ tar) -> exists e, In e ents /\ red C (e_comp e) = f) ->
  exists net0 res pes ks t, Forall2 (lowest_entry C ents) pre res /\ Forall2 (lowest_entry C ents) tar pes
  /\ (0 < t)%Q /\ multiple t v ks /\ parts net0 = combine (res ++ pes) ks /\ environment (sm_open mk) (sm_chempot mk) net0
  /\ forall l, (find = true -> inter ents (map fst (solver_init req pathways)) net0 = Ok l) -> let rxns := if find then with_intermediates req cost (solver_init req pathways) l else solver_init req pathways in let cands := pool req (clean (map fst rxns)) net0 rxns in
     1 <= chunk -> 2 <= cpus -> 1 <= max <= length cands ->
     (forall s, In s cands -> between ents (fst s)) ->
     (forall s r, In s cands -> restated C ents (fst s) r -> environment (sm_open mk) (sm_chempot mk) r -> exists s', In s' cands /\ req (fst s') r = true) ->
     forall steps ms, subseq steps cands -> 1 <= length steps <= max -> separate (map fst steps) -> length ms = length steps -> Forall (fun m => (1 # 1000000 <= m)%Q) ms ->
     (forall i, (overall ms (map fst steps) i == turnover net0 i)%Q) ->
     (fi = true -> ~ circle (consumes C ents) (yields C ents) (map e_comp res) (map fst steps)) ->
     exists paths q ms', solve_job C (exact_solve C) (exact_rank C) ents members req path_pinv waits1 waits2 uniq clean cost inter chunk cpus mk max find fi pathways = Ok (net0, paths)
     /\ In q paths /\ p_coeffs q = Some ms' /\ Forall2 Qeq ms' ms
     /\ Forall2 (fun s r => exists r', restated C ents (fst s) r' /\ environment (sm_open mk) (sm_chempot mk) r' /\ req r' r = true) steps (p_rxns q).
Proof.
  intros pre tar N R H2 HV S Hall. destruct (net_made mk v N R H2 HV S Hall) as (b & c & res & pes & ks & t & P & En & Ce & Ck & Lc & Bc & Nc & Ic & G1 & G2 & Tp & M & Er0).
  set (net0 := match sm_open mk with None => RComputed c | Some e => ROpen {| o_base := c; chempots := [(e, sm_chempot mk)] |} end) in *.
  assert (Ec : computed_of net0 = Some c) by (unfold net0; destruct (sm_open mk); reflexivity).
  assert (Ep : parts net0 = combine (res ++ pes) ks) by (rewrite <- Ce, <- Ck; unfold net0; destruct (sm_open mk); reflexivity).
  exists net0, res, pes, ks, t. split; [exact G1|]. split; [exact G2|]. split; [exact Tp|]. split; [exact M|]. split; [exact Ep|]. split; [unfold net0; destruct (sm_open mk); cbn; [reflexivity|exact I]|].
  intros li Hl rxns cands Hc Hcpu Hmax Hbet Hre steps ms Hsub Hlen Hsep Lms Hms Hsum Hfi.
  destruct (vector_ok c (length ents)) as (netv & Ev); [rewrite Ce, Ck; exact Lc|intros e I; apply id_small, Ic; rewrite <- Ce; exact I|].
  assert (Evn : vector_of ents net0 = Ok netv) by (unfold vector_of; rewrite Ec; exact Ev). pose proof (vector_length _ _ _ Ev) as Lnet.
  assert (Tn : forall i, (nth i netv 0 == turnover net0 i)%Q) by (apply (vector_turnover ents net0 c netv Ec); [rewrite Ce; exact Nc|exact Evn]).
  assert (Bs : forall r, In r (map fst steps) -> between ents r).
  { intros r I. apply in_map_iff in I as (s & <- & I). apply Hbet. eapply UtilsProofs.subseq_In; [exact Hsub|exact I]. }
  destruct (rows_of _ Bs) as (rows & Fr).
  assert (Fr1 : Forall2 (fun s row => vector_of ents (fst s) = Ok row /\ length row = length netv) steps rows).
  { rewrite Lnet. clear - Fr. remember (map fst steps) as l. revert steps Heql. induction Fr as [|r row l1 l2 (A & B & _) _ IH]; intros [|s steps] E; try discriminate; [constructor|]. injection E as -> E. constructor; [split; assumption|apply IH; exact E]. }
  assert (Fr2 : Forall2 (fun s row => vector_of ents (fst s) = Ok row) steps rows) by (eapply Forall2_impl; [|exact Fr1]; cbn; tauto).
  assert (Fw : forall ms i, (weighted ms rows i == overall ms (map fst steps) i)%Q) by (apply weighted_overall; eapply Forall2_impl; [|exact Fr]; cbn; tauto).
  pose proof (Forall2_length _ _ _ Fr1) as Lrows.
  assert (Hw : forall j, j < length netv -> (weighted ms rows j == nth j netv 0)%Q) by (intros j _; rewrite Fw, Hsum, Tn; reflexivity).
  assert (Hind : independent (length netv) rows).
  { intros ks' Lk Hz. apply Hsep; [rewrite map_length; congruence|]. intros i. rewrite <- Fw. destruct (Nat.lt_ge_cases i (length netv)) as [Li|Li]; [exact (Hz i Li)|]. rewrite Fw. unfold overall. apply sumQ_all_zero.
    intros [m r] I. cbn [fst snd]. apply in_combine_r in I. rewrite (turnover_out r (Bs r I) i) by lia. ring. }
  assert (Hnz : exists j, ~ (nth j netv 0 == 0)%Q).
  { destruct (Qeq_dec (sumQ (fun i => nth i netv 0 * nth i netv 0)%Q (seq 0 (length netv))) 0) as [Z|Z].
    - exfalso. assert (Hz : forall j, j < length netv -> (weighted ms rows j == 0)%Q).
      { intros j Hj. rewrite (Hw j Hj). assert (P0 : (sumQ (fun i => sq (nth i netv 0)) (seq 0 (length netv)) <= 0)%Q) by (unfold sq; rewrite Z; apply Qle_refl).
        pose proof (sum_sq_zero (fun i => nth i netv 0%Q) _ P0 j) as X. cbv beta in X. apply X. apply in_seq. lia. }
      pose proof (Hind ms ltac:(congruence) Hz) as F0. destruct ms as [|m ms]; [destruct steps; cbn in Lms, Hlen; lia|]. inversion F0 as [|? ? Z0 _]; subst. inversion Hms as [|? ? Z1 _]; subst. rewrite Z0 in Z1. vm_compute in Z1. apply Z1. reflexivity.
    - destruct (Exists_dec (fun i => ~ (nth i netv 0 == 0)%Q) (seq 0 (length netv))) as [X|X].
      + intros i. destruct (Qeq_dec (nth i netv 0%Q) 0); [right; tauto|left; assumption].
      + apply Exists_exists in X as (j & _ & X). exists j. exact X.
      + exfalso. apply Z. apply sumQ_all_zero. intros j I. destruct (Qeq_dec (nth j netv 0%Q) 0) as [E|E]; [rewrite E; ring|]. exfalso. apply X. apply Exists_exists. exists j. split; assumption. }
  assert (Huniq : forall l p, In p (uniq l) -> In p l) by (intros l p; apply (Hset l)).
  set (reb := rebuilt C ents (sm_open mk) (sm_chempot mk)).
  assert (Hcand : forall s, In s cands -> exists row, vector_of ents (fst s) = Ok row /\ large row <> [] /\ exists t, In t cands /\ req (fst t) (reb (large row)) = true).
  { intros s I. destruct (between_row (fst s) (Hbet s I)) as (row & A & B & D & F). exists row. split; [exact A|]. split; [exact F|]. apply (Hre s); [exact I|apply rebuilt_restated; assumption|apply rebuilt_environment]. }
  destruct (solve_returns req (vector_of ents) reb (fun r => reactants (base_of r)) (fun r => products (base_of r)) (fun r => comps (base_of r)) precursor_comps
    path_pinv waits1 waits2 uniq (clean (map fst rxns)) rxns net0 chunk None cpus max fi Hw1 Hw2 path_pinv_length netv Huniq Hnil Evn Hnz Hc) as (paths & Es & _).
  { right. split; [left; reflexivity|exact Hcpu]. } { exact Hmax. } { exact Hcand. }
  { exists steps, rows. split; [exact Hsub|]. split; [exact Hlen|]. split; [exact Fr2|]. exact (weighted_covers netv rows ms Hw). }
  destruct (exact_finds req (vector_of ents) reb (fun r => reactants (base_of r)) (fun r => products (base_of r)) (fun r => comps (base_of r)) precursor_comps
    waits1 waits2 uniq (clean (map fst rxns)) rxns net0 chunk None cpus max fi Hw1 Hw2 true paths netv steps rows ms rhash Hrefl Hset Es Evn Hnz Hsub Hlen Fr1 Hind) as (p & ms' & Pc & Pm & Pr & Pq); [congruence|exact Hms|exact Hw|].
  destruct Pq as (q & Iq & Qc & Qr).
  { intros Ef. destruct (contains_interdependent _ _ _ _ _ _) eqn:Ci; [exfalso|reflexivity]. apply contains_circle in Ci. apply (Hfi Ef).
    assert (Epre : precursor_comps net0 = map e_comp res) by (unfold precursor_comps; rewrite Ec, Er0; reflexivity). rewrite Epre in Ci. revert Ci. apply circle_map.
    clear - Fr Pr Hid. revert Pr. generalize (p_rxns p) as l. induction Fr as [|r row l1 rows (A & B & D & F) _ IH]; intros l Pr; inversion Pr; subst; constructor; [|apply IH; assumption].
    match goal with H : _ /\ x = _ |- _ => destruct H as (_ & ->) end. apply restated_sides; [apply rebuilt_restated; assumption|]. unfold reb, rebuilt. destruct (sm_open mk); discriminate. }
  exists paths, q, ms'.
  assert (Bn : balanced (base_of net0) = true) by (unfold net0; destruct (sm_open mk); exact Bc).
  split.
  { unfold solve_job. rewrite P. cbn [bind]. cbv zeta. rewrite En. cbn [bind]. rewrite Bn. cbn [negb].
    assert (Er : (if find then bind (inter ents (map fst (solver_init req pathways)) net0) (fun l => Ok (with_intermediates req cost (solver_init req pathways) l)) else Ok (solver_init req pathways)) = Ok rxns) by (unfold rxns; destruct find; [rewrite Hl by reflexivity|]; reflexivity).
    rewrite Er. cbn [bind]. fold reb. rewrite Es. reflexivity. }
  split; [exact Iq|]. split; [rewrite Qc; exact Pc|]. split; [exact Pm|].
  clear - Fr Pr Qr Hid. remember (map fst steps) as l. revert steps Heql Qr Pr. generalize (p_rxns p) as l1, (p_rxns q) as l2.
  induction Fr as [|r row l rows (A & B & D & F) _ IH]; intros l1 l2 [|s steps] E Qr Pr; try discriminate; inversion Pr; subst; inversion Qr; subst; [constructor|]. injection E as -> E.
  constructor; [|eapply IH; [exact E|eassumption|assumption]].
  match goal with H : _ /\ x = _ |- _ => destruct H as (_ & ->) end. eexists. split; [apply (rebuilt_restated (sm_open mk) (sm_chempot mk) (fst s) row B D)|]. split; [apply rebuilt_environment|]. assumption.
Qed.
End Cap.
