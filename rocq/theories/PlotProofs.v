From Coq Require Import Lqa.
From Verif Require Import Prelude NumQ SumQ UtilsModel ReactionModel ReactionSpec ReactionBaseProofs ReactionOpsProofs ReactionLawProofs ListFacts ChemTable
  RxnSetBaseProofs SolveJobModel SolveJobSpec PlotModel PlotSpec.
From Verif Require EntrySetModel EntrySetProofs.
Open Scope nat_scope.

(* --- the median filter --- *)
Lemma med3_middle a b c : (med3 a b c == middle a b c)%Q.
Proof.
  unfold med3, middle.
  destruct (Qle_bool a b) eqn:AB; [apply Qle_bool_iff in AB|assert (b < a)%Q by (apply Qnot_le_lt; rewrite <- Qle_bool_iff; congruence)];
  (destruct (Qle_bool b c) eqn:BC; [apply Qle_bool_iff in BC|assert (c < b)%Q by (apply Qnot_le_lt; rewrite <- Qle_bool_iff; congruence)]);
  (destruct (Qle_bool a c) eqn:AC; [apply Qle_bool_iff in AC|assert (c < a)%Q by (apply Qnot_le_lt; rewrite <- Qle_bool_iff; congruence)]); try lra;
  destruct (Q.max_spec (Qmin a b) (Qmin (Qmax a b) c)) as [[? ->]|[? ->]];
  destruct (Q.min_spec (Qmax a b) c) as [[? E2]|[? E2]]; rewrite ?E2 in *;
  destruct (Q.max_spec a b) as [[? E3]|[? E3]]; rewrite ?E3 in *;
  destruct (Q.min_spec a b) as [[? E4]|[? E4]]; rewrite ?E4 in *; lra.
Qed.
Lemma middle_comp a a' b b' c c' : (a == a')%Q -> (b == b')%Q -> (c == c')%Q -> (middle a b c == middle a' b' c')%Q.
Proof. intros E1 E2 E3. unfold middle. rewrite E1, E2, E3. reflexivity. Qed.

Lemma median_from_length b l : length (median_from b l) = length l.
Proof. revert b. induction l as [|x l IH]; intros b; [reflexivity|]. cbn. rewrite IH. reflexivity. Qed.
Lemma median_length l : length (median_filter l) = length l.
Proof. destruct l; [reflexivity|]. apply median_from_length. Qed.

Lemma median_from_nth l : forall b i, i < length l ->
  nth i (median_from b l) 0%Q = med3 (match i with 0 => b | S j => nth j l 0%Q end) (nth i l 0%Q) (if S i <? length l then nth (S i) l 0%Q else nth i l 0%Q).
Proof.
  induction l as [|x l IH]; intros b i Hi; [cbn in Hi; lia|]. destruct i as [|i].
  - cbn [median_from nth]. destruct l; reflexivity.
  - cbn [median_from nth]. rewrite IH by (cbn in Hi; lia). cbn [length]. replace (S (S i) <? S (length l)) with (S i <? length l) by reflexivity. destruct i; reflexivity.
Qed.

Lemma med3_twice_l a c : (med3 a a c == a)%Q.
Proof. unfold med3. assert (E : Qle_bool a a = true) by (apply Qle_bool_iff; lra). rewrite E. destruct (Qle_bool a c) eqn:AC; reflexivity. Qed.
Lemma med3_twice_r a b : (med3 a b b == b)%Q.
Proof. unfold med3. assert (E : Qle_bool b b = true) by (apply Qle_bool_iff; lra). rewrite E. destruct (Qle_bool a b) eqn:AC; reflexivity. Qed.

Lemma median_shown l i : i < length l -> (nth i (median_filter l) 0 == shown true l i)%Q.
Proof.
  intros Hi. unfold median_filter. destruct l as [|x l]; [cbn in Hi; lia|]. set (l' := x :: l) in *. rewrite median_from_nth by exact Hi. unfold shown. cbn [andb].
  destruct i as [|i].
  - cbn [Nat.ltb Nat.leb andb]. change (nth 0 l' 0%Q) with x. apply med3_twice_l.
  - replace (0 <? S i) with true by reflexivity. cbn [andb]. replace (S i - 1) with i by lia. destruct (S (S i) <? length l'); [apply med3_middle|apply med3_twice_r].
Qed.

(* what is shown lies between the neighbouring amounts *)
Lemma middle_mono_up a b c : (a <= b)%Q -> (b <= c)%Q -> (middle a b c == b)%Q.
Proof. intros H1 H2. unfold middle. rewrite (Q.max_r a b) by exact H1. rewrite (Q.min_l b c) by exact H2. rewrite (Q.min_l a b) by exact H1. apply Q.max_r. exact H1. Qed.
Lemma middle_mono_down a b c : (b <= a)%Q -> (c <= b)%Q -> (middle a b c == b)%Q.
Proof. intros H1 H2. unfold middle. rewrite (Q.max_l a b) by exact H1. rewrite (Q.min_r a b) by exact H1. rewrite (Q.min_r a c) by lra. apply Q.max_l. exact H2. Qed.
Lemma middle_range a b c lo hi : (lo <= a <= hi)%Q -> (lo <= b <= hi)%Q -> (lo <= c <= hi)%Q -> (lo <= middle a b c <= hi)%Q.
Proof.
  intros Ha Hb Hc. rewrite <- med3_middle. unfold med3. destruct (Qle_bool a b), (Qle_bool b c), (Qle_bool a c); assumption.
Qed.

Lemma shown_monotone s l i : monotone l -> i < length l -> (shown s l i == nth i l 0)%Q.
Proof.
  intros M Hi. unfold shown. destruct (s && (0 <? i) && (S i <? length l)) eqn:E; [|reflexivity]. apply andb_true_iff in E as [E E2]. apply andb_true_iff in E as [_ E1].
  apply Nat.ltb_lt in E1, E2. destruct M as [M|M]; [apply middle_mono_up|apply middle_mono_down]; apply M; lia.
Qed.
Lemma shown_range s l i lo hi : (forall x, In x l -> (lo <= x <= hi)%Q) -> i < length l -> (lo <= shown s l i <= hi)%Q.
Proof.
  intros H Hi. unfold shown. destruct (s && (0 <? i) && (S i <? length l)) eqn:E; [|apply H, nth_In; exact Hi]. apply andb_true_iff in E as [E E2]. apply andb_true_iff in E as [_ E1].
  apply Nat.ltb_lt in E1, E2. apply middle_range; apply H, nth_In; lia.
Qed.

Lemma phase_df_spec s temps phases df : phase_df s temps phases = Ok df ->
  (forall p, In p phases -> length (snd p) = length temps) /\ Forall2 (fun p q => fst q = fst p /\ length (snd q) = length temps /\ forall i, i < length temps -> (nth i (snd q) 0 == shown s (snd p) i)%Q) phases df.
Proof.
  unfold phase_df. destruct (forallb _ phases) eqn:F; [|discriminate]. intros [= <-]. rewrite forallb_forall in F.
  assert (L : forall p, In p phases -> length (snd p) = length temps) by (intros p I; apply Nat.eqb_eq, F; exact I). split; [exact L|]. clear F.
  induction phases as [|p ps IH]; [destruct s; constructor|]. pose proof (L p (or_introl eq_refl)) as Lp. specialize (IH (fun q I => L q (or_intror I))).
  destruct s; cbn [map]; (constructor; [|exact IH]).
  - cbn [fst snd]. split; [reflexivity|]. rewrite median_length. split; [exact Lp|]. intros i Hi. apply median_shown. lia.
  - split; [reflexivity|]. split; [exact Lp|]. intros i Hi. reflexivity.
Qed.

Section Plots.
Variable C : chem.
Hypothesis W : wf_chem C.
Variable set_at : Q -> result (list entry).
Variable hull : list entry -> list (nat * Q) -> result Q.

(* --- atoms --- *)
Lemma natoms_over c L : NoDup L -> incl (elems C c) L -> (sumQ (amt C c) L == natoms C c)%Q.
Proof.
  intros N I. unfold natoms. rewrite Qsum_sumQ, sumQ_map.
  assert (P : Permutation (filter (fun e => memb Nat.eqb e (elems C c)) L) (elems C c)).
  { apply NoDup_Permutation; [apply NoDup_filter; exact N|apply (wf_nodup C W)|]. intros e. rewrite filter_In, memb_iff. split; [tauto|]. intros H. split; [apply I; exact H|exact H]. }
  rewrite <- (sumQ_perm _ _ _ P). rewrite sumQ_filter. apply sumQ_ext. intros e _. unfold ind. destruct (memb Nat.eqb e (elems C c)) eqn:M; [ring|].
  rewrite (wf_zero C W) by (intros H; apply memb_iff in H; congruence). ring.
Qed.

Lemma total_atoms df i : (Qsum (map snd (num_atoms_row C df i)) == atoms C df (fun p => nth i (snd p) 0))%Q.
Proof.
  rewrite Qsum_sumQ, sumQ_map. unfold num_atoms_row. rewrite sumQ_map. cbn [snd]. unfold atoms.
  rewrite (sumQ_ext _ (fun e => sumQ (fun p => nth i (snd p) 0 * amt C (fst p) e)%Q df)) by (intros e _; rewrite Qsum_sumQ, sumQ_map; reflexivity).
  rewrite sumQ_swap. apply sumQ_ext. intros p I. rewrite sumQ_scale_l. rewrite natoms_over; [reflexivity|apply NoDup_nodup|].
  intros e He. apply nodup_In, in_flat_map. exists p. split; assumption.
Qed.

Lemma amount_map (g : nat -> Q) L e : (amount_in (map (fun e => (e, g e)) L) e == if memb Nat.eqb e L then g e else 0)%Q.
Proof.
  unfold amount_in. induction L as [|x L IH]; [reflexivity|]. cbn [map dict_get memb existsb]. destruct (Nat.eqb_spec e x) as [->|]; [reflexivity|]. cbn [orb]. exact IH.
Qed.

Lemma row_amount df i e : (amount_in (num_atoms_row C df i) e == atoms_of C df (fun p => nth i (snd p) 0) e)%Q.
Proof.
  unfold num_atoms_row. rewrite (amount_map (fun e => Qsum (map (fun p => nth i (snd p) 0 * amt C (fst p) e)%Q df))). unfold atoms_of.
  destruct (memb Nat.eqb e (plot_elems C df)) eqn:M; [rewrite Qsum_sumQ, sumQ_map; reflexivity|].
  symmetry. apply sumQ_all_zero. intros p I. rewrite (wf_zero C W); [ring|]. intros H. enough (memb Nat.eqb e (plot_elems C df) = true) by congruence.
  apply memb_iff. apply nodup_In, in_flat_map. exists p. split; assumption.
Qed.

(* --- compositions --- *)
Definition tidy (l : list (nat * Q)) : Prop := forall kv, In kv l -> (snd kv == 0)%Q \/ (1 # 100000000 <= snd kv)%Q.

Lemma amount_filter (p : nat * Q -> bool) l e : NoDup (map fst l) -> (forall kv, In kv l -> p kv = false -> (snd kv == 0)%Q) -> (amount_in (filter p l) e == amount_in l e)%Q.
Proof.
  unfold amount_in. induction l as [|[k v] l IH]; intros N H; [reflexivity|]. inversion N as [|? ? Nk Nl]; subst. cbn [filter].
  assert (IH' := IH Nl (fun kv I => H kv (or_intror I))). destruct (p (k, v)) eqn:P.
  - cbn [dict_get]. destruct (Nat.eqb e k); [reflexivity|exact IH'].
  - cbn [dict_get]. destruct (Nat.eqb_spec e k) as [->|]; [|exact IH']. rewrite IH'. rewrite dict_get_none by exact Nk. rewrite (H (k, v) (or_introl eq_refl) P). reflexivity.
Qed.

Lemma composition_spec l : NoDup (map fst l) -> tidy l -> exists l', composition l = Ok l' /\ NoDup (map fst l') /\ (forall e, amount_in l' e == amount_in l e)%Q
  /\ (Qsum (map (fun kv => Qabs (snd kv)) l') == Qsum (map snd l))%Q /\ (forall kv, In kv l' -> In kv l /\ (0 < snd kv)%Q).
Proof.
  intros N T. unfold composition. replace (existsb (fun kv => Qlt_bool (snd kv) (- (1 # 100000000))) l) with false.
  2:{ symmetry. apply not_true_is_false. intros X. apply existsb_exists in X as (kv & I & X). apply Qlt_bool_iff' in X. destruct (T kv I); lra. }
  eexists. split; [reflexivity|]. split; [apply map_fst_filter_nodup; exact N|].
  assert (Z : forall kv, In kv l -> Qle_bool (1 # 100000000) (Qabs (snd kv)) = false -> (snd kv == 0)%Q).
  { intros kv I B. destruct (T kv I) as [E|G]; [exact E|]. exfalso. rewrite (Qabs_pos (snd kv)) in B by lra. apply Qle_bool_iff in G. congruence. }
  split; [intros e; apply amount_filter; assumption|]. split.
  - rewrite !Qsum_sumQ, !sumQ_map. rewrite sumQ_filter. apply sumQ_ext. intros kv I. unfold ind. destruct (Qle_bool (1 # 100000000) (Qabs (snd kv))) eqn:B.
    + destruct (T kv I) as [E|G]; [rewrite E; reflexivity|]. rewrite Qabs_pos by lra. ring.
    + rewrite (Z kv I B). ring.
  - intros kv I. apply filter_In in I as [I B]. split; [exact I|]. apply Qle_bool_iff in B. destruct (T kv I) as [E|G]; [|lra]. rewrite E in B. exfalso. revert B. apply Qlt_not_le. reflexivity.
Qed.

Lemma amount_scaled n l e : (~ n == 0)%Q -> (amount_in (map (fun kv => (fst kv, snd kv / n)%Q) l) e == amount_in l e / n)%Q.
Proof.
  intros Hn. unfold amount_in. induction l as [|[k v] l IH]; [cbn; unfold Qdiv; ring|]. cbn [map dict_get fst snd]. destruct (Nat.eqb e k); [reflexivity|exact IH].
Qed.

Lemma composition_row_spec df i c : composition_row C df i = Ok c ->
  (forall e, let x := atoms_of C df (fun p => nth i (snd p) 0%Q) e in let n := atoms C df (fun p => nth i (snd p) 0%Q) in (x == 0)%Q \/ (1 # 100000000 <= x /\ 1 # 100000000 <= x / n)%Q) ->
  (0 < atoms C df (fun p => nth i (snd p) 0))%Q /\ forall e, (amount_in c e == atoms_of C df (fun p => nth i (snd p) 0) e / atoms C df (fun p => nth i (snd p) 0))%Q.
Proof.
  set (n := atoms C df (fun p => nth i (snd p) 0%Q)). intros H T. cbv zeta in T. unfold composition_row in H.
  assert (Nk : map fst (num_atoms_row C df i) = plot_elems C df) by (unfold num_atoms_row; rewrite map_map; apply map_id).
  assert (Ink : forall kv, In kv (num_atoms_row C df i) -> (snd kv == atoms_of C df (fun p => nth i (snd p) 0) (fst kv))%Q).
  { intros kv I. unfold num_atoms_row in I. apply in_map_iff in I as (e & <- & _). cbn [fst snd]. unfold atoms_of. rewrite Qsum_sumQ, sumQ_map. reflexivity. }
  destruct (composition_spec (num_atoms_row C df i)) as (l1 & E1 & N1 & A1 & S1 & G1).
  { rewrite Nk. apply NoDup_nodup. }
  { intros kv I. rewrite (Ink kv I). destruct (T (fst kv)) as [E|[G _]]; [left|right]; assumption. }
  rewrite E1 in H. cbn [bind] in H. unfold fractional in H. rewrite total_atoms in S1. fold n in S1.
  destruct (Qeq_bool _ 0) eqn:Z; [discriminate|]. apply Qeq_bool_neq in Z. rewrite S1 in Z.
  assert (Pn : (0 < n)%Q).
  { assert (0 <= n)%Q; [|lra]. rewrite <- S1, Qsum_sumQ, sumQ_map. apply sumQ_nonneg. intros kv _. apply Qabs_nonneg. }
  set (n' := Qsum (map (fun kv => Qabs (snd kv)) l1)) in *. split; [exact Pn|].
  destruct (composition_spec (map (fun kv => (fst kv, snd kv / n')%Q) l1)) as (l2 & E2 & _ & A2 & _).
  { rewrite map_map. exact N1. }
  { intros kv I. apply in_map_iff in I as (kv' & <- & I). cbn [snd]. rewrite S1. destruct (G1 kv' I) as [I1 P1]. rewrite (Ink kv' I1) in *. destruct (T (fst kv')) as [E|[_ G]]; [|right; exact G]. lra. }
  rewrite E2 in H. assert (l2 = c) by congruence. subst c. intros e. rewrite A2, amount_scaled by (rewrite S1; exact Z). rewrite A1, row_amount, S1. reflexivity.
Qed.

(* --- energies --- *)
Section Set_.
Variable ents : list entry.
Hypothesis Hne : forall x, In x ents -> elems C (e_comp x) <> [].
Hypothesis Hz : elements_at_zero C ents.

Lemma lower_le x y : (e_energy (lower C x y) / natoms C (e_comp (lower C x y)) <= e_energy x / natoms C (e_comp x))%Q
  /\ (e_energy (lower C x y) / natoms C (e_comp (lower C x y)) <= e_energy y / natoms C (e_comp y))%Q /\ (lower C x y = x \/ lower C x y = y).
Proof.
  unfold lower. destruct (Qlt_bool (e_energy y / natoms C (e_comp y)) (e_energy x / natoms C (e_comp x))) eqn:B.
  - apply Qlt_bool_iff' in B. split; [lra|]. split; [apply Qle_refl|right; reflexivity].
  - apply Qlt_bool_false in B. split; [apply Qle_refl|]. split; [exact B|left; reflexivity].
Qed.
Lemma fold_lower xs : forall x, let r := fold_left (lower C) xs x in In r (x :: xs) /\ forall y, In y (x :: xs) -> (e_energy r / natoms C (e_comp r) <= e_energy y / natoms C (e_comp y))%Q.
Proof.
  induction xs as [|y xs IH]; intros x; cbv zeta.
  - cbn. split; [left; reflexivity|]. intros y [<-|[]]. apply Qle_refl.
  - cbn [fold_left]. destruct (IH (lower C x y)) as (I & L). cbv zeta in *. destruct (lower_le x y) as (L1 & L2 & O). split.
    + destruct I as [E|I]; [|right; right; exact I]. rewrite <- E. destruct O as [-> | ->]; [left|right; left]; reflexivity.
    + specialize (L (lower C x y) (or_introl eq_refl)) as Lb. intros z [<-|[<-|Iz]]; [lra|lra|apply L; right; exact Iz].
Qed.

Lemma pure_iff e x : is_pure C e x = true <-> elems C (e_comp x) = [e].
Proof. unfold is_pure. destruct (list_eq_dec _ _ _); split; intros; congruence. Qed.

Lemma ref_zero e q : el_ref C ents e = Ok q -> (q == 0)%Q.
Proof.
  unfold el_ref. destruct (filter (is_pure C e) ents) as [|x xs] eqn:F; [discriminate|]. destruct (fold_lower xs x) as (I & L). cbv zeta in *. rewrite <- F in I, L.
  set (r := fold_left (lower C) xs x) in *. intros E. assert (q = (e_energy r / natoms C (e_comp r))%Q) by congruence. subst q. clear E.
  apply filter_In in I as [I P]. apply pure_iff in P. destruct (Hz r e I P) as (G & y & Iy & Py & Zy).
  specialize (L y). rewrite Zy in L. assert (Pr : (0 < natoms C (e_comp r))%Q) by (apply natoms_pos; [exact W|apply Hne; exact I]).
  assert (Ly : (e_energy r / natoms C (e_comp r) <= 0 / natoms C (e_comp y))%Q) by (apply L, filter_In; split; [exact Iy|apply pure_iff; exact Py]).
  apply Qle_antisym; [unfold Qdiv in *; rewrite Qmult_0_l in Ly; exact Ly|]. apply Qle_shift_div_l; [exact Pr|]. lra.
Qed.

Lemma form_energy x q : form_energy_per_atom C ents x = Ok q -> (q == e_energy x / natoms C (e_comp x))%Q.
Proof.
  unfold form_energy_per_atom. destruct (mapM (el_ref C ents) (elems C (e_comp x))) as [refs|] eqn:M; [|discriminate]. cbn [bind]. intros E.
  assert (q = ((e_energy x - Qsum (map (fun er => amt C (e_comp x) (fst er) * snd er)%Q (combine (elems C (e_comp x)) refs))) / natoms C (e_comp x))%Q) by congruence. subst q.
  apply mapM_Forall2 in M. assert (Z : (Qsum (map (fun er => amt C (e_comp x) (fst er) * snd er)%Q (combine (elems C (e_comp x)) refs)) == 0)%Q).
  { rewrite Qsum_sumQ, sumQ_map. apply sumQ_all_zero. intros [e q] I. cbn [fst snd]. assert (R : el_ref C ents e = Ok q).
    { clear -M I. revert I. induction M as [|a b l1 l2 H _ IH]; [intros []|]. intros [E|I]; [|apply IH; exact I]. assert (a = e) by congruence. assert (b = q) by congruence. subst. exact H. }
    rewrite (ref_zero e q R). ring. }
  rewrite Z. unfold Qdiv. ring.
Qed.

Lemma ground_lowest f x : ground C ents (seq 0 (length ents)) f = Ok x -> lowest_entry C ents f x.
Proof.
  unfold ground. destruct (EntrySetProofs.min_entry_spec (formula_at C ents) (epa_at C ents) (seq 0 (length ents)) (red C f)) as (A & _).
  destruct (EntrySetModel.get_min_entry _ _ _ (red C f)) as [i|]; [|discriminate]. cbn [bind]. intros E. assert (x = entry_at ents i) by congruence. subst x. clear E.
  destruct (A i eq_refl) as (F & I & G). apply in_seq in I.
  assert (N : forall j, j < length ents -> In (entry_at ents j) ents) by (intros j Hj; apply nth_In; exact Hj).
  split; [apply N; lia|]. split; [exact F|]. intros e' I' F'. destruct (In_nth _ _ no_entry I') as (j & Hj & Ej). rewrite <- Ej. apply (G j); [apply in_seq; lia|].
  unfold formula_at, entry_at in *. rewrite Ej, F', F. reflexivity.
Qed.

Lemma phase_energy_spec f q : phase_energy C ents f = Ok q -> exists x, lowest_entry C ents f x /\ (q == e_energy x / natoms C (e_comp x) * natoms C (red C f))%Q.
Proof.
  unfold phase_energy. destruct (ground C ents _ (red C f)) as [x|] eqn:G; [|discriminate]. cbn [bind]. destruct (form_energy_per_atom C ents x) as [u|] eqn:Fe; [|discriminate]. cbn [bind].
  intros E. assert (q = (u * natoms C (red C f))%Q) by congruence. subst q. exists x. apply ground_lowest in G. apply form_energy in Fe. split; [|rewrite Fe; reflexivity].
  destruct G as (G1 & G2 & G3). rewrite (wf_red_red C W) in G2, G3. split; [exact G1|]. split; assumption.
Qed.
End Set_.

(* --- the cascade --- *)
Lemma Forall2_nth {A B} (P : A -> B -> Prop) l l' : Forall2 P l l' -> forall i a, nth_error l i = Some a -> exists b, nth_error l' i = Some b /\ P a b.
Proof.
  induction 1 as [|x y l l' H _ IH]; intros i a E; [destruct i; discriminate|]. destruct i as [|i]; cbn in *; [exists y; split; [reflexivity|congruence]|apply IH; exact E].
Qed.
Lemma frame_sums (phases df : list (nat * list Q)) (a b : nat * list Q -> Q) (g : nat -> Q) : Forall2 (fun p q => fst q = fst p /\ (b q == a p)%Q) phases df ->
  (sumQ (fun q => b q * g (fst q)) df == sumQ (fun p => a p * g (fst p)) phases)%Q.
Proof. induction 1 as [|p q ps qs (E1 & E2) _ IH]; [reflexivity|]. rewrite !sumQ_cons, IH, E1, E2. reflexivity. Qed.

Lemma lowest_ext ents x y h : (forall e, x e == y e)%Q -> lowest_mixture C ents x h -> lowest_mixture C ents y h.
Proof.
  intros E (L & w & M & Ew). assert (T : forall u, mixture C ents x u <-> mixture C ents y u).
  { intros u. split; intros (A & B); (split; [exact A|]); intros e; rewrite B; [|symmetry]; apply E. }
  split; [intros u Mu; apply L, T; exact Mu|]. exists w. split; [apply T; exact M|exact Ew].
Qed.

Variables (s : bool) (temps : list Q) (phases : list (nat * list Q)).
Hypothesis Hhull : forall ents c h, hull ents c = Ok h -> lowest_mixture C ents (amount_in c) h.
Hypothesis Hsets : forall t ents, In t temps -> set_at t = Ok ents -> elements_at_zero C ents /\ forall x, In x ents -> elems C (e_comp x) <> [].
Hypothesis Hred : forall p, In p phases -> red C (fst p) = fst p.
Hypothesis Htr : forall i, i < length temps -> no_traces C phases (fun p => shown s (snd p) i).
Notation sh i := (fun p : nat * list Q => shown s (snd p) i).

Lemma energies_spec df t c h es : In t temps -> (forall p, In p df -> red C (fst p) = fst p) -> energies_at C set_at hull temps df c t = Ok (h, es) ->
  exists ents gs, set_at t = Ok ents /\ hull ents c = Ok h
    /\ Forall2 (fun p x => lowest_entry C ents (fst p) x) df gs /\ Forall2 (fun px q => (q == e_energy (snd px) / natoms C (e_comp (snd px)) * natoms C (fst (fst px)))%Q) (combine df gs) es.
Proof.
  intros It Rd H. unfold energies_at in H. destruct (set_at t) as [ents|] eqn:S; [|discriminate]. cbn [bind] in H. destruct (Hsets t ents It S) as (Z & Ne).
  destruct (mapM (el_ref C ents) _) as [u|]; [|discriminate]. cbn [bind] in H. destruct (1 <? _); [discriminate|].
  destruct (hull ents c) as [h'|] eqn:Hh; [|discriminate]. cbn [bind] in H. destruct (mapM _ df) as [es'|] eqn:M; [|discriminate]. cbn [bind] in H.
  assert (h' = h) by congruence. assert (es' = es) by congruence. subst h' es'. clear H. apply mapM_Forall2 in M.
  assert (X : exists gs, Forall2 (fun p x => lowest_entry C ents (fst p) x) df gs /\ Forall2 (fun px q => (q == e_energy (snd px) / natoms C (e_comp (snd px)) * natoms C (fst (fst px)))%Q) (combine df gs) es).
  { clear -W Ne Z M Rd. induction M as [|p q ps qs H _ IH]; [exists []; split; constructor|].
    destruct IH as (gs & G1 & G2); [intros p' I; apply Rd; right; exact I|]. destruct (phase_energy_spec ents Ne Z _ _ H) as (x & L & E).
    exists (x :: gs). split; [constructor; assumption|]. cbn [combine]. constructor; [|exact G2]. cbn [fst snd]. rewrite E, (Rd p) by (left; reflexivity). reflexivity. }
  destruct X as (gs & G1 & G2). exists ents, gs. tauto.
Qed.

Notation level i gs := (mean_energy C phases (sh i) gs).

Lemma cascade_sum df i n gs es : Forall2 (fun p q => fst q = fst p /\ (nth i (snd q) 0 == sh i p)%Q) phases df -> length gs = length df ->
  Forall2 (fun px q => (q == e_energy (snd px) / natoms C (e_comp (snd px)) * natoms C (fst (fst px)))%Q) (combine df gs) es ->
  (Qsum (map (fun pe => nth i (snd (fst pe)) 0 * snd pe / n) (combine df es))
   == sumQ (fun px => sh i (fst px) * natoms C (fst (fst px)) * (e_energy (snd px) / natoms C (e_comp (snd px)))) (combine phases gs) / n)%Q.
Proof.
  clear Hred Htr. rewrite Qsum_sumQ, sumQ_map. intros F. revert gs es. induction F as [|p q ps qs (E1 & E2) _ IH]; intros gs es Lg G.
  - cbn. unfold Qdiv. ring.
  - destruct gs as [|x gs]; [discriminate|]. cbn [combine] in G. inversion G as [|? e0 ? es' Ge G']; subst. cbn [combine]. rewrite !sumQ_cons. cbn [fst snd] in *.
    rewrite (IH gs es'); [|cbn in Lg; lia|exact G']. rewrite Ge, E2, E1. unfold Qdiv. ring.
Qed.

Lemma cascade_spec vs : cascade C set_at hull s temps phases = Ok vs ->
  length vs = length temps /\ forall i t v, nth_error temps i = Some t -> nth_error vs i = Some v ->
    exists ents gs h, set_at t = Ok ents /\ Forall2 (fun p x => lowest_entry C ents (fst p) x) phases gs
      /\ (0 < atoms C phases (sh i))%Q /\ lowest_mixture C ents (fun e => atoms_of C phases (sh i) e / atoms C phases (sh i))%Q h /\ (v == level i gs - h)%Q.
Proof.
  unfold cascade. destruct (phase_df s temps phases) as [df|] eqn:D; [|discriminate]. cbn [bind]. destruct (phase_df_spec _ _ _ _ D) as (Lp & F). clear D. intros H.
  assert (H' : bind (mapM (composition_row C df) (seq 0 (length temps))) (fun comps =>
      bind (mapM (fun ct => energies_at C set_at hull temps df (fst ct) (snd ct)) (combine comps temps)) (fun rows =>
      Ok (map (fun ir =>
          let n := Qsum (map snd (num_atoms_row C df (fst ir))) in
          (Qsum (map (fun pe => nth (fst ir) (snd (fst pe)) 0 * snd pe / n) (combine df (snd (snd ir)))) - fst (snd ir))%Q)
        (combine (seq 0 (length rows)) rows)))) = Ok vs).
  { destruct temps; [discriminate|]. destruct df; [discriminate|]. exact H. }
  clear H. rename H' into H. destruct (mapM (composition_row C df) _) as [comps|] eqn:Mc; [|discriminate]. cbn [bind] in H.
  destruct (mapM _ (combine comps temps)) as [rows|] eqn:Mr; [|discriminate]. cbn [bind] in H. apply mapM_Forall2 in Mc, Mr.
  assert (Lc : length comps = length temps) by (rewrite <- (Forall2_length _ _ _ Mc), seq_length; reflexivity).
  assert (Lr : length rows = length temps) by (rewrite <- (Forall2_length _ _ _ Mr), combine_length; lia).
  assert (Ev : vs = map (fun ir =>
          let n := Qsum (map snd (num_atoms_row C df (fst ir))) in
          (Qsum (map (fun pe => nth (fst ir) (snd (fst pe)) 0 * snd pe / n) (combine df (snd (snd ir)))) - fst (snd ir))%Q)
        (combine (seq 0 (length rows)) rows)) by (symmetry; exact (f_equal (fun r => match r with Ok a => a | Err _ => [] end) H)). clear H.
  split; [subst vs; rewrite map_length, combine_length, seq_length; lia|]. intros i t v Et Evi.
  assert (Hi : i < length temps) by (apply nth_error_Some; congruence).
  assert (Fi : Forall2 (fun p q => fst q = fst p /\ (nth i (snd q) 0 == sh i p)%Q) phases df).
  { clear -F Hi. induction F as [|p q ps qs (E1 & _ & E2) _ IH]; constructor; [|exact IH]. split; [exact E1|apply E2; exact Hi]. }
  destruct (nth_error rows i) as [[h es]|] eqn:Er; [|apply nth_error_None in Er; lia]. destruct (nth_error comps i) as [c|] eqn:Ec; [|apply nth_error_None in Ec; lia].
  assert (Ect : nth_error (combine comps temps) i = Some (c, t)).
  { clear -Ec Et. revert temps i Ec Et. induction comps as [|c0 cs IH]; intros ts i Ec Et; [destruct i; discriminate|]. destruct ts as [|t0 ts]; [destruct i; discriminate|].
    destruct i; cbn in *; [congruence|apply IH; assumption]. }
  assert (Ei : energies_at C set_at hull temps df c t = Ok (h, es)) by (destruct (Forall2_nth _ _ _ Mr i (c, t) Ect) as (r & Er' & E); rewrite Er in Er'; assert (r = (h, es)) by congruence; subst r; exact E).
  assert (Eci : composition_row C df i = Ok c).
  { destruct (Forall2_nth _ _ _ Mc i i) as (c' & Ec' & E); [rewrite (nth_error_nth' _ 0) by (rewrite seq_length; exact Hi); f_equal; apply seq_nth; exact Hi|]. congruence. }
  destruct (energies_spec df t c h es) as (ents & gs & Hs & Hh & G1 & G2); [apply nth_error_In with i; exact Et| |exact Ei|].
  { intros q Iq. clear -F Iq Hred. induction F as [|p q0 ps qs (E1 & _) _ IH]; [destruct Iq|]. destruct Iq as [<-|Iq]; [rewrite E1; apply Hred; left; reflexivity|]. apply IH; [|exact Iq]. intros p' I. apply Hred. right. exact I. }
  assert (Aof : forall e, (atoms_of C df (fun p => nth i (snd p) 0) e == atoms_of C phases (sh i) e)%Q) by (intros e; apply (frame_sums phases df (sh i) (fun p => nth i (snd p) 0%Q) (fun f => amt C f e)); exact Fi).
  assert (At : (atoms C df (fun p => nth i (snd p) 0) == atoms C phases (sh i))%Q) by (apply (frame_sums phases df (sh i) (fun p => nth i (snd p) 0%Q) (natoms C)); exact Fi).
  destruct (composition_row_spec df i c Eci) as (Pn & Ac).
  { cbv zeta. intros e. rewrite Aof, At. apply (Htr i Hi). }
  exists ents, gs, h. split; [exact Hs|]. split.
  { clear -F G1. revert gs G1. induction F as [|p q ps qs (E1 & _) _ IH]; intros gs G; inversion G; subst; constructor; [rewrite <- E1; assumption|apply IH; assumption]. }
  split; [rewrite <- At; exact Pn|]. split.
  { apply (lowest_ext ents (amount_in c)); [|apply Hhull; exact Hh]. intros e. rewrite Ac, Aof, At. reflexivity. }
  assert (v = (let n := Qsum (map snd (num_atoms_row C df i)) in Qsum (map (fun pe => nth i (snd (fst pe)) 0 * snd pe / n) (combine df es)) - h)%Q).
  { rewrite Ev in Evi. rewrite nth_error_map in Evi. assert (Q : nth_error (combine (seq 0 (length rows)) rows) i = Some (i, (h, es))).
    { clear -Er Hi Lr. enough (G : forall k, nth_error (combine (seq k (length rows)) rows) i = Some (k + i, (h, es))) by (exact (G 0)).
      clear Lr Hi. revert i Er. induction rows as [|r rs IH]; intros i Er k; [destruct i; discriminate|]. destruct i; cbn in *; [rewrite Nat.add_0_r; congruence|]. rewrite (IH i Er (S k)). f_equal. f_equal. lia. }
    rewrite Q in Evi. cbn [option_map fst snd] in Evi. congruence. }
  subst v. cbv zeta. rewrite (cascade_sum df i _ gs es Fi); [|rewrite <- (Forall2_length _ _ _ G1); reflexivity|exact G2]. rewrite total_atoms, At. reflexivity.
Qed.

Lemma same_formula f x e : red C (e_comp x) = f -> red C f = f -> elems C (e_comp x) <> [] ->
  (natoms C f / natoms C (e_comp x) * amt C (e_comp x) e == amt C f e)%Q.
Proof.
  intros E R Ne. set (k := fac C (e_comp x)). assert (Pk : (0 < k)%Q) by (apply (wf_fac_pos C W)).
  assert (A : forall e, (amt C (e_comp x) e == k * amt C f e)%Q) by (intros e'; rewrite (wf_fac C W (e_comp x) e'), E; reflexivity).
  assert (Nx : (natoms C (e_comp x) == k * natoms C f)%Q).
  { unfold natoms. rewrite !Qsum_sumQ, !sumQ_map. rewrite <- (wf_red_elems C W (e_comp x)), E. rewrite <- sumQ_scale_l. apply sumQ_ext. intros e' _. apply A. }
  assert (P : (0 < natoms C (e_comp x))%Q) by (apply natoms_pos; assumption). assert (Pf : (~ natoms C f == 0)%Q) by (intros Z; rewrite Z in Nx; lra).
  rewrite Nx, (A e). field. split; [exact Pf|lra].
Qed.

Lemma cascade_nonneg vs : (forall p x, In p phases -> In x (snd p) -> (0 <= x)%Q) -> cascade C set_at hull s temps phases = Ok vs -> forall v, In v vs -> (0 <= v)%Q.
Proof.
  intros Pos H v Iv. assert (Ln : forall p, In p phases -> length (snd p) = length temps).
  { unfold cascade in H. destruct (phase_df s temps phases) as [df|] eqn:D; [|discriminate]. destruct (phase_df_spec _ _ _ _ D) as (Lp & _). exact Lp. }
  destruct (cascade_spec vs H) as (Lv & Sp). apply In_nth_error in Iv as (i & Ei). assert (Hi : i < length temps) by (rewrite <- Lv; apply nth_error_Some; congruence).
  destruct (nth_error temps i) as [t|] eqn:Et; [|apply nth_error_None in Et; lia]. destruct (Sp i t v Et Ei) as (ents & gs & h & Hs & G & Pn & (Lo & _) & Ev).
  destruct (Hsets t ents) as (_ & Ne); [apply nth_error_In with i; exact Et|exact Hs|].
  set (n := atoms C phases (sh i)) in *. set (w := map (fun px => (snd px, sh i (fst px) * natoms C (fst (fst px)) / natoms C (e_comp (snd px)) / n)%Q) (combine phases gs)).
  assert (Ps : forall p, In p phases -> (0 <= sh i p)%Q).
  { intros p Ip. cbv beta. unfold shown. destruct (s && (0 <? i) && (S i <? length (snd p))) eqn:B.
    - apply andb_true_iff in B as [B B2]. apply andb_true_iff in B as [_ B1]. apply Nat.ltb_lt in B1, B2.
      assert (A : forall j, j < length (snd p) -> (0 <= nth j (snd p) 0)%Q) by (intros j Hj; apply (Pos p); [exact Ip|apply nth_In; exact Hj]).
      rewrite <- (med3_middle (nth (i - 1) (snd p) 0) (nth i (snd p) 0) (nth (S i) (snd p) 0))%Q. unfold med3.
      assert (A1 := A (i - 1)). assert (A2 := A i). assert (A3 := A (S i)). repeat match goal with |- context [Qle_bool ?a ?b] => destruct (Qle_bool a b) end; first [apply A1; lia|apply A2; lia|apply A3; lia].
    - apply (Pos p (nth i (snd p) 0%Q) Ip). apply nth_In. rewrite (Ln p Ip). exact Hi. }
  assert (Mw : mixture C ents (fun e => atoms_of C phases (sh i) e / n)%Q w).
  { split.
    - intros ek I. unfold w in I. apply in_map_iff in I as ([p x] & <- & I). cbn [fst snd]. assert (Ip := in_combine_l _ _ _ _ I).
      assert (L : lowest_entry C ents (fst p) x).
      { clear -G I. revert I. induction G as [|p0 x0 ps xs Hx _ IH]; [intros []|]. intros [E|I]; [|apply IH; exact I]. assert (p0 = p) by congruence. assert (x0 = x) by congruence. subst. exact Hx. }
      split; [apply L|]. assert (P1 : (0 < natoms C (e_comp x))%Q) by (apply natoms_pos; [exact W|apply Ne, L]).
      assert (P2 : (0 <= natoms C (fst p))%Q). { unfold natoms. rewrite Qsum_sumQ, sumQ_map. apply sumQ_nonneg. intros e He. apply Qlt_le_weak, (wf_pos C W). exact He. }
      apply Qle_shift_div_l; [exact Pn|]. rewrite Qmult_0_l. apply Qle_shift_div_l; [exact P1|]. rewrite Qmult_0_l. apply Qmult_le_0_compat; [apply Ps; exact Ip|exact P2].
    - intros e. unfold w, atoms_of. rewrite sumQ_map. cbn [fst snd]. assert (Hred' := Hred). clear -G Ne W Hred' Pn. unfold Qdiv. rewrite <- sumQ_scale_r. fold n.
      clearbody n. revert Hred'. induction G as [|p x ps xs (L1 & L2 & _) _ IH]; intros R; [reflexivity|].
      cbn [combine]. rewrite !sumQ_cons. rewrite IH by (intros q Iq; apply R; right; exact Iq). cbn [fst snd].
      assert (E := same_formula (fst p) x e). rewrite L2, (R p) in E by (left; reflexivity). rewrite <- E; [|reflexivity|reflexivity|apply Ne; exact L1]. unfold Qdiv. ring. }
  assert (Hl := Lo w Mw). rewrite Ev. assert (El : (mixture_energy w == level i gs)%Q); [|lra].
  unfold mixture_energy, w, mean_energy. fold n. rewrite sumQ_map. cbn [fst snd]. unfold Qdiv. rewrite <- sumQ_scale_r. apply sumQ_ext. intros px _. ring.
Qed.
End Plots.

(* --- the frame --- *)
Lemma frame_range smoothing temps phases df : phase_df smoothing temps phases = Ok df ->
  map fst df = map fst phases /\ forall k p q, nth_error phases k = Some p -> nth_error df k = Some q ->
    length (snd q) = length temps /\ (forall i, i < length temps -> (nth i (snd q) 0 == shown smoothing (snd p) i)%Q)
    /\ forall lo hi, (forall x, In x (snd p) -> (lo <= x <= hi)%Q) -> forall x, In x (snd q) -> (lo <= x <= hi)%Q.
Proof.
  intros D. destruct (phase_df_spec _ _ _ _ D) as (Lp & F). split.
  { clear -F. induction F as [|p q ps qs (E & _) _ IH]; [reflexivity|]. cbn. rewrite E, IH. reflexivity. }
  intros k p q Ep Eq. destruct (Forall2_nth _ _ _ F k p Ep) as (q' & Eq' & (_ & L & E)). assert (q' = q) by congruence. subst q'. split; [exact L|]. split; [exact E|].
  intros lo hi H x I. destruct (In_nth _ _ 0%Q I) as (i & Hi & <-). rewrite L in Hi. rewrite (E i Hi). apply shown_range; [exact H|]. rewrite (Lp p); [exact Hi|]. apply nth_error_In with k. exact Ep.
Qed.

Lemma frame_atoms C smoothing temps phases df i e : phase_df smoothing temps phases = Ok df -> i < length temps ->
  (atoms_of C df (fun q => nth i (snd q) 0) e == atoms_of C phases (fun p => shown smoothing (snd p) i) e)%Q.
Proof.
  intros D Hi. destruct (phase_df_spec _ _ _ _ D) as (_ & F). apply (frame_sums phases df (fun p => shown smoothing (snd p) i) (fun q => nth i (snd q) 0%Q) (fun f => amt C f e)).
  clear -F Hi. induction F as [|p q ps qs (E1 & _ & E2) _ IH]; constructor; [|exact IH]. split; [exact E1|apply E2; exact Hi].
Qed.

Lemma frame_conserves C smoothing temps phases df : phase_df smoothing temps phases = Ok df -> (smoothing = false \/ forall p, In p phases -> monotone (snd p)) ->
  forall i e, i < length temps -> (atoms_of C df (fun q => nth i (snd q) 0) e == atoms_of C phases (fun p => nth i (snd p) 0) e)%Q.
Proof.
  intros D M i e Hi. rewrite (frame_atoms C _ _ _ _ _ _ D Hi). destruct (phase_df_spec _ _ _ _ D) as (Lp & _). apply sumQ_ext. intros p Ip.
  assert (E : (shown smoothing (snd p) i == nth i (snd p) 0)%Q); [|rewrite E; reflexivity].
  destruct M as [-> |M]; [reflexivity|]. apply shown_monotone; [apply M; exact Ip|]. rewrite (Lp p Ip). exact Hi.
Qed.
