(* The multiplicities of a pathway by the exact pseudo-inverse. *)
From Coq Require Import Setoid Lqa Field.
From Verif Require Import Prelude ListFacts NumQ SumQ UtilsModel UtilsSpec UtilsProofs PathModel PathSpec SolverModel SolverSpec SolverProofs SolverTopProofs SolverMoreProofs
  SolverFinalProofs LinModel LinSpec LinProofs LinBalanceProofs PinvModel.
Open Scope nat_scope.

Lemma dot_weighted M ms j : (LinModel.dot (map (fun row => nth j row 0%Q) M) ms == weighted ms M j)%Q.
Proof.
  revert ms. induction M as [|row M IH]; intros [|m ms]; try reflexivity. cbn [map LinModel.dot]. rewrite IH, weighted_cons. ring.
Qed.
Lemma system_rows M net q : In q (path_system M net) -> length (fst q) = length M.
Proof. intros H. apply in_map_iff in H as (j & <- & _). cbn [fst]. apply map_length. Qed.
Lemma path_pinv_length M net : length (path_pinv M net) = length M.
Proof. apply solution_length. apply system_rows. Qed.

Lemma squares_zero M net ms : (squares (path_system M net) ms <= 0)%Q <-> forall j, j < length net -> (weighted ms M j == nth j net 0)%Q.
Proof.
  unfold squares. split.
  - intros H j Hj. pose proof (sum_sq_zero (gap ms) (path_system M net) H) as G.
    specialize (G (map (fun row => nth j row 0%Q) M, nth j net 0%Q)). unfold gap in G. cbn [fst snd] in G. rewrite dot_weighted in G.
    assert (E : (weighted ms M j - nth j net 0 == 0)%Q) by (apply G; apply in_map_iff; exists j; split; [reflexivity|apply in_seq; lia]). lra.
  - intros H. apply Qle_lteq. right. apply sumQ_all_zero. intros q Hq. apply in_map_iff in Hq as (j & <- & Hj). apply in_seq in Hj. unfold gap. cbn [fst snd]. rewrite dot_weighted, H by lia. ring.
Qed.
Lemma weighted_minus ms ms' rows j : length ms = length rows -> length ms' = length rows -> (weighted (map (fun p => fst p - snd p) (combine ms ms')) rows j == weighted ms rows j - weighted ms' rows j)%Q.
Proof.
  revert ms ms'. induction rows as [|row rows IH]; intros [|m ms] [|m' ms'] L L'; try discriminate; [cbn; ring|]. cbn [combine map]. rewrite !weighted_cons, IH by (injection L; injection L'; auto). cbn [fst snd]. ring.
Qed.
Theorem path_pinv_solves rows net : solves path_pinv rows net.
Proof.
  intros Hind ms L Hw. set (x := path_pinv rows net). assert (Lx : length x = length rows) by apply path_pinv_length.
  assert (Hx : forall j, j < length net -> (weighted x rows j == nth j net 0)%Q).
  { apply squares_zero. eapply Qle_trans; [apply (solution_fits (path_system rows net) (length rows) (system_rows rows net) ms L)|]. apply squares_zero. exact Hw. }
  pose proof (Hind (map (fun p => fst p - snd p)%Q (combine x ms))) as Z.
  assert (F : Forall (fun m => (m == 0)%Q) (map (fun p => fst p - snd p)%Q (combine x ms))).
  { apply Z; [rewrite map_length, combine_length; lia|]. intros j Hj. rewrite weighted_minus by lia. rewrite Hx, Hw by exact Hj. ring. }
  clear -F Lx L. revert F. assert (Le : length x = length ms) by lia. clear Lx L. revert ms Le. generalize x. clear x. induction x as [|a x IH]; intros [|b ms] Le F; try discriminate; [constructor|].
  cbn [combine map] in F. inversion F as [|? ? F1 F2]; subst. cbn [fst snd] in F1. constructor; [lra|apply IH; [injection Le; auto|exact F2]].
Qed.

(* --- linear independence by the rank --- *)
Lemma full_rank m vs : (forall v, In v vs -> length v = m) -> length vs <= span_rank m vs ->
  forall x, length x = length vs -> (forall w, length w = m -> (LinModel.dot (lincomb m x vs) w == 0)%Q) -> Forall (fun a => (a == 0)%Q) x.
Proof.
  induction vs as [|v vs IH]; intros H R x L Z; [destruct x; [constructor|discriminate]|]. destruct x as [|a x]; [discriminate|].
  assert (H' : forall v, In v vs -> length v = m) by (intros u Hu; apply H; right; exact Hu). assert (Lv : length v = m) by (apply H; left; reflexivity).
  assert (B : forall us, span_rank m us <= length us) by (induction us as [|u us IHu]; cbn [span_rank length]; [lia|destruct (Qeq_bool _ _); lia]).
  cbn [span_rank length] in R. fold (rest m vs v) in R. destruct (Qeq_bool (LinModel.dot (rest m vs v) (rest m vs v)) 0) eqn:E; [cbn [Nat.add] in R; exfalso; exact (Nat.nle_succ_diag_l _ (Nat.le_trans _ _ _ R (B vs)))|].
  assert (Lr : length (rest m vs v) = m) by (apply rest_length; assumption).
  assert (O : forall u, In u vs -> (LinModel.dot u (rest m vs v) == 0)%Q) by (apply project_orth; assumption).
  assert (Ll : forall xs, length (lincomb m xs vs) = m) by (intros xs; apply lincomb_length; exact H').
  assert (Dv : (LinModel.dot v (rest m vs v) == LinModel.dot (rest m vs v) (rest m vs v))%Q).
  { assert (G : (LinModel.dot (rest m vs v) (rest m vs v) == LinModel.dot v (rest m vs v) - LinModel.dot (lincomb m (project m vs v) vs) (rest m vs v))%Q).
    { unfold rest at 1. apply dot_sub. rewrite Ll. exact Lv. }
    rewrite G, (lincomb_orth m _ vs _ H' O). ring. }
  assert (Za : (a == 0)%Q).
  { pose proof (Z _ Lr) as G. cbn [lincomb] in G. rewrite dot_add in G by (rewrite scale_length, Ll; exact Lv). rewrite dot_scale, (lincomb_orth m _ vs _ H' O), Dv in G.
    assert (G' : (a * LinModel.dot (rest m vs v) (rest m vs v) == 0)%Q) by lra. apply Qmult_integral in G' as [G'|G']; [exact G'|]. apply Qeq_bool_iff in G'. congruence. }
  constructor; [exact Za|]. apply IH; [exact H'|lia|injection L; auto|]. intros w Lw. pose proof (Z w Lw) as G. cbn [lincomb] in G.
  rewrite dot_add in G by (rewrite scale_length, Ll; exact Lv). rewrite dot_scale, Za in G. lra.
Qed.

(* --- positive combinations (Caratheodory) --- *)
Section Cone.
Context {A : Type}.
Variable row : A -> list Q.
Variable n : nat.
Definition total (l : list (A * Q)) (j : nat) : Q := sumQ (fun am => snd am * nth j (row (fst am)) 0)%Q l.
Lemma total_weighted l j : (total l j == weighted (map snd l) (map (fun am => row (fst am)) l) j)%Q.
Proof. induction l as [|[a m] l IH]; [reflexivity|]. unfold total in *. rewrite sumQ_cons. cbn [map fst snd]. rewrite weighted_cons, IH. reflexivity. Qed.

Definition cut (a : A) : list Q := map (fun j => nth j (row a) 0%Q) (seq 0 n).
Lemma cut_length a : length (cut a) = n.
Proof. unfold cut. rewrite map_length, seq_length. reflexivity. Qed.
Lemma cut_unit a j : j < n -> (LinModel.dot (cut a) (unit_row n j) == nth j (row a) 0)%Q.
Proof.
  intros Hj. rewrite dot_comm, (unit_dot n j (cut a) (cut_length a) Hj). unfold cut. rewrite (nth_indep _ 0%Q (nth 0 (row a) 0%Q)) by (rewrite map_length, seq_length; exact Hj).
  rewrite (map_nth (fun j => nth j (row a) 0%Q)), seq_nth by exact Hj. reflexivity.
Qed.
Lemma cut_total (l : list A) x j : length x = length l -> j < n -> (LinModel.dot (lincomb n x (map cut l)) (unit_row n j) == weighted x (map row l) j)%Q.
Proof.
  intros L Hj. rewrite lincomb_dot by (intros v Hv; apply in_map_iff in Hv as (a & <- & _); apply cut_length).
  revert x L. induction l as [|a l IH]; intros [|b x] L; try discriminate; [reflexivity|]. cbn [map combine]. rewrite sumQ_cons, weighted_cons. cbn [fst snd]. rewrite (cut_unit a j Hj), IH by (injection L; auto). reflexivity.
Qed.

Lemma unit_sum w : length w = n -> forall u, length u = n -> (forall j, j < n -> (LinModel.dot u (unit_row n j) == 0)%Q) -> (LinModel.dot u w == 0)%Q.
Proof.
  intros Lw u Lu H. assert (G : forall j, j < n -> (nth j u 0 == 0)%Q) by (intros j Hj; rewrite <- (unit_dot n j u Lu Hj), dot_comm; apply H; exact Hj).
  clear H. assert (G' : forall (u w : list Q), (forall j, j < length u -> (nth j u 0 == 0)%Q) -> (LinModel.dot u w == 0)%Q).
  { clear. induction u as [|a u IH]; intros [|b w] G; try reflexivity. cbn [LinModel.dot]. pose proof (G 0 ltac:(cbn; lia)) as Ga. cbn [nth] in Ga.
    pose proof (IH w (fun j Hj => G (S j) (proj1 (Nat.succ_lt_mono _ _) Hj))) as E. nra. }
  apply G'. intros j Hj. apply G. rewrite <- Lu. exact Hj.
Qed.

Lemma dependence (l : list A) : independent n (map row l) \/ exists x b, length x = length l /\ b < length l /\ (nth b x 0 == 1)%Q /\ forall j, j < n -> (weighted x (map row l) j == 0)%Q.
Proof.
  assert (H : forall v, In v (map cut l) -> length v = n) by (intros v Hv; apply in_map_iff in Hv as (a & <- & _); apply cut_length).
  destruct (Nat.le_gt_cases (length (map cut l)) (span_rank n (map cut l))) as [R|R].
  - left. intros ms L Hw. rewrite map_length in L. apply (full_rank n (map cut l) H R); [rewrite map_length; exact L|]. intros w Lw. apply unit_sum; [exact Lw|apply lincomb_length; exact H|].
    intros j Hj. rewrite (cut_total l ms j L Hj). apply Hw. exact Hj.
  - right. destruct (dependent_one n (map cut l) H R) as (x & b & Lx & Hb & Nb & Z). rewrite map_length in Lx, Hb. exists x, b. split; [exact Lx|]. split; [exact Hb|]. split; [exact Nb|].
    intros j Hj. rewrite <- (cut_total l x j Lx Hj). apply dot_zero. exact Z.
Qed.

Lemma min_ratio (l : list (Q * Q)) : (exists p, In p l /\ (0 < snd p)%Q) ->
  exists p, In p l /\ (0 < snd p)%Q /\ forall q, In q l -> (0 < snd q)%Q -> (fst p / snd p <= fst q / snd q)%Q.
Proof.
  induction l as [|a l IH]; intros (p & Hp & Pp); [destruct Hp|].
  assert (D : (exists p, In p l /\ (0 < snd p)%Q) \/ forall p, In p l -> (snd p <= 0)%Q).
  { clear. induction l as [|b l IH]; [right; intros p []|]. destruct (Qlt_le_dec 0 (snd b)) as [P|P]; [left; exists b; split; [left; reflexivity|exact P]|].
    destruct IH as [(p & Hp & Pp)|IH]; [left; exists p; split; [right; exact Hp|exact Pp]|right]. intros q [<-|Hq]; [exact P|apply IH; exact Hq]. }
  destruct D as [D|D].
  - destruct (IH D) as (q & Hq & Pq & Hm). destruct (Qlt_le_dec 0 (snd a)) as [Pa|Pa].
    + destruct (Qlt_le_dec (fst a / snd a) (fst q / snd q)) as [L|L].
      * exists a. split; [left; reflexivity|]. split; [exact Pa|]. intros r [<-|Hr] Pr; [apply Qle_refl|]. apply Qlt_le_weak. eapply Qlt_le_trans; [exact L|apply Hm; assumption].
      * exists q. split; [right; exact Hq|]. split; [exact Pq|]. intros r [<-|Hr] Pr; [exact L|apply Hm; assumption].
    + exists q. split; [right; exact Hq|]. split; [exact Pq|]. intros r [<-|Hr] Pr; [lra|apply Hm; assumption].
  - destruct Hp as [->|Hp]; [|specialize (D p Hp); lra]. exists p. split; [left; reflexivity|]. split; [exact Pp|]. intros r [<-|Hr] Pr; [apply Qle_refl|specialize (D r Hr); lra].
Qed.

Lemma filter_positive l : (forall am, In am l -> (0 <= snd am)%Q) -> forall j, (total (filter (fun am => Qlt_bool 0 (snd am)) l) j == total l j)%Q.
Proof.
  intros H j. induction l as [|am l IH]; [reflexivity|]. specialize (IH (fun a Ha => H a (or_intror Ha))). cbn [filter]. unfold total in *. destruct (Qlt_bool 0 (snd am)) eqn:E.
  - rewrite !sumQ_cons, IH. reflexivity.
  - rewrite sumQ_cons, IH. apply ReactionBaseProofs.Qlt_bool_false in E. assert (Z : (snd am == 0)%Q) by (apply Qle_antisym; [exact E|apply H; left; reflexivity]). rewrite Z. ring.
Qed.
Lemma subseq_map_filter {X Y} (f : X -> Y) p l : subseq (map f (filter p l)) (map f l).
Proof. induction l as [|x l IH]; [constructor|]. cbn [filter]. destruct (p x); cbn [map]; [apply subseq_take|apply subseq_skip]; exact IH. Qed.

Theorem caratheodory l : (forall am, In am l -> (0 < snd am)%Q) ->
  exists l', subseq (map fst l') (map fst l) /\ (forall am, In am l' -> (0 < snd am)%Q) /\ (forall j, j < n -> (total l' j == total l j)%Q) /\ independent n (map (fun am => row (fst am)) l').
Proof.
  remember (length l) as k eqn:Ek. revert l Ek. induction k as [k IH] using lt_wf_ind. intros l Ek Hpos.
  destruct (dependence (map fst l)) as [I|(x & b & Lx & Hb & Nb & Z)].
  - exists l. split; [clear; induction (map fst l); constructor; assumption|]. split; [exact Hpos|]. split; [intros; reflexivity|]. rewrite map_map in I. exact I.
  - rewrite map_length in Lx, Hb.
    assert (Ex : exists p, In p (combine (map snd l) x) /\ (0 < snd p)%Q).
    { exists (nth b (map snd l) 0%Q, nth b x 0%Q). split; [rewrite <- combine_nth by (rewrite map_length; symmetry; exact Lx); apply nth_In; rewrite combine_length, map_length; lia|]. cbn [snd]. rewrite Nb. reflexivity. }
    destruct (min_ratio _ Ex) as ([m0 x0] & Hin & P0 & Hmin). cbn [fst snd] in P0, Hmin. set (t := (m0 / x0)%Q) in *.
    set (l1 := map (fun ax => (fst (fst ax), (snd (fst ax) - t * snd ax)%Q)) (combine l x)).
    assert (Pm : forall m y, In (m, y) (combine (map snd l) x) -> exists a, In (a, m, y) (combine l x)).
    { clear -Lx. revert x Lx. induction l as [|[a m] l IH]; intros [|y x] L m' y' H; try discriminate; [destruct H|]. cbn [map combine snd] in *. destruct H as [H|H].
      - injection H as <- <-. exists a. left. reflexivity.
      - destruct (IH x ltac:(injection L; auto) m' y' H) as (a' & Ha). exists a'. right. exact Ha. }
    assert (Pm' : forall a m y, In (a, m, y) (combine l x) -> In (m, y) (combine (map snd l) x) /\ In (a, m) l).
    { intros a m y H. split; [|apply in_combine_l in H; exact H]. clear -H Lx. revert x Lx H. induction l as [|[a' m'] l IH]; intros [|y' x] L H; try discriminate; [destruct H|]. cbn [map combine snd] in *. destruct H as [H|H].
      - injection H as -> -> ->. left. reflexivity.
      - right. apply IH; [injection L; auto|exact H]. }
    assert (P0m : (0 < m0)%Q). { destruct (Pm _ _ Hin) as (a & Ha). apply Pm' in Ha as [_ Ha]. apply Hpos in Ha. exact Ha. }
    assert (Pt : (0 < t)%Q) by (unfold t; apply Qlt_shift_div_l; lra).
    assert (N1 : forall am, In am l1 -> (0 <= snd am)%Q).
    { intros am H. apply in_map_iff in H as ([[a m] y] & <- & H). cbn [fst snd]. destruct (Pm' _ _ _ H) as [H1 H2]. apply Hpos in H2. cbn [snd] in H2. destruct (Qlt_le_dec 0 y) as [Py|Py].
      - pose proof (Hmin (m, y) H1 Py) as G. cbn [fst snd] in G. assert (E : (m == m / y * y)%Q) by (field; lra). rewrite E. assert (G' : (t * y <= m / y * y)%Q) by (apply Qmult_le_compat_r; lra). lra.
      - nra. }
    assert (T1 : forall j, j < n -> (total l1 j == total l j)%Q).
    { intros j Hj. specialize (Z j Hj). rewrite map_map in Z.
      assert (G : (total l1 j == total l j - t * weighted x (map (fun am => row (fst am)) l) j)%Q).
      { unfold l1. clear -Lx. revert x Lx. induction l as [|[a m] l IH]; intros [|y x] L; try discriminate; [cbn; ring|]. unfold total in *. cbn [combine map fst snd]. rewrite !sumQ_cons, weighted_cons. rewrite IH by (injection L; auto). cbn [fst snd]. ring. }
      rewrite G, Z. ring. }
    assert (F1 : map fst l1 = map fst l).
    { unfold l1. rewrite map_map. cbn [fst]. clear -Lx. revert x Lx. induction l as [|[a m] l IH]; intros [|y x] L; try discriminate; [reflexivity|]. cbn [combine map fst]. f_equal. apply IH. injection L. auto. }
    set (l2 := filter (fun am => Qlt_bool 0 (snd am)) l1).
    assert (Short : length l2 < k).
    { assert (L1 : length l1 = k) by (rewrite <- (map_length fst l1), F1, map_length; congruence). rewrite <- L1. unfold l2.
      destruct (Pm _ _ Hin) as (a & Ha). assert (Hz : In (a, (m0 - t * x0)%Q) l1) by (unfold l1; apply in_map_iff; exists (a, m0, x0); split; [reflexivity|exact Ha]).
      assert (Zero : Qlt_bool 0 (m0 - t * x0) = false) by (apply ReactionBaseProofs.Qlt_bool_false; assert (E : (m0 - t * x0 == 0)%Q) by (unfold t; field; lra); rewrite E; apply Qle_refl).
      clear -Hz Zero. induction l1 as [|c l1 IH]; [destruct Hz|]. cbn [filter length]. destruct Hz as [->|Hz].
      - cbn [snd]. rewrite Zero. assert (G : length (filter (fun am : A * Q => Qlt_bool 0 (snd am)) l1) <= length l1) by (clear; induction l1 as [|d l1 IH]; [apply Nat.le_refl|cbn [filter length]; destruct (Qlt_bool 0 (snd d)); cbn [length]; lia]). lia.
      - specialize (IH Hz). destruct (Qlt_bool 0 (snd c)); cbn [length]; lia. }
    destruct (IH (length l2) Short l2 eq_refl) as (l' & S & P & T & I).
    + intros am H. apply filter_In in H as [_ H]. apply ReactionBaseProofs.Qlt_bool_iff' in H. exact H.
    + exists l'. split; [eapply subseq_trans; [exact S|]; rewrite <- F1; apply subseq_map_filter|]. split; [exact P|]. split; [|exact I].
      intros j Hj. rewrite (T j Hj). unfold l2. rewrite (filter_positive l1 N1 j). apply T1. exact Hj.
Qed.
End Cone.

(* --- the solver --- *)
Section Finds.
Context {R : Type}.
Variable req : R -> R -> bool.
Variable vec : R -> result (list Q).
Variable rebuild : list (nat * Q) -> R.
Variables rs ps cs prec : R -> list nat.
Variables (waits1 waits2 : nat -> nat -> list nat -> list nat * list nat) (uniq : list (path R) -> list (path R)) (clean : list R) (rxns : list (R * Q)) (net : R)
  (chunk : nat) (batch_size : option nat) (cpus max : nat) (fi : bool).
Hypothesis Hw1 : forall k, valid_schedule (waits1 k).
Hypothesis Hw2 : forall k, valid_schedule (waits2 k).
Notation solve_now ok := (solve req vec rebuild rs ps cs prec path_pinv waits1 waits2 uniq clean rxns net ok chunk batch_size cpus max fi).

Theorem exact_finds ok paths netv steps rows ms rhash : (forall r, req r r = true) -> set_members req rhash uniq -> solve_now ok = Ok paths ->
  vec net = Ok netv -> (exists j, ~ (nth j netv 0 == 0)%Q) -> subseq steps (pool req clean net rxns) -> 1 <= length steps <= max ->
  Forall2 (fun s row => vec (fst s) = Ok row /\ length row = length netv) steps rows -> independent (length netv) rows ->
  length ms = length rows -> Forall (fun m => (1 # 1000000 <= m)%Q) ms -> (forall j, j < length netv -> (weighted ms rows j == nth j netv 0)%Q) ->
  exists p ms', p_coeffs p = Some ms' /\ Forall2 Qeq ms' ms /\ Forall2 (fun r row => large row <> [] /\ r = rebuild (large row)) (p_rxns p) rows
  /\ ((fi = true -> contains_interdependent req rs ps cs p (prec net) = false) ->
      exists q, In q paths /\ p_coeffs q = p_coeffs p /\ Forall2 (fun a b => req a b = true) (p_rxns p) (p_rxns q)).
Proof.
  intros H1 H2 H3 H4 H5 H6 H7 H8 H9 H10 H11 H12.
  exact (solve_finds req vec rebuild rs ps cs prec path_pinv waits1 waits2 uniq clean rxns net chunk batch_size cpus max fi Hw1 Hw2 path_pinv_length ok paths netv steps rows ms rhash
    H1 H2 (path_pinv_solves rows netv) H3 H4 H5 H6 H7 H8 H9 H10 H11 H12).
Qed.

(* any positive combination contains an independent one with the same sum *)
Theorem exact_part steps rows ms netv : Forall2 (fun s row => vec s = Ok row /\ length row = length netv) steps rows -> length ms = length rows ->
  Forall (fun m => (0 < m)%Q) ms -> (forall j, j < length netv -> (weighted ms rows j == nth j netv 0)%Q) -> (exists j, ~ (nth j netv 0 == 0)%Q) ->
  exists steps' rows' ms', subseq steps' steps /\ 1 <= length steps' /\ Forall2 (fun s row => vec s = Ok row /\ length row = length netv) steps' rows' /\ length ms' = length rows'
  /\ Forall (fun m => (0 < m)%Q) ms' /\ (forall j, j < length netv -> (weighted ms' rows' j == nth j netv 0)%Q) /\ independent (length netv) rows'.
Proof.
  intros Hr Lm Hm Hw (j0 & Hj0). set (row := fun s : R => match vec s with Ok v => v | Err _ => [] end).
  assert (Erow : map row steps = rows) by (clear -Hr; induction Hr as [|s v l l' [H _] HH IH]; [reflexivity|]; cbn [map]; f_equal; [unfold row; rewrite H; reflexivity|exact IH]).
  assert (Ls : length steps = length rows) by (apply (Forall2_length _ _ _ Hr)).
  assert (Em : map snd (combine steps ms) = ms) by (apply ReactionBaseProofs.combine_snd; lia).
  assert (Es : map fst (combine steps ms) = steps) by (apply ReactionBaseProofs.combine_fst; lia).
  assert (Er : map (fun am => row (fst am)) (combine steps ms) = rows) by (rewrite <- (map_map fst row), Es; exact Erow).
  destruct (caratheodory row (length netv) (combine steps ms)) as (l' & S & P & T & I).
  { intros am H. apply in_map with (f := snd) in H. rewrite Em in H. rewrite Forall_forall in Hm. apply Hm. exact H. }
  rewrite Es in S. assert (T' : forall j, j < length netv -> (total row l' j == nth j netv 0)%Q).
  { intros j Hj. rewrite (T j Hj), total_weighted, Em, Er. apply Hw. exact Hj. }
  exists (map fst l'), (map (fun am => row (fst am)) l'), (map snd l'). split; [exact S|]. split; [|split; [|split; [|split; [|split; [|exact I]]]]].
  - destruct l' as [|am l']; [exfalso|cbn; lia]. apply Hj0. destruct (Nat.lt_ge_cases j0 (length netv)) as [L|L]; [rewrite <- (T' j0 L); reflexivity|rewrite nth_overflow by exact L; reflexivity].
  - assert (G : forall s, In s (map fst l') -> vec s = Ok (row s) /\ length (row s) = length netv).
    { intros s Hs. apply (subseq_in _ _ S) in Hs. destruct (Forall2_In_l _ _ _ _ Hr Hs) as (v & _ & E & L). unfold row. rewrite E. split; [reflexivity|exact L]. }
    clear -G. induction l' as [|am l' IH]; [constructor|]. cbn [map]. constructor; [apply G; left; reflexivity|apply IH; intros s Hs; apply G; right; exact Hs].
  - rewrite !map_length. reflexivity.
  - apply Forall_forall. intros m H. apply in_map_iff in H as (am & <- & H). apply P. exact H.
  - intros j Hj. rewrite <- total_weighted. apply T'. exact Hj.
Qed.
End Finds.
Section Some.
Context {R : Type}.
Variable req : R -> R -> bool.
Variable vec : R -> result (list Q).
Variable rebuild : list (nat * Q) -> R.
Variables rs ps cs prec : R -> list nat.
Variables (waits1 waits2 : nat -> nat -> list nat -> list nat * list nat) (uniq : list (path R) -> list (path R)) (clean : list R) (rxns : list (R * Q)) (net : R)
  (chunk : nat) (batch_size : option nat) (cpus max : nat) (fi : bool).
Hypothesis Hw1 : forall k, valid_schedule (waits1 k).
Hypothesis Hw2 : forall k, valid_schedule (waits2 k).
Theorem exact_some ok paths netv steps rows ms rhash : (forall r, req r r = true) -> set_members req rhash uniq ->
  solve req vec rebuild rs ps cs prec path_pinv waits1 waits2 uniq clean rxns net ok chunk batch_size cpus max fi = Ok paths ->
  vec net = Ok netv -> (exists j, ~ (nth j netv 0 == 0)%Q) -> subseq steps (pool req clean net rxns) -> length steps <= max ->
  Forall2 (fun s row => vec (fst s) = Ok row /\ length row = length netv) steps rows ->
  length ms = length rows -> Forall (fun m => (0 < m)%Q) ms -> (forall j, j < length netv -> (weighted ms rows j == nth j netv 0)%Q) ->
  exists steps' rows' ms', subseq steps' steps /\ Forall2 (fun s row => vec (fst s) = Ok row) steps' rows' /\ length ms' = length rows'
  /\ Forall (fun m => (0 < m)%Q) ms' /\ (forall j, j < length netv -> (weighted ms' rows' j == nth j netv 0)%Q)
  /\ (Forall (fun m => (1 # 1000000 <= m)%Q) ms' ->
      exists p ms'', p_coeffs p = Some ms'' /\ Forall2 Qeq ms'' ms' /\ Forall2 (fun r row => large row <> [] /\ r = rebuild (large row)) (p_rxns p) rows'
      /\ ((fi = true -> contains_interdependent req rs ps cs p (prec net) = false) ->
          exists q, In q paths /\ p_coeffs q = p_coeffs p /\ Forall2 (fun a b => req a b = true) (p_rxns p) (p_rxns q))).
Proof.
  intros H1 H2 H3 H4 H5 H6 H7 H8 H9 H10 H11.
  destruct (exact_part (fun s : R * Q => vec (fst s)) steps rows ms netv H8 H9 H10 H11 H5) as (steps' & rows' & ms' & S & L1 & F & Lm & Pm & Wm & I).
  exists steps', rows', ms'. split; [exact S|]. split; [eapply Forall2_impl; [|exact F]; cbn; tauto|]. split; [exact Lm|]. split; [exact Pm|]. split; [exact Wm|]. intros Hbig.
  assert (Ls : length steps' <= length steps).
  { clear -S. induction S; cbn; lia. }
  apply (exact_finds req vec rebuild rs ps cs prec waits1 waits2 uniq clean rxns net chunk batch_size cpus max fi Hw1 Hw2 ok paths netv steps' rows' ms' rhash); try assumption.
  - eapply subseq_trans; [exact S|exact H6].
  - lia.
Qed.
End Some.
