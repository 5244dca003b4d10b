From Coq Require Import Setoid Morphisms Lqa Sorted Qabs.
From Verif Require Import Prelude NumQ SumQ ListFacts UtilsModel UtilsSpec UtilsProofs HullModel HullSpec ParetoProofs
  CatalanProofs HullDecompProofs HullChainProofs HullEnergyProofs HullCompetitionProofs HullSignProofs AreaModel AreaSpec.
From Verif Require RxnSetBaseProofs.
Open Scope Q_scope.

Lemma height_t (p q r : coord) : fst p < fst r ->
  exists t, fst q == (1 - t) * fst p + t * fst r
  /\ height p q r == snd q - ((1 - t) * snd p + t * snd r)
  /\ t * (fst r - fst p) == fst q - fst p.
Proof.
  intros H. exists ((fst q - fst p) / (fst r - fst p)). unfold height.
  assert (Hn : ~ fst r - fst p == 0) by lra.
  split; [|split]; field; assumption.
Qed.

Lemma t_range a b t : 0 < b -> t * b == a -> 0 <= a -> a <= b -> 0 <= t <= 1.
Proof.
  intros Hb Ht Ha Hab. split.
  - apply Qnot_lt_le. intros N. assert (t * b < 0) by nra. lra.
  - apply Qnot_lt_le. intros N. assert (b < t * b) by nra. lra.
Qed.

(* --- trapezoids --- *)
Section Depth.
Variable d : coord -> Q.
Fixpoint trap (p : coord) (rest : list coord) : Q :=
  match rest with
  | [] => 0
  | q :: rest' => (fst q - fst p) * (d p + d q) + trap q rest'
  end.

Lemma trap_app p l1 q l2 : trap p (l1 ++ q :: l2) == trap p (l1 ++ [q]) + trap q l2.
Proof.
  revert p; induction l1 as [|c l1 IH]; intros p; cbn [app trap].
  - ring.
  - rewrite IH. ring.
Qed.

Lemma trap_ge alpha beta p l : StronglySorted xle (p :: l) ->
  (forall c, In c (p :: l) -> alpha * fst c + beta <= d c) ->
  (alpha * fst (last l p) * fst (last l p) + 2 * beta * fst (last l p))
  - (alpha * fst p * fst p + 2 * beta * fst p) <= trap p l.
Proof.
  revert p; induction l as [|q l IH]; intros p Hs Hd; cbn [trap].
  - cbn [last]. lra.
  - inversion Hs as [|? ? Hs' Hp]; subst. inversion Hp as [|? ? Hpq _]; subst. unfold xle in Hpq.
    specialize (IH q Hs' ltac:(intros; apply Hd; right; assumption)).
    assert (E : last (q :: l) p = last l q).
    { destruct l as [|c l]; [reflexivity|]. cbn [last]. clear. revert c. induction l as [|e l IH]; intros c; [reflexivity|]. apply IH. }
    rewrite E. pose proof (Hd p (or_introl eq_refl)) as A. pose proof (Hd q (or_intror (or_introl eq_refl))) as B.
    assert ((fst q - fst p) * ((alpha * fst p + beta) + (alpha * fst q + beta)) <= (fst q - fst p) * (d p + d q)).
    { rewrite (Qmult_comm (fst q - fst p)), (Qmult_comm (fst q - fst p) (d p + d q)).
      apply Qmult_le_compat_r; lra. }
    lra.
Qed.
End Depth.

Lemma last_cons {A} (l : list A) q p : last (q :: l) p = last l q.
Proof. revert q p; induction l as [|e l IH]; intros q p; [reflexivity|].
  change (last (e :: l) p = last (e :: l) q). rewrite !IH. reflexivity.
Qed.

Lemma trap_le d D p l : StronglySorted xle (p :: l) -> (forall c, In c (p :: l) -> d c <= D) ->
  trap d p l <= 2 * D * (fst (last l p) - fst p).
Proof.
  revert p; induction l as [|q l IH]; intros p Hs Hd; cbn [trap].
  - cbn [last]. lra.
  - inversion Hs as [|? ? Hs' Hp]; subst. inversion Hp as [|? ? Hpq _]; subst. unfold xle in Hpq.
    specialize (IH q Hs' ltac:(intros; apply Hd; right; assumption)). rewrite last_cons.
    pose proof (Hd p (or_introl eq_refl)) as A. pose proof (Hd q (or_intror (or_introl eq_refl))) as B.
    assert ((fst q - fst p) * (d p + d q) <= (fst q - fst p) * (D + D)).
    { rewrite (Qmult_comm (fst q - fst p)), (Qmult_comm (fst q - fst p) (D + D)).
      apply Qmult_le_compat_r; lra. }
    lra.
Qed.

Definition cross (p q r : coord) : Q :=
  (fst q - fst p) * (snd r - snd p) - (fst r - fst p) * (snd q - snd p).

Fixpoint turns (p : coord) (rest : list coord) : Prop :=
  match rest with
  | q :: ((r :: _) as rest') => 0 <= cross p q r /\ turns p rest'
  | _ => True
  end.

Lemma fan_trap p s q l : turns p (q :: l) ->
  let d := fun c : coord => snd p + s * (fst c - fst p) - snd c in
  2 * fan p (q :: l) == trap d q l - ((fst (last l q) - fst p) * d (last l q) - (fst q - fst p) * d q).
Proof.
  intros Ht d. revert q Ht; induction l as [|r l IH]; intros q Ht.
  - cbn [fan trap last]. ring.
  - destruct Ht as [Hc Ht]. specialize (IH r Ht). rewrite last_cons.
    assert (E : fan p (q :: r :: l) = triangle p q r + fan p (r :: l)) by reflexivity. rewrite E.
    assert (T : 2 * triangle p q r == cross p q r).
    { unfold triangle. fold (cross p q r). rewrite Qabs_pos by assumption. field. }
    assert (S : cross p q r == (fst r - fst q) * (d q + d r) - (fst r - fst p) * d r + (fst q - fst p) * d q).
    { unfold d, cross. ring. }
    cbn [trap]. rewrite Qmult_plus_distr_r, IH, T, S. ring.
Qed.

Lemma fold_min_in es m0 : fold_left (fun m e => if Qlt_bool e m then e else m) es m0 = m0
  \/ In (fold_left (fun m e => if Qlt_bool e m then e else m) es m0) es.
Proof.
  revert m0; induction es as [|e es IH]; intros m0; cbn [fold_left]; [left; reflexivity|].
  destruct (Qlt_bool e m0).
  - destruct (IH e) as [->|H]; right; [left; reflexivity|right; exact H].
  - destruct (IH m0) as [->|H]; [left; reflexivity|right; right; exact H].
Qed.
Lemma fold_min_all es m0 e : In e es -> fold_left (fun m e => if Qlt_bool e m then e else m) es m0 <= e.
Proof.
  revert m0; induction es as [|a es IH]; intros m0; cbn [fold_left]; [intros []|]. intros [->|H]; [|apply IH, H].
  eapply Qle_trans; [apply fold_min_le|]. destruct (Qlt_bool e m0) eqn:E; [apply Qle_refl|].
  apply Qnot_lt_le. intros N. apply Qlt_bool_iff in N. congruence.
Qed.

Lemma skip_to x t b n : (b <= x < b + n)%nat -> subseq t (seq (S x) (b + n - S x)) -> subseq (x :: t) (seq b n).
Proof.
  revert b; induction n as [|n IH]; intros b H Ht; [lia|]. cbn [seq]. destruct (Nat.eq_dec b x) as [->|N].
  - apply subseq_take. replace (x + S n - S x)%nat with n in Ht by lia. exact Ht.
  - apply subseq_skip, IH; [lia|]. replace (S b + n - S x)%nat with (b + S n - S x)%nat by lia. exact Ht.
Qed.
Lemma nil_subseq {A} (t : list A) : subseq [] t.
Proof. induction t; [constructor|apply subseq_skip; assumption]. Qed.
Lemma triple_subseq i j k n : (i < j < k)%nat -> (k < n)%nat -> subseq [i; j; k] (seq 0 n).
Proof.
  intros H Hn. apply skip_to; [lia|]. apply skip_to; [lia|]. apply skip_to; [lia|]. apply nil_subseq.
Qed.

Lemma max_energy_spec l m : max_decomposition_energy l = Ok m ->
  (m = 0 \/ exists i j k p q r, (i < j < k)%nat /\ nth_error l i = Some p /\ nth_error l j = Some q
     /\ nth_error l k = Some r /\ m = height p q r)
  /\ m <= 0
  /\ forall i j k p q r, (i < j < k)%nat -> nth_error l i = Some p -> nth_error l j = Some q ->
       nth_error l k = Some r -> m <= height p q r.
Proof.
  unfold max_decomposition_energy. destruct (mapM _ _) as [es|] eqn:E; [|discriminate]. intros H. injection H as <-.
  pose proof (proj1 (RxnSetBaseProofs.mapM_Forall2 _ _ _) E) as F. split; [|split; [apply fold_min_le|]].
  - destruct (fold_min_in es 0) as [H|H]; [left; assumption|right].
    revert H. generalize (fold_left (fun m e => if Qlt_bool e m then e else m) es 0). intros m H.
    destruct (Forall2_In_r _ _ _ _ F H) as (c & Hc & Ha).
    apply in_combinations_3 in Hc as (i & j & k & -> & Hijk & Hk). unfold altitude_of in Ha.
    destruct (nth_error l i) as [p|] eqn:Ep; [|discriminate]. destruct (nth_error l j) as [q|] eqn:Eq; [|discriminate].
    destruct (nth_error l k) as [r|] eqn:Er; [|discriminate]. injection Ha as <-.
    exists i, j, k, p, q, r. rewrite altitude_height. repeat (split; [first [assumption|lia]|]). reflexivity.
  - intros i j k p q r Hijk Hp Hq Hr.
    assert (Hc : In [i; j; k] (combinations (seq 0 (length l)) 3)).
    { assert (k < length l)%nat by (apply nth_error_Some; congruence).
      apply UtilsProofs.in_combinations. split; [|reflexivity]. apply triple_subseq; lia. }
    destruct (Forall2_In_l _ _ _ _ F Hc) as (e & He & Ha). unfold altitude_of in Ha. rewrite Hp, Hq, Hr in Ha.
    injection Ha as <-. rewrite <- altitude_height. apply fold_min_all. assumption.
Qed.

Section Chain.
Variable l : list coord.
Hypothesis Hs : StronglySorted xle l.
Hypothesis Hh : heights_defined l.
Hypothesis Hv : convex_points l.

Lemma cross_height (p q r : coord) : fst p < fst r -> cross p q r == - (fst r - fst p) * height p q r.
Proof.
  intros H. assert (Hn : ~ fst r - fst p == 0) by lra. unfold cross, height. field. assumption.
Qed.

Lemma cross_nonneg i j k p q r : (i < j < k)%nat ->
  nth_error l i = Some p -> nth_error l j = Some q -> nth_error l k = Some r -> 0 <= cross p q r.
Proof.
  intros Hi Hp Hq Hr. pose proof (Hh i k p r ltac:(lia) Hp Hr) as Hx.
  rewrite cross_height by assumption. pose proof (Hv i j k p q r Hi Hp Hq Hr). nra.
Qed.

Lemma turns_of p pre rest : l = p :: pre ++ rest -> turns p rest.
Proof.
  revert pre; induction rest as [|q [|r t] IH]; intros pre E; [exact I|exact I|].
  assert (N : forall m c, nth_error (q :: r :: t) m = Some c -> nth_error l (S (length pre + m)) = Some c).
  { intros m c Hm. rewrite E. cbn [nth_error]. rewrite nth_error_app2 by lia.
    replace (length pre + m - length pre)%nat with m by lia. exact Hm. }
  split.
  - apply (cross_nonneg 0%nat (S (length pre + 0)) (S (length pre + 1))); [lia|rewrite E; reflexivity| |]; apply N; reflexivity.
  - apply (IH (pre ++ [q])). rewrite E, <- app_assoc. reflexivity.
Qed.

(* depth below the segment joining the ends *)
Variable p0 : coord.
Variable rest : list coord.
Hypothesis El : l = p0 :: rest.
Hypothesis Hlen : (2 <= length rest)%nat.
Let pn := last rest p0.
Let depth (c : coord) : Q := - height p0 c pn.

Lemma last_nth : nth_error l (length rest) = Some pn.
Proof.
  rewrite El. unfold pn. clear. revert p0; induction rest as [|q t IH]; intros p; [reflexivity|].
  cbn [length nth_error]. rewrite last_cons. apply IH.
Qed.

Lemma ends_x : fst p0 < fst pn.
Proof. apply (Hh 0%nat (length rest)); [lia|rewrite El; reflexivity|apply last_nth]. Qed.

Lemma depth_eq c : depth c == snd p0 + (snd pn - snd p0) / (fst pn - fst p0) * (fst c - fst p0) - snd c.
Proof. unfold depth, height. pose proof ends_x. field. lra. Qed.

Lemma depth_first : depth p0 == 0.
Proof. rewrite depth_eq. pose proof ends_x. field. lra. Qed.
Lemma depth_last : depth pn == 0.
Proof. rewrite depth_eq. pose proof ends_x. field. lra. Qed.

Lemma depth_nonneg j c : nth_error l j = Some c -> 0 <= depth c.
Proof.
  intros Hj. assert (Hjl : (j < length l)%nat) by (apply nth_error_Some; congruence).
  rewrite El in Hjl. cbn [length] in Hjl.
  destruct j as [|j].
  - rewrite El in Hj. injection Hj as <-. rewrite depth_first. lra.
  - destruct (Nat.eq_dec (S j) (length rest)) as [E|N].
    + rewrite E, last_nth in Hj. injection Hj as <-. rewrite depth_last. lra.
    + pose proof (Hv 0%nat (S j) (length rest) p0 c pn ltac:(lia)) as G.
      rewrite El in G at 1. specialize (G eq_refl Hj last_nth). unfold depth. lra.
Qed.

Lemma sorted_x i j p q : (i <= j)%nat -> nth_error l i = Some p -> nth_error l j = Some q -> fst p <= fst q.
Proof.
  intros Hij Hp Hq. destruct (Nat.eq_dec i j) as [->|N]; [rewrite Hp in Hq; injection Hq as ->; lra|].
  exact (StronglySorted_nth_rel _ _ Hs i j p q ltac:(lia) Hp Hq).
Qed.

(* a triple is never higher than its middle point is deep *)
Lemma triple_depth i j k p q r : (i < j < k)%nat ->
  nth_error l i = Some p -> nth_error l j = Some q -> nth_error l k = Some r -> - height p q r <= depth q.
Proof.
  intros Hi Hp Hq Hr. pose proof (Hh i k p r ltac:(lia) Hp Hr) as Hx.
  destruct (height_t p q r Hx) as (t & Et & Eh & Ett).
  pose proof (sorted_x i j p q ltac:(lia) Hp Hq). pose proof (sorted_x j k q r ltac:(lia) Hq Hr).
  pose proof (t_range (fst q - fst p) (fst r - fst p) t ltac:(lra) Ett ltac:(lra) ltac:(lra)) as Ht.
  pose proof (depth_nonneg i p Hp) as Dp. pose proof (depth_nonneg k r Hr) as Dr.
  rewrite depth_eq in Dp, Dr |- *. set (s := (snd pn - snd p0) / (fst pn - fst p0)) in *.
  rewrite Eh. assert (E1 : s * (fst q - fst p0) == (1 - t) * (s * (fst p - fst p0)) + t * (s * (fst r - fst p0))).
  { rewrite Et. ring. }
  rewrite E1. generalize dependent (s * (fst p - fst p0)). generalize dependent (s * (fst r - fst p0)).
  intros. nra.
Qed.

(* the depth is concave *)
Lemma depth_left j k c q : (j <= k)%nat -> nth_error l j = Some c -> nth_error l k = Some q ->
  fst p0 < fst q -> depth q * (fst c - fst p0) <= depth c * (fst q - fst p0).
Proof.
  intros Hj Hc Hq Hx. destruct (Nat.eq_dec j k) as [->|N].
  { rewrite Hc in Hq. injection Hq as ->. lra. }
  destruct j as [|j].
  { rewrite El in Hc. injection Hc as <-. rewrite depth_first. lra. }
  pose proof (Hv 0%nat (S j) k p0 c q ltac:(lia)) as G. rewrite El in G at 1. specialize (G eq_refl Hc Hq).
  destruct (height_t p0 c q Hx) as (t & Et & Eh & Ett). rewrite Eh in G.
  assert (D : t * depth q <= depth c).
  { rewrite !depth_eq. set (s := (snd pn - snd p0) / (fst pn - fst p0)).
    assert (E1 : s * (fst c - fst p0) == t * (s * (fst q - fst p0))) by (rewrite Et; ring).
    rewrite E1. generalize (s * (fst q - fst p0)). intros z.
    assert (t * (snd p0 + z - snd q) == t * snd p0 + t * z - t * snd q) by ring. lra. }
  rewrite <- Ett. assert (t * depth q * (fst q - fst p0) <= depth c * (fst q - fst p0)).
  { apply Qmult_le_compat_r; [exact D|lra]. } lra.
Qed.

Lemma depth_right j k c q : (k <= j)%nat -> nth_error l j = Some c -> nth_error l k = Some q ->
  fst q < fst pn -> depth q * (fst pn - fst c) <= depth c * (fst pn - fst q).
Proof.
  intros Hj Hc Hq Hx. destruct (Nat.eq_dec j k) as [->|N].
  { rewrite Hc in Hq. injection Hq as ->. lra. }
  assert (Hjl : (j < length l)%nat) by (apply nth_error_Some; congruence).
  rewrite El in Hjl. cbn [length] in Hjl.
  destruct (Nat.eq_dec j (length rest)) as [E|Ne].
  { rewrite E, last_nth in Hc. injection Hc as <-. rewrite depth_last. lra. }
  pose proof (Hv k j (length rest) q c pn ltac:(lia) Hq Hc last_nth) as G.
  destruct (height_t q c pn Hx) as (t & Et & Eh & Ett). rewrite Eh in G.
  assert (D : (1 - t) * depth q <= depth c).
  { pose proof depth_last as DL. rewrite depth_eq in DL. rewrite !depth_eq. set (s := (snd pn - snd p0) / (fst pn - fst p0)) in *.
    assert (E1 : s * (fst c - fst p0) == (1 - t) * (s * (fst q - fst p0)) + t * (s * (fst pn - fst p0))) by (rewrite Et; ring).
    rewrite E1. generalize dependent (s * (fst q - fst p0)). generalize dependent (s * (fst pn - fst p0)). intros z DL w.
    assert (z == snd pn - snd p0) as -> by lra. 
    assert ((1 - t) * (snd p0 + w - snd q) == (1 - t) * snd p0 + (1 - t) * w - (1 - t) * snd q) by ring. lra. }
  assert (E2 : fst pn - fst c == (1 - t) * (fst pn - fst q)) by (rewrite Et; ring). rewrite E2.
  assert ((1 - t) * depth q * (fst pn - fst q) <= depth c * (fst pn - fst q)).
  { apply Qmult_le_compat_r; [exact D|lra]. } lra.
Qed.

Lemma trap_ext d d' p t : (forall c, d c == d' c) -> trap d p t == trap d' p t.
Proof. intros H. revert p; induction t as [|q t IH]; intros p; cbn [trap]; [reflexivity|]. rewrite IH, !H. reflexivity. Qed.

Lemma fan_depth : 2 * polygon_area l == trap depth p0 rest.
Proof.
  assert (P : polygon_area l = fan p0 rest) by (rewrite El; reflexivity). rewrite P.
  set (s := (snd pn - snd p0) / (fst pn - fst p0)).
  set (d := fun c : coord => snd p0 + s * (fst c - fst p0) - snd c).
  assert (Ed : forall c, depth c == d c) by (intros c; apply depth_eq).
  pose proof (turns_of p0 [] rest El) as Ht.
  assert (Hn : exists q t, rest = q :: t).
  { destruct rest as [|q t]; [cbn in Hlen; lia|]. eexists _, _; reflexivity. }
  destruct Hn as (q & t & Er). rewrite (trap_ext depth d) by exact Ed.
  assert (Epn : pn = last t q) by (unfold pn; rewrite Er, last_cons; reflexivity).
  rewrite Er in Ht |- *.
  assert (F : 2 * fan p0 (q :: t) == trap d q t - ((fst (last t q) - fst p0) * d (last t q) - (fst q - fst p0) * d q))
    by exact (fan_trap p0 s q t Ht).
  rewrite F, <- Epn.
  assert (Dn : d pn == 0) by (pose proof (Ed pn); pose proof depth_last; lra).
  assert (D0 : d p0 == 0) by (pose proof (Ed p0); pose proof depth_first; lra).
  cbn [trap]. rewrite Dn, D0. ring.
Qed.

Lemma area_upper D : (forall j c, nth_error l j = Some c -> depth c <= D) ->
  polygon_area l <= D * (fst pn - fst p0).
Proof.
  intros HD. pose proof fan_depth as F. pose proof (trap_le depth D p0 rest) as T.
  rewrite <- El in T. specialize (T Hs). fold pn in T.
  assert (G : trap depth p0 rest <= 2 * D * (fst pn - fst p0)).
  { apply T. intros c Hc. apply In_nth_error in Hc as (j & Hj). exact (HD j c Hj). }
  rewrite <- F in G. lra.
Qed.

Lemma area_nonneg : 0 <= polygon_area l.
Proof.
  pose proof fan_depth as F. pose proof (trap_ge depth 0 0 p0 rest) as T. rewrite <- El in T. specialize (T Hs).
  assert (G : 0 <= trap depth p0 rest).
  { eapply Qle_trans; [|apply T]; [lra|]. intros c Hc. apply In_nth_error in Hc as (j & Hj).
    pose proof (depth_nonneg j c Hj). lra. }
  rewrite <- F in G. lra.
Qed.

Lemma sorted_app_l {A} (R : A -> A -> Prop) l1 l2 : StronglySorted R (l1 ++ l2) -> StronglySorted R l1.
Proof.
  induction l1 as [|a l1 IH]; cbn [app]; intros H; [constructor|]. inversion H as [|? ? H1 H2]; subst.
  constructor; [apply IH; assumption|]. apply Forall_app in H2. tauto.
Qed.
Lemma sorted_app_r {A} (R : A -> A -> Prop) l1 l2 : StronglySorted R (l1 ++ l2) -> StronglySorted R l2.
Proof. induction l1 as [|a l1 IH]; cbn [app]; intros H; [assumption|]. inversion H; subst. auto. Qed.

Lemma trap_nonneg p t : StronglySorted xle (p :: t) -> (forall c, In c (p :: t) -> 0 <= depth c) -> 0 <= trap depth p t.
Proof.
  intros H1 H2. pose proof (trap_ge depth 0 0 p t H1) as T. eapply Qle_trans; [|apply T]; [lra|].
  intros c Hc. specialize (H2 c Hc). lra.
Qed.

Lemma area_lower k q : nth_error l k = Some q -> depth q * (fst pn - fst p0) <= 2 * polygon_area l.
Proof.
  intros Hk. rewrite fan_depth. destruct k as [|k].
  { rewrite El in Hk. injection Hk as <-. rewrite depth_first, Qmult_0_l, <- fan_depth. pose proof area_nonneg. lra. }
  pose proof (depth_nonneg _ _ Hk) as Dq.
  assert (Hk' := Hk). rewrite El in Hk'. cbn [nth_error] in Hk'.
  apply nth_error_split in Hk' as (l1 & l2 & Er & Hl1).
  assert (Epn : pn = last l2 q).
  { unfold pn. rewrite Er. clear. generalize p0. induction l1 as [|c t IH]; intros p; cbn [app]; rewrite last_cons; [reflexivity|]. apply IH. }
  assert (Ex : fst p0 <= fst q) by (apply (sorted_x 0%nat (S k)); [lia|rewrite El; reflexivity|assumption]).
  assert (Ey : fst q <= fst pn).
  { apply (sorted_x (S k) (length rest)); [|assumption|apply last_nth].
    assert (S k < length l)%nat by (apply nth_error_Some; congruence). rewrite El in *. cbn [length] in *. lia. }
  assert (Es : StronglySorted xle ((p0 :: l1 ++ [q]) ++ l2)).
  { cbn [app]. rewrite <- app_assoc. cbn [app]. rewrite <- Er, <- El. exact Hs. }
  assert (Sl : StronglySorted xle (p0 :: l1 ++ [q])) by (apply (sorted_app_l _ _ l2), Es).
  assert (Sr : StronglySorted xle (q :: l2)).
  { apply (sorted_app_r _ (p0 :: l1)). cbn [app]. rewrite <- Er, <- El. exact Hs. }
  assert (Nl : forall c, In c (p0 :: l1 ++ [q]) -> exists j, (j <= S k)%nat /\ nth_error l j = Some c).
  { intros c Hc. apply In_nth_error in Hc as (j & Hj). exists j.
    assert (j < length (p0 :: l1 ++ [q]))%nat by (apply nth_error_Some; congruence).
    cbn [length] in *. rewrite app_length in *. cbn [length] in *. split; [lia|].
    assert (E2 : l = (p0 :: l1 ++ [q]) ++ l2) by (rewrite El, Er; cbn [app]; rewrite <- app_assoc; reflexivity).
    rewrite E2, nth_error_app1; [assumption|]. cbn [length]. rewrite app_length. cbn [length]. lia. }
  assert (Nr : forall c, In c (q :: l2) -> exists j, (S k <= j)%nat /\ nth_error l j = Some c).
  { intros c Hc. apply In_nth_error in Hc as (j & Hj). exists (S k + j)%nat. split; [lia|].
    rewrite El, Er. cbn [Nat.add nth_error]. rewrite nth_error_app2 by lia.
    replace (k + j - length l1)%nat with j by lia. assumption. }
  rewrite Er, trap_app.
  assert (GL : depth q * (fst q - fst p0) <= trap depth p0 (l1 ++ [q])).
  { destruct (Qlt_le_dec (fst p0) (fst q)) as [H|H].
    - set (al := depth q / (fst q - fst p0)).
      assert (Ea : al * (fst q - fst p0) == depth q) by (unfold al; field; lra).
      pose proof (trap_ge depth al (- al * fst p0) p0 (l1 ++ [q]) Sl) as T. rewrite last_last in T.
      assert (G : forall c, In c (p0 :: l1 ++ [q]) -> al * fst c + - al * fst p0 <= depth c).
      { intros c Hc. destruct (Nl c Hc) as (j & Hj & Hn).
        pose proof (depth_left j (S k) c q Hj Hn Hk H) as P. rewrite <- Ea in P.
        apply Qmult_le_r with (z := fst q - fst p0); [lra|]. lra. }
      specialize (T G). rewrite <- Ea. lra.
    - assert (E0 : fst q - fst p0 == 0) by lra. rewrite E0, Qmult_0_r. apply trap_nonneg; [assumption|].
      intros c Hc. destruct (Nl c Hc) as (j & _ & Hn). exact (depth_nonneg j c Hn). }
  assert (GR : depth q * (fst pn - fst q) <= trap depth q l2).
  { destruct (Qlt_le_dec (fst q) (fst pn)) as [H|H].
    - set (al := depth q / (fst pn - fst q)).
      assert (Ea : al * (fst pn - fst q) == depth q) by (unfold al; field; lra).
      pose proof (trap_ge depth (- al) (al * fst pn) q l2 Sr) as T. rewrite <- Epn in T.
      assert (G : forall c, In c (q :: l2) -> - al * fst c + al * fst pn <= depth c).
      { intros c Hc. destruct (Nr c Hc) as (j & Hj & Hn).
        pose proof (depth_right j (S k) c q Hj Hn Hk H) as P. rewrite <- Ea in P.
        apply Qmult_le_r with (z := fst pn - fst q); [lra|]. lra. }
      specialize (T G). rewrite <- Ea. lra.
    - assert (E0 : fst pn - fst q == 0) by lra. rewrite E0, Qmult_0_r. apply trap_nonneg; [assumption|].
      intros c Hc. destruct (Nr c Hc) as (j & _ & Hn). exact (depth_nonneg j c Hn). }
  lra.
Qed.

Lemma area_bounds m : max_decomposition_energy l = Ok m ->
  (fst pn - fst p0) * (- m) <= 2 * polygon_area l /\ polygon_area l <= (fst pn - fst p0) * (- m).
Proof.
  intros Hm. destruct (max_energy_spec l m Hm) as (Hex & Hle & Hall). pose proof ends_x as Hx. split.
  - destruct Hex as [->|(i & j & k & p & q & r & Hijk & Hp & Hq & Hr & ->)].
    + pose proof area_nonneg. lra.
    + pose proof (triple_depth i j k p q r Hijk Hp Hq Hr) as D. pose proof (area_lower j q Hq) as A.
      assert ((fst pn - fst p0) * - height p q r <= depth q * (fst pn - fst p0)).
      { rewrite (Qmult_comm (fst pn - fst p0)). apply Qmult_le_compat_r; lra. } lra.
  - rewrite Qmult_comm. apply area_upper. intros j c Hj.
    assert (Hjl : (j < length l)%nat) by (apply nth_error_Some; congruence).
    rewrite El in Hjl. cbn [length] in Hjl. destruct j as [|j].
    { rewrite El in Hj. injection Hj as <-. rewrite depth_first. lra. }
    destruct (Nat.eq_dec (S j) (length rest)) as [E|N].
    { rewrite E, last_nth in Hj. injection Hj as <-. rewrite depth_last. lra. }
    pose proof (Hall 0%nat (S j) (length rest) p0 c pn ltac:(lia)) as G. rewrite El in G at 1.
    specialize (G eq_refl Hj last_nth). unfold depth. lra.
Qed.
End Chain.

Section Sides.
Variable volume : list coord -> result Q.
Hypothesis Hvol : measures volume.
Variable h : hull.
Variable chain : list nat.
Hypothesis Hok : correct_hull (coords h) (qhull h) chain.

Lemma last_app {A} (l1 : list A) c l2 d : last (l1 ++ c :: l2) d = last l2 c.
Proof. revert d; induction l1 as [|a l1 IH]; intros d; cbn [app]; rewrite last_cons; [reflexivity|apply IH]. Qed.

Lemma range_ends a b ya yb : a < b ->
  exact_coordinate (coords h) chain a -> exact_coordinate (coords h) chain b ->
  exists p rest, range_pts h chain a ya b yb = p :: rest /\ rest <> [] /\ fst p == a /\ fst (last rest p) == b.
Proof.
  intros Hab Hea Heb. unfold range_pts.
  assert (E : Qeq_bool b a = false).
  { destruct (Qeq_bool b a) eqn:E; [|reflexivity]. apply Qeq_bool_iff in E. lra. }
  rewrite E.
  assert (Hl : fst (last (post_pts b yb) (b, yb)) == b).
  { unfold post_pts. destruct (isclose b 1) eqn:Eb; cbn [andb]; [|cbn; reflexivity].
    destruct (negb _); cbn; [symmetry; apply (exact_one h chain Hok b Heb Eb)|reflexivity]. }
  unfold pre_pts. destruct (isclose a 0) eqn:Ea; cbn [andb app].
  - pose proof (exact_zero h chain Hok a Hea Ea) as Ha. destruct (negb _); cbn [app].
    + eexists _, _. split; [reflexivity|]. split; [discriminate|]. split; [cbn; symmetry; exact Ha|].
      change ((a, ya) :: inner h chain a b ++ (b, yb) :: post_pts b yb) with (((a, ya) :: inner h chain a b) ++ (b, yb) :: post_pts b yb).
      rewrite last_app. exact Hl.
    + eexists _, _. split; [reflexivity|]. split; [destruct (inner h chain a b); discriminate|]. split; [reflexivity|].
      rewrite last_app. exact Hl.
  - eexists _, _. split; [reflexivity|]. split; [destruct (inner h chain a b); discriminate|]. split; [reflexivity|].
    rewrite last_app. exact Hl.
Qed.

Lemma side_area a b : 0 <= a -> a < b -> b <= 1 ->
  exact_coordinate (coords h) chain a -> exact_coordinate (coords h) chain b ->
  exists area m, get_decomposition_area volume h a b = Ok area /\ get_max_decomposition_energy h a b = Ok m
  /\ m <= 0 /\ (b - a) * - m <= 2 * area /\ area <= (b - a) * - m.
Proof.
  intros Ha Hab Hb Hea Heb.
  destruct (range_spec h chain Hok a b Ha ltac:(lra) Hb Hea Heb) as (ya & yb & H1 & H2 & H3 & H4 & H5 & H6 & H7).
  destruct (range_props h chain Hok a b ya yb) as [Hhd Hconv]; try assumption; [lra|].
  destruct (convex_signs _ Hconv) as (e & m & He & Hm & Hem & Hm0).
  destruct (range_ends a b ya yb Hab Hea Heb) as (p & rest & El & Hne & Hp & Hq).
  assert (Hs : StronglySorted xle (range_pts h chain a ya b yb)).
  { unfold get_coords_in_range in H7. destruct (Qle_bool a b); rewrite H1, H2 in H7 || rewrite H2, H1 in H7;
      injection H7 as <-; apply sort_by_x_sorted. }
  unfold get_decomposition_area, get_max_decomposition_energy. rewrite H7. cbn [bind].
  destruct (Nat.eqb_spec (length (range_pts h chain a ya b yb)) 2) as [E2|E2].
  - exists 0, m. split; [reflexivity|]. split; [assumption|]. split; [assumption|].
    assert (m = 0) as ->.
    { destruct (range_pts h chain a ya b yb) as [|c [|c' [|? ?]]]; try discriminate. vm_compute in Hm. injection Hm as <-. reflexivity. }
    split; lra.
  - assert (Hlen : (2 <= length rest)%nat).
    { rewrite El in E2. destruct rest as [|c [|? ?]]; [congruence|cbn in E2; lia|cbn [length]; lia]. }
    destruct (proj1 Hvol (range_pts h chain a ya b yb)) as (ar & Har & Ear); [rewrite El; cbn [length]; lia|assumption|assumption|].
    exists ar, m. split; [assumption|]. split; [assumption|]. split; [assumption|].
    destruct (area_bounds _ Hs Hhd Hconv p rest El Hlen m Hm) as [L U]. rewrite <- Ear, Hp, Hq in L, U. split; assumption.
Qed.

Lemma competition_area x : 0 < x < 1 -> exact_coordinate (coords h) chain x ->
  exact_coordinate (coords h) chain 0 -> exact_coordinate (coords h) chain 1 ->
  exists a l r m, get_secondary_competition_area volume h x = Ok a
  /\ get_max_decomposition_energy h 0 x = Ok l /\ get_max_decomposition_energy h x 1 = Ok r
  /\ (x * - l + (1 - x) * - r) / 2 <= a /\ a <= x * - l + (1 - x) * - r
  /\ get_secondary_competition_max_energy h x = Ok m
  /\ 0 <= a /\ a <= m /\ (a == 0 <-> m == 0).
Proof.
  intros Hx Hex H0 H1.
  destruct (side_area 0 x) as (a1 & m1 & A1 & A2 & A3 & A4 & A5); try lra; try assumption.
  destruct (side_area x 1) as (a2 & m2 & B1 & B2 & B3 & B4 & B5); try lra; try assumption.
  exists (a1 + a2), m1, m2, (-1 * (m1 + m2)). unfold get_secondary_competition_area, get_secondary_competition_max_energy.
  rewrite A1, B1, A2, B2. cbn [bind]. split; [reflexivity|]. split; [reflexivity|]. split; [reflexivity|].
  assert (E : (x * - m1 + (1 - x) * - m2) / 2 == (1#2) * (x * - m1 + (1 - x) * - m2)) by field.
  rewrite E. split; [lra|]. split; [lra|]. split; [reflexivity|].
  assert (P1 : 0 <= x * - m1) by nra. assert (P2 : 0 <= (1 - x) * - m2) by nra.
  assert (Q1 : x * - m1 <= - m1) by nra. assert (Q2 : (1 - x) * - m2 <= - m2) by nra.
  split; [lra|]. split; [lra|]. split; intros Z.
  - assert (Z1 : x * - m1 == 0) by lra. assert (Z2 : (1 - x) * - m2 == 0) by lra.
    apply Qmult_integral in Z1 as [Z1|Z1]; [lra|]. apply Qmult_integral in Z2 as [Z2|Z2]; lra.
  - assert (m1 == 0) as E1 by lra. assert (m2 == 0) as E2 by lra. rewrite E1 in A5. rewrite E2 in B5. lra.
Qed.
End Sides.
