(* Least squares by projection, and balancing a reaction that is determined by its species. *)
From Coq Require Import Setoid Lqa Field.
From Verif Require Import Prelude ListFacts NumQ UtilsModel UtilsSpec UtilsProofs SumQ ReactionModel ReactionSpec ReactionBaseProofs ReactionBalanceProofs LinModel LinSpec.
Open Scope nat_scope.

(* --- vectors --- *)
Lemma Qsquare_nonneg a : (0 <= a * a)%Q.
Proof. nra. Qed.
Lemma dot_comm u v : (dot u v == dot v u)%Q.
Proof. revert v. induction u as [|a u IH]; intros [|b v]; cbn [dot]; try reflexivity. rewrite IH. ring. Qed.
Lemma add_length u v : length u = length v -> length (add u v) = length u.
Proof. revert v. induction u as [|a u IH]; intros [|b v] H; try discriminate; [reflexivity|]. injection H as H. cbn. rewrite IH by exact H. reflexivity. Qed.
Lemma scale_length k u : length (scale k u) = length u.
Proof. apply map_length. Qed.
Lemma sub_length u v : length u = length v -> length (sub u v) = length u.
Proof. intros H. apply add_length. rewrite scale_length. exact H. Qed.
Lemma dot_add u v w : length u = length v -> (dot (add u v) w == dot u w + dot v w)%Q.
Proof.
  revert v w. induction u as [|a u IH]; intros [|b v] w H; try discriminate; [reflexivity|]. injection H as H.
  destruct w as [|c w]; cbn [add dot]; [ring|]. rewrite IH by exact H. rewrite Qred_correct. ring.
Qed.
Lemma dot_scale k u w : (dot (scale k u) w == k * dot u w)%Q.
Proof. revert w. induction u as [|a u IH]; intros [|c w]; cbn [scale map dot]; try ring. fold (scale k u). rewrite IH. ring. Qed.
Lemma dot_sub u v w : length u = length v -> (dot (sub u v) w == dot u w - dot v w)%Q.
Proof. intros H. unfold sub. rewrite dot_add by (rewrite scale_length; exact H). rewrite dot_scale. ring. Qed.
Lemma dot_sub_r u v w : length u = length v -> (dot w (sub u v) == dot w u - dot w v)%Q.
Proof. intros H. rewrite dot_comm, dot_sub by exact H. rewrite (dot_comm u), (dot_comm v). reflexivity. Qed.
Lemma dot_zeros m w : (dot (repeat 0%Q m) w == 0)%Q.
Proof. revert w. induction m as [|m IH]; intros [|c w]; cbn [repeat dot]; try reflexivity. rewrite IH. ring. Qed.
Lemma dot_nonneg u : (0 <= dot u u)%Q.
Proof. induction u as [|a u IH]; cbn [dot]; [apply Qle_refl|]. pose proof (Qsquare_nonneg a) as H. nra. Qed.
Lemma Qsq_0 a : (a * a == 0)%Q -> (a == 0)%Q.
Proof. intros H. destruct (Qmult_integral _ _ H); assumption. Qed.
Lemma dot_zero u : (dot u u == 0)%Q -> forall w, (dot u w == 0)%Q.
Proof.
  induction u as [|a u IH]; intros H [|c w]; cbn [dot] in *; try reflexivity. pose proof (dot_nonneg u) as P. pose proof (Qsquare_nonneg a) as N.
  assert (A : (a * a == 0)%Q) by (apply Qle_antisym; [rewrite <- H|exact N]; lra).
  assert (U : (dot u u == 0)%Q) by lra. apply Qsq_0 in A. rewrite A, (IH U). ring.
Qed.

Lemma lincomb_length m xs vs : (forall v, In v vs -> length v = m) -> length (lincomb m xs vs) = m.
Proof.
  revert xs. induction vs as [|v vs IH]; intros [|x xs] H; cbn [lincomb]; try apply repeat_length.
  rewrite add_length; rewrite scale_length; [apply H; left; reflexivity|]. rewrite IH by (intros v' H'; apply H; right; exact H'). apply H. left. reflexivity.
Qed.
Lemma lincomb_dot m xs vs w : (forall v, In v vs -> length v = m) -> (dot (lincomb m xs vs) w == sumQ (fun xv => fst xv * dot (snd xv) w) (combine xs vs))%Q.
Proof.
  revert xs. induction vs as [|v vs IH]; intros [|x xs] H; cbn [lincomb combine]; try apply dot_zeros.
  assert (H' : forall v', In v' vs -> length v' = m) by (intros v' H'; apply H; right; exact H').
  rewrite dot_add by (rewrite scale_length, lincomb_length by exact H'; apply H; left; reflexivity). rewrite dot_scale, (IH xs H'). reflexivity.
Qed.
Lemma lincomb_orth m xs vs w : (forall v, In v vs -> length v = m) -> (forall v, In v vs -> (dot v w == 0)%Q) -> (dot (lincomb m xs vs) w == 0)%Q.
Proof.
  intros H O. rewrite lincomb_dot by exact H. apply sumQ_all_zero. intros [x v] Hin. cbn [fst snd]. rewrite O by (apply in_combine_r in Hin; exact Hin). ring.
Qed.

(* --- projection --- *)
Lemma project_length m vs b : length (project m vs b) = length vs.
Proof. revert b. induction vs as [|v vs IH]; intros b; [reflexivity|]. cbn [project length]. rewrite IH. reflexivity. Qed.
Definition rest (m : nat) (vs : list vec) (b : vec) : vec := sub b (lincomb m (project m vs b) vs).
Lemma rest_length m vs b : (forall v, In v vs -> length v = m) -> length b = m -> length (rest m vs b) = m.
Proof. intros H L. unfold rest. rewrite sub_length; [exact L|]. rewrite lincomb_length by exact H. exact L. Qed.
Lemma project_orth m vs : (forall v, In v vs -> length v = m) -> forall b, length b = m -> forall v, In v vs -> (dot v (rest m vs b) == 0)%Q.
Proof.
  induction vs as [|v vs IH]; intros H b L w Hw; [destruct Hw|].
  assert (H' : forall v', In v' vs -> length v' = m) by (intros v' Hv; apply H; right; exact Hv).
  assert (Lv : length v = m) by (apply H; left; reflexivity). specialize (IH H').
  unfold rest. cbn [project]. fold (rest m vs v). set (v' := rest m vs v). set (t := if Qeq_bool (dot v' v') 0 then 0%Q else Qred (dot b v' / dot v' v')).
  set (b' := sub b (scale t v)). cbn [lincomb]. set (l := lincomb m (project m vs b') vs).
  assert (Lb : length b' = m) by (unfold b'; rewrite sub_length; [exact L|rewrite scale_length; congruence]).
  assert (Ll : length l = m) by (apply lincomb_length; exact H').
  assert (E : forall u, (dot u (sub b (add (scale t v) l)) == dot u (rest m vs b'))%Q).
  { intros u. unfold rest. fold l. rewrite (dot_comm u), (dot_comm u), !dot_sub by (rewrite ?add_length, ?scale_length; congruence || (rewrite ?scale_length; congruence)).
    rewrite dot_add by (rewrite scale_length; congruence). unfold b'. rewrite dot_sub by (rewrite scale_length; congruence). ring. }
  rewrite E. destruct Hw as [<-|Hw]; [|apply IH; [exact Lb|exact Hw]].
  (* orthogonal to v: v = v' + combination of vs *)
  assert (Ov : forall u, In u vs -> (dot u v' == 0)%Q) by (apply IH; exact Lv).
  assert (Dv : forall u, (dot v u == dot v' u + dot (lincomb m (project m vs v) vs) u)%Q).
  { intros u. unfold v', rest. rewrite dot_sub by (rewrite lincomb_length by exact H'; exact Lv). ring. }
  rewrite Dv. assert (Or : (dot (lincomb m (project m vs v) vs) (rest m vs b') == 0)%Q) by (apply lincomb_orth; [exact H'|intros u Hu; apply IH; [exact Lb|exact Hu]]). rewrite Or.
  assert (Lv' : length v' = m) by (apply rest_length; assumption).
  unfold rest. fold l. rewrite dot_sub_r by congruence. assert (Ol : (dot l v' == 0)%Q) by (apply lincomb_orth; assumption). rewrite (dot_comm v' l), Ol.
  unfold b'. rewrite dot_sub_r by (rewrite scale_length; congruence). rewrite (dot_comm v' (scale t v)), dot_scale, (dot_comm v' b).
  assert (Ov' : (dot (lincomb m (project m vs v) vs) v' == 0)%Q) by (apply lincomb_orth; assumption). rewrite Dv, Ov'. unfold t. destruct (Qeq_bool (dot v' v') 0) eqn:Ed.
  - apply Qeq_bool_iff in Ed. rewrite (dot_comm b v'), (dot_zero v' Ed). ring.
  - apply Qeq_bool_neq in Ed. rewrite Qred_correct. field. exact Ed.
Qed.

(* --- the pseudo-inverse solution --- *)
Section System.
Variable sys : list (vec * Q).
Variable n : nat.
Hypothesis Hsys : forall q, In q sys -> length (fst q) = n.

Definition gap (x : vec) (q : vec * Q) : Q := (dot (fst q) x - snd q)%Q.
Definition squares (x : vec) : Q := sumQ (fun q => gap x q * gap x q)%Q sys.

Lemma add_map (f g : vec * Q -> Q) l : add (map f l) (map g l) = map (fun q => Qred (f q + g q)) l.
Proof. induction l as [|q l IH]; [reflexivity|]. cbn [map add]. rewrite IH. reflexivity. Qed.
Lemma dot_map (f g : vec * Q -> Q) l : (dot (map f l) (map g l) == sumQ (fun q => f q * g q) l)%Q.
Proof. induction l as [|q l IH]; [reflexivity|]. cbn [map dot]. rewrite IH. reflexivity. Qed.
Lemma columns_dot x : length x = n -> forall g, (dot (lincomb (length sys) x (columns sys n)) (map g sys) == sumQ (fun q => dot (fst q) x * g q) sys)%Q.
Proof.
  intros Lx g. rewrite lincomb_dot by (intros v Hv; apply in_map_iff in Hv as (j & <- & _); apply map_length).
  assert (E : forall l : list (vec * Q), (forall q, In q l -> length (fst q) = n) -> forall (xs : vec) s k, length xs = k -> s + k = n ->
    (sumQ (fun xv : Q * vec => fst xv * dot (snd xv) (map g l)) (combine xs (map (column l) (seq s k))) == sumQ (fun q => dot (skipn s (fst q)) xs * g q) l)%Q).
  { intros l Hl xs. induction xs as [|a xs IH]; intros s k Lk Hk; cbn [length] in Lk; subst k; cbn [seq map combine].
    - symmetry. apply sumQ_all_zero. intros q _. destruct (skipn s (fst q)); cbn [dot]; ring.
    - rewrite sumQ_cons. cbn [fst snd]. rewrite (IH (S s) (length xs) eq_refl ltac:(lia)). unfold column at 1. rewrite dot_map, <- sumQ_scale_l, <- sumQ_add.
      apply sumQ_ext. intros q Hq. specialize (Hl q Hq).
      assert (Es : skipn s (fst q) = nth s (fst q) 0%Q :: skipn (S s) (fst q)).
      { generalize Hl. generalize (fst q). clear -Hk. intros u Lu. revert u Lu. revert Hk. generalize n. induction s as [|s IH]; intros n0 Hk [|b u] Lu; cbn in *; try lia; [reflexivity|].
        apply (IH (n0 - 1)); lia. }
      unfold vec in *. rewrite Es. cbn [dot]. ring. }
  exact (E sys Hsys x 0 n Lx eq_refl).
Qed.

Lemma column_length v : In v (columns sys n) -> length v = length sys.
Proof. intros Hv. apply in_map_iff in Hv as (j & <- & _). apply map_length. Qed.
Definition first_fit : vec := project (length sys) (columns sys n) (map snd sys).
Lemma first_fit_length : length first_fit = n.
Proof. unfold first_fit. rewrite project_length. unfold columns. rewrite map_length, seq_length. reflexivity. Qed.

(* the residual is orthogonal to every combination of the columns *)
Lemma first_fit_normal y : length y = n -> (sumQ (fun q => dot (fst q) y * gap first_fit q) sys == 0)%Q.
Proof.
  intros Ly. set (b := map snd sys). assert (Lb : length b = length sys) by apply map_length.
  assert (O : (dot (lincomb (length sys) y (columns sys n)) (rest (length sys) (columns sys n) b) == 0)%Q).
  { apply lincomb_orth; [exact column_length|]. intros v Hv. apply project_orth; [exact column_length|exact Lb|exact Hv]. }
  unfold rest in O. fold first_fit in O. rewrite dot_sub_r in O by (rewrite lincomb_length by exact column_length; exact Lb).
  unfold b in O. rewrite (columns_dot y Ly snd) in O.
  assert (E : (dot (lincomb (length sys) y (columns sys n)) (lincomb (length sys) first_fit (columns sys n)) == sumQ (fun q => dot (fst q) y * dot (fst q) first_fit) sys)%Q).
  { assert (M : forall xs l, lincomb (length sys) xs (map (column sys) l) = map (fun q => nth 0 (lincomb 1 xs (map (fun j => [nth j (fst q) 0%Q]) l)) 0%Q) sys).
    { clear. intros xs l. revert xs. induction l as [|j l IH]; intros [|x xs]; cbn [map lincomb]; try (clear; induction sys as [|q s IH]; [reflexivity|cbn; f_equal; exact IH]).
      rewrite IH. unfold column at 1. unfold scale. rewrite map_map, add_map. apply map_ext. intros q. cbn [scale map].
      destruct (lincomb 1 xs (map (fun j0 => [nth j0 (fst q) 0%Q]) l)) as [|z zs] eqn:E; [|reflexivity].
      exfalso. assert (Lz : length (lincomb 1 xs (map (fun j0 => [nth j0 (fst q) 0%Q]) l)) = 1) by (apply lincomb_length; intros v Hv; apply in_map_iff in Hv as (? & <- & _); reflexivity).
      rewrite E in Lz. discriminate. }
    set (h := fun q : vec * Q => nth 0 (lincomb 1 first_fit (map (fun j => [nth j (fst q) 0%Q]) (seq 0 n))) 0%Q).
    assert (Eh : lincomb (length sys) first_fit (columns sys n) = map h sys) by apply M. rewrite Eh at 1. rewrite (columns_dot y Ly h).
    assert (G : forall f, (sumQ (fun q => f q * h q) sys == sumQ (fun q => f q * dot (fst q) first_fit) sys)%Q).
    { intros f. transitivity (dot (map h sys) (map f sys)).
      - rewrite dot_map. apply sumQ_ext. intros q _. ring.
      - rewrite <- Eh, (columns_dot first_fit first_fit_length f). apply sumQ_ext. intros q _. ring. }
    apply G. }
  rewrite E in O. unfold gap.
  assert (S : (sumQ (fun q => dot (fst q) y * (dot (fst q) first_fit - snd q)) sys == sumQ (fun q => dot (fst q) y * dot (fst q) first_fit) sys + (-1) * sumQ (fun q => dot (fst q) y * snd q) sys)%Q).
  { rewrite <- sumQ_scale_l, <- sumQ_add. apply sumQ_ext. intros q _. ring. }
  rewrite S. lra.
Qed.

(* Pythagoras for any solution of the normal equations *)
Lemma squares_split x y : (forall z, length z = n -> (sumQ (fun q => dot (fst q) z * gap x q) sys == 0)%Q) -> length x = n -> length y = n ->
  (squares y == squares x + sumQ (fun q => (dot (fst q) y - dot (fst q) x) * (dot (fst q) y - dot (fst q) x)) sys)%Q.
Proof.
  intros N Lx Ly. unfold squares.
  assert (E : (sumQ (fun q => gap y q * gap y q) sys == sumQ (fun q => gap x q * gap x q) sys + sumQ (fun q => (dot (fst q) y - dot (fst q) x) * (dot (fst q) y - dot (fst q) x)) sys
     + (2 * sumQ (fun q => dot (fst q) y * gap x q) sys + (-2) * sumQ (fun q => dot (fst q) x * gap x q) sys))%Q).
  { rewrite <- !sumQ_scale_l, <- !sumQ_add. apply sumQ_ext. intros q _. unfold gap. ring. }
  rewrite E, (N y Ly), (N x Lx). ring.
Qed.

Definition solution : vec := pinv_solution sys n.
Lemma row_length v : In v (map fst sys) -> length v = n.
Proof. intros Hv. apply in_map_iff in Hv as (q & <- & Hq). apply Hsys. exact Hq. Qed.
Lemma solution_length : length solution = n.
Proof. apply lincomb_length. exact row_length. Qed.
Lemma solution_rows q : In q sys -> (dot (fst q) solution == dot (fst q) first_fit)%Q.
Proof.
  intros Hq. pose proof (project_orth n (map fst sys) row_length first_fit first_fit_length (fst q) (in_map fst _ _ Hq)) as O.
  unfold rest in O. rewrite dot_sub_r in O by (rewrite lincomb_length by exact row_length; exact first_fit_length).
  unfold solution, pinv_solution. fold first_fit. lra.
Qed.
Lemma solution_normal y : length y = n -> (sumQ (fun q => dot (fst q) y * gap solution q) sys == 0)%Q.
Proof.
  intros Ly. rewrite <- (first_fit_normal y Ly). apply sumQ_ext. intros q Hq. unfold gap. rewrite (solution_rows q Hq). reflexivity.
Qed.
Theorem solution_fits y : length y = n -> (squares solution <= squares y)%Q.
Proof.
  intros Ly. rewrite (squares_split solution y solution_normal solution_length Ly).
  assert (P : (0 <= sumQ (fun q => (dot (fst q) y - dot (fst q) solution) * (dot (fst q) y - dot (fst q) solution)) sys)%Q).
  { apply sumQ_nonneg. intros q _. apply Qsquare_nonneg. }
  lra.
Qed.
Theorem solution_shortest y : length y = n -> (squares y <= squares solution)%Q -> (dot solution solution <= dot y y)%Q.
Proof.
  intros Ly Hy. rewrite (squares_split solution y solution_normal solution_length Ly) in Hy.
  set (d := fun q : vec * Q => ((dot (fst q) y - dot (fst q) solution) * (dot (fst q) y - dot (fst q) solution))%Q) in *.
  assert (Z : forall l, (sumQ d l <= 0)%Q -> forall q, In q l -> (dot (fst q) y == dot (fst q) solution)%Q).
  { induction l as [|q0 l IH]; intros Hl q Hq; [destruct Hq|]. rewrite sumQ_cons in Hl.
    assert (P : (0 <= sumQ d l)%Q) by (apply sumQ_nonneg; intros q1 _; apply Qsquare_nonneg). assert (P0 : (0 <= d q0)%Q) by apply Qsquare_nonneg.
    destruct Hq as [<-|Hq]; [|apply IH; [lra|exact Hq]].
    assert (D : (dot (fst q0) y - dot (fst q0) solution == 0)%Q) by (apply Qsq_0; fold (d q0); apply Qle_antisym; lra). lra. }
  assert (O : (dot solution (sub y solution) == 0)%Q).
  { unfold solution at 1, pinv_solution. apply lincomb_orth; [exact row_length|]. intros v Hv. apply in_map_iff in Hv as (q & <- & Hq).
    rewrite dot_sub_r by (rewrite solution_length; exact Ly). rewrite (Z sys ltac:(lra) q Hq). ring. }
  pose proof (dot_nonneg (sub y solution)) as P. rewrite dot_sub_r in O by (rewrite solution_length; exact Ly).
  rewrite dot_sub, !dot_sub_r in P by (rewrite solution_length; exact Ly). rewrite (dot_comm y solution) in P. lra.
Qed.
End System.

(* --- the equations of a reaction --- *)
Section Equations.
Variable C : chem.
Hypothesis W : wf_chem C.

Lemma net_dot cs x e : (net C (combine cs x) e == dot (map (fun c => amt C c e) cs) x)%Q.
Proof. revert x. induction cs as [|c cs IH]; intros [|k x]; cbn [combine map dot]; try reflexivity. unfold net in *. rewrite sumQ_cons. cbn [fst snd]. rewrite IH. reflexivity. Qed.
Lemma unit_dot n i x : length x = n -> i < n -> (dot (unit_row n i) x == nth i x 0)%Q.
Proof.
  intros L Hi. unfold unit_row. assert (G : forall (x : vec) s, (dot (map (fun j => if Nat.eqb j i then 1 else 0) (seq s (length x))) x == if andb (s <=? i) (i <? s + length x) then nth (i - s) x 0 else 0)%Q).
  { clear. induction x as [|a x IH]; intros s; cbn [length seq map dot].
    - destruct (andb _ _) eqn:E; [|reflexivity]. apply andb_true_iff in E as [E1 E2]. apply Nat.leb_le in E1. apply Nat.ltb_lt in E2. lia.
    - rewrite IH. destruct (Nat.eqb_spec s i) as [->|Hn].
      + rewrite Nat.sub_diag. replace (S i <=? i) with false by (symmetry; apply Nat.leb_gt; lia). replace (i <=? i) with true by (symmetry; apply Nat.leb_le; lia).
        replace (i <? i + S (length x)) with true by (symmetry; apply Nat.ltb_lt; lia). cbn [andb nth]. ring.
      + replace (S s <=? i) with (s <=? i) by (destruct (Nat.leb_spec s i), (Nat.leb_spec (S s) i); lia || reflexivity).
        replace (S s + length x) with (s + S (length x)) by lia. destruct (andb _ _) eqn:E; [|ring].
        apply andb_true_iff in E as [E1 _]. apply Nat.leb_le in E1. replace (i - s) with (S (i - S s)) by lia. cbn [nth]. ring. }
  rewrite <- L. rewrite G. replace (0 <=? i) with true by (symmetry; apply Nat.leb_le; lia). replace (i <? 0 + length x) with true by (symmetry; apply Nat.ltb_lt; lia).
  cbn [andb]. rewrite Nat.sub_0_r. reflexivity.
Qed.
Lemma all_elems_lists cs : lists_elements C cs (all_elems C cs).
Proof.
  split; [apply NoDup_nodup|]. intros e. unfold all_elems. rewrite nodup_In, in_flat_map. reflexivity.
Qed.
Lemma misfit_els els els' cs nr c x : lists_elements C cs els -> lists_elements C cs els' -> (misfit C els cs nr c x == misfit C els' cs nr c x)%Q.
Proof.
  intros [N H] [N' H']. unfold misfit. assert (P : Permutation els els') by (apply NoDup_Permutation; [exact N|exact N'|intros e; rewrite H, H'; reflexivity]).
  rewrite (sumQ_perm _ _ _ P). reflexivity.
Qed.

(* one side only *)
Definition one_side (n nr : nat) (c : list nat) : Prop := (forall i, In i c -> nr <= i < n) \/ (c <> [] /\ forall i, In i c -> i < nr <= n).
Lemma subseq_in {A} (a b : list A) : subseq a b -> forall x, In x a -> In x b.
Proof. induction 1; intros y; cbn; intuition. Qed.
Lemma tried_side nr np rank c : tried nr np rank c -> one_side (nr + np) nr c.
Proof.
  intros [[H|H] L]; [left|right]; [intros i Hi; apply (subseq_in _ _ H) in Hi; apply in_seq in Hi; lia|].
  split; [intros ->; cbn in L; lia|]. intros i Hi. apply (subseq_in _ _ H) in Hi. apply in_seq in Hi. lia.
Qed.
Definition equations (cs : list nat) (nr : nat) (c : list nat) : list (vec * Q) := element_rows C cs ++ constraint_rows (length cs) nr c.
Lemma equations_length cs nr c q : In q (equations cs nr c) -> length (fst q) = length cs.
Proof.
  unfold equations, element_rows, constraint_rows. rewrite in_app_iff, !in_map_iff. intros [(e & <- & _)|(i & <- & _)]; cbn [fst]; [apply map_length|].
  unfold unit_row. rewrite map_length, seq_length. reflexivity.
Qed.
Lemma squares_misfit cs nr c x : one_side (length cs) nr c -> length x = length cs -> (squares (equations cs nr c) x == misfit C (all_elems C cs) cs nr c x)%Q.
Proof.
  intros H L. unfold squares, equations, misfit, element_rows, constraint_rows. rewrite sumQ_app, !sumQ_map. apply Qplus_comp; apply sumQ_ext.
  - intros e _. unfold gap, sq. cbn [fst snd]. rewrite net_dot. ring.
  - intros i Hi. unfold gap, sq. cbn [fst snd].
    assert (E : (if forallb (fun i => nr <=? i) c then 1 else -1)%Q = (if nr <=? i then 1 else -1)%Q /\ i < length cs).
    { destruct H as [H|[Hc H]]; pose proof (H i Hi).
      - split; [|lia]. replace (forallb (fun i => nr <=? i) c) with true; [replace (nr <=? i) with true by (symmetry; apply Nat.leb_le; lia); reflexivity|].
        symmetry. apply forallb_forall. intros j Hj. apply Nat.leb_le. specialize (H j Hj). lia.
      - split; [|lia]. replace (forallb (fun i => nr <=? i) c) with false; [replace (nr <=? i) with false by (symmetry; apply Nat.leb_gt; lia); reflexivity|].
        symmetry. apply not_true_iff_false. rewrite forallb_forall. intros G. specialize (G i Hi). apply Nat.leb_le in G. lia. }
    destruct E as [-> Hin]. rewrite unit_dot by assumption. reflexivity.
Qed.
Lemma square_sum_dot x : (square_sum x == dot x x)%Q.
Proof. induction x as [|a x IH]; [reflexivity|]. unfold square_sum in *. rewrite sumQ_cons, IH. reflexivity. Qed.

(* The modelled pseudo-inverse gives the shortest least squares solution. *)
Theorem exact_solve_fits rs ps c : one_side (length (rs ++ ps)) (length rs) c -> shortest_fit C (rs ++ ps) (length rs) c (exact_solve C rs ps c).
Proof.
  intros H. set (cs := rs ++ ps) in *. set (nr := length rs) in *. unfold exact_solve. fold cs nr. change (element_rows C cs ++ constraint_rows (length cs) nr c) with (equations cs nr c).
  pose proof (equations_length cs nr c) as He. set (x := pinv_solution (equations cs nr c) (length cs)).
  assert (Lx : length x = length cs) by (apply solution_length; exact He).
  assert (B : best_fit C cs nr c x).
  { split; [exact Lx|]. exists (all_elems C cs). split; [apply all_elems_lists|]. intros y Ly. rewrite <- !squares_misfit by assumption. apply solution_fits; assumption. }
  split; [exact B|]. intros y (Ly & els & Hels & Hy). rewrite !square_sum_dot. apply (solution_shortest (equations cs nr c) (length cs) He y Ly).
  change (solution (equations cs nr c) (length cs)) with x. rewrite !squares_misfit by assumption.
  rewrite (misfit_els (all_elems C cs) els), (misfit_els (all_elems C cs) els cs nr c x) by (assumption || apply all_elems_lists). apply Hy. exact Lx.
Qed.
Lemma exact_solve_length rs ps c : length (exact_solve C rs ps c) = length rs + length ps.
Proof. rewrite <- app_length. apply solution_length. apply (equations_length (rs ++ ps) (length rs) c). Qed.

(* --- the determined case --- *)
Lemma net_multiple t v w cs e : multiple t v w -> (net C (combine cs w) e == t * net C (combine cs v) e)%Q.
Proof.
  intros M. revert cs. induction M as [|a b v w H M IH]; intros [|c cs]; cbn [combine]; try (unfold net; cbn [sumQ fold_right]; ring).
  unfold net in *. rewrite !sumQ_cons. cbn [fst snd]. rewrite (IH cs), H. ring.
Qed.
Lemma multiple_map t v : multiple t v (map (fun k => t * k)%Q v).
Proof. induction v as [|k v IH]; constructor; [reflexivity|exact IH]. Qed.
Lemma multiple_nth t v w : multiple t v w -> forall i, (nth i w 0 == t * nth i v 0)%Q.
Proof. intros M. induction M as [|a b v w H M IH]; intros [|i]; cbn [nth]; try ring; [exact H|apply IH]. Qed.
Lemma sum_sq_zero {A} (f : A -> Q) l : (sumQ (fun a => sq (f a)) l <= 0)%Q -> forall a, In a l -> (f a == 0)%Q.
Proof.
  induction l as [|b l IH]; intros H a Ha; [destruct Ha|]. rewrite sumQ_cons in H. assert (P : (0 <= sumQ (fun a => sq (f a)) l)%Q) by (apply sumQ_nonneg; intros a0 _; apply Qsquare_nonneg).
  pose proof (Qsquare_nonneg (f b)) as P0. fold (sq (f b)) in P0. destruct Ha as [<-|Ha]; [|apply IH; [lra|exact Ha]]. apply Qsq_0. fold (sq (f b)). apply Qle_antisym; lra.
Qed.
Lemma nth_in_nonzero (v : list Q) i : i < length v -> In (nth i v 0%Q) v.
Proof. intros H. apply nth_In. exact H. Qed.

Lemma fit_exact cs nr v i x : only_combination C cs v -> i < length cs -> best_fit C cs nr [i] x ->
  exists t, (t * nth i v 0 == if nr <=? i then 1 else -1)%Q /\ multiple t v x.
Proof.
  intros ((Lv & Hv) & Hnz & Honly) Hi (Lx & els & Hels & Hbest). set (s := (if nr <=? i then 1 else -1)%Q) in *.
  assert (Hvi : ~ (nth i v 0 == 0)%Q) by (apply Hnz, nth_in_nonzero; lia).
  set (y := map (fun k => (s / nth i v 0) * k)%Q v). assert (My : multiple (s / nth i v 0)%Q v y) by apply multiple_map.
  assert (Z : (misfit C els cs nr [i] y == 0)%Q).
  { unfold misfit. rewrite sumQ_all_zero; [|intros e _; unfold sq; rewrite (net_multiple _ _ _ cs e My), Hv; ring]. cbn [sumQ fold_right].
    fold s. unfold sq. rewrite (multiple_nth _ _ _ My i). field. exact Hvi. }
  assert (M : (misfit C els cs nr [i] x <= 0)%Q) by (rewrite <- Z; apply Hbest; unfold y; rewrite map_length; exact Lv).
  unfold misfit in M.
  assert (P1 : (0 <= sumQ (fun e => sq (net C (combine cs x) e)) els)%Q) by (apply sumQ_nonneg; intros a _; apply Qsquare_nonneg).
  assert (P2 : (0 <= sumQ (fun j => sq (nth j x 0 - (if nr <=? j then 1 else -1))) [i])%Q) by (apply sumQ_nonneg; intros a _; apply Qsquare_nonneg).
  assert (M1 : (sumQ (fun e => sq (net C (combine cs x) e)) els <= 0)%Q) by (revert M P1 P2; generalize (sumQ (fun e => sq (net C (combine cs x) e)) els); intros; lra).
  assert (M2 : (sumQ (fun j => sq (nth j x 0 - (if nr <=? j then 1 else -1))) [i] <= 0)%Q) by (revert M P1 P2; generalize (sumQ (fun e => sq (net C (combine cs x) e)) els); intros; lra).
  pose proof (sum_sq_zero (fun e => net C (combine cs x) e) els M1) as Hx.
  pose proof (sum_sq_zero (fun j => (nth j x 0 - (if nr <=? j then 1 else -1))%Q) [i] M2 i (or_introl eq_refl)) as Hxi. cbv beta in Hxi. fold s in Hxi.
  assert (Cx : conserves C cs x).
  { split; [exact Lx|]. intros e. destruct (in_dec Nat.eq_dec e els) as [I|I]; [apply Hx; exact I|]. apply (net_unlisted C W). rewrite combine_fst by (symmetry; exact Lx).
    intros H. apply I. apply Hels. apply in_flat_map in H. exact H. }
  destruct (Honly x Cx) as [t Mt]. exists t. split; [|exact Mt]. rewrite <- (multiple_nth _ _ _ Mt i). lra.
Qed.

Lemma wrong_signs_zero nr ks : (forall i k, nth_error ks i = Some k -> (i < nr -> (k <= -(1 # 1000000))%Q) /\ (nr <= i -> ((1 # 1000000) <= k)%Q)) -> wrong_signs nr ks = 0.
Proof.
  intros H. unfold wrong_signs. set (p := fun _ => _). assert (G : forall s l, (forall i k, nth_error l i = Some k -> p (s + i, k) = false) -> length (filter p (combine (seq s (length l)) l)) = 0).
  { intros s l. revert s. induction l as [|k l IH]; intros s Hl; [reflexivity|]. cbn [length seq combine filter].
    rewrite <- (Nat.add_0_r s) at 1. rewrite (Hl 0 k eq_refl). apply IH. intros i k' Hk. rewrite Nat.add_succ_l, <- Nat.add_succ_r. apply Hl. exact Hk. }
  apply (G 0). intros i k Hk. destruct (H i k Hk) as [H1 H2]. unfold p. cbn [fst snd Nat.add]. destruct (Nat.ltb_spec i nr) as [Hi|Hi]; apply Qlt_bool_false; [apply H1|apply H2]; exact Hi.
Qed.

Lemma least_abs (v : list Q) : v <> [] -> exists i, i < length v /\ forall j, j < length v -> (Qabs (nth i v 0) <= Qabs (nth j v 0))%Q.
Proof.
  induction v as [|k v IH]; intros H; [congruence|]. destruct v as [|k' v'].
  - exists 0. split; [cbn; lia|]. intros [|j] Hj; [apply Qle_refl|cbn in Hj; lia].
  - destruct (IH ltac:(discriminate)) as (i & Hi & Hm). destruct (Qlt_le_dec (Qabs k) (Qabs (nth i (k' :: v') 0%Q))) as [L|L].
    + exists 0. split; [cbn; lia|]. intros [|j] Hj; [apply Qle_refl|]. cbn [nth]. apply Qlt_le_weak. eapply Qlt_le_trans; [exact L|]. apply (Hm j). cbn in *. lia.
    + exists (S i). split; [cbn in *; lia|]. intros [|j] Hj; [exact L|]. apply (Hm j). cbn in *. lia.
Qed.
Lemma sides_nth nr v : sides nr v <-> forall i, i < length v -> (i < nr -> (nth i v 0 < 0)%Q) /\ (nr <= i -> (0 < nth i v 0)%Q).
Proof.
  split; intros H i.
  - intros Hi. apply H. apply nth_error_nth'. exact Hi.
  - intros k Hk. rewrite <- (nth_error_nth v i 0%Q Hk). apply H. apply nth_error_Some. congruence.
Qed.
Lemma nth_opp v i : (nth i (map Qopp v) 0 == - nth i v 0)%Q.
Proof. revert i. induction v as [|k v IH]; intros [|i]; cbn [map nth]; try reflexivity. apply IH. Qed.

Lemma single_tried nr np rank i : i < nr + np -> tried nr np rank [i].
Proof.
  intros Hi. split; [|cbn [length]; lia].
  assert (G : forall k s, s <= i < s + k -> subseq [i] (seq s k)).
  { induction k as [|k IH]; intros s H; [lia|]. cbn [seq]. destruct (Nat.eq_dec s i) as [->|Hn]; [apply subseq_take|apply subseq_skip, IH; lia].
    clear. generalize (S i). induction k as [|k IH]; intros s; cbn [seq]; constructor. apply IH. }
  destruct (Nat.lt_ge_cases i nr); [right; apply G; lia|left; apply G; lia].
Qed.

Theorem determined_coeffs rs ps v solve rank : only_combination C (rs ++ ps) v -> 2 <= length rs + length ps -> length rs + length ps <= S rank ->
  (forall c, tried (length rs) (length ps) rank c -> best_fit C (rs ++ ps) (length rs) c (solve c)) ->
  exists ks m t, balance_coeffs C rs ps solve rank = (ks, Some m) /\ ~ (t == 0)%Q /\ multiple t v ks
  /\ (exists i, i < length ks /\ (nth i ks 0 == if length rs <=? i then 1 else -1)%Q)
  /\ (m = 0 -> forall i k, nth_error ks i = Some k -> (i < length rs -> (k <= -(1 # 1000000))%Q) /\ (length rs <= i -> ((1 # 1000000) <= k)%Q))
  /\ (m = 0 <-> sides (length rs) v \/ sides (length rs) (map Qopp v)).
Proof.
  intros HV H2 Hr Hfit. set (n := length rs + length ps) in *. assert (Ln : length (rs ++ ps) = n) by apply app_length.
  pose proof HV as ((Lv & Hv) & Hnz & Honly). rewrite Ln in Lv.
  assert (T1 : forall c, tried (length rs) (length ps) rank c -> exists i, c = [i] /\ i < n).
  { intros c Hc. pose proof (tried_side _ _ _ _ Hc) as S. destruct Hc as [_ L]. replace (Nat.max 1 (length rs + length ps - rank)) with 1 in L by lia.
    destruct c as [|i [|j c]]; cbn in L; try lia. exists i. split; [reflexivity|]. destruct S as [S|[_ S]]; specialize (S i (or_introl eq_refl)); lia. }
  assert (Sol : forall i, i < n -> exists t, (t * nth i v 0 == if length rs <=? i then 1 else -1)%Q /\ multiple t v (solve [i])).
  { intros i Hi. apply (fit_exact (rs ++ ps)); [exact HV|lia|]. apply Hfit, single_tried. exact Hi. }
  assert (Cons : forall i, i < n -> candidate_conserves C (rs ++ ps) (solve [i]) = true).
  { intros i Hi. destruct (Sol i Hi) as (t & _ & M). apply (conserves_iff C W); [rewrite <- (Forall2_length _ _ _ M); lia|].
    intros e. rewrite (net_multiple _ _ _ (rs ++ ps) e M), Hv. assert (E : (t * 0 == 0)%Q) by ring. rewrite E. vm_compute. discriminate. }
  unfold balance_coeffs. destruct (balance_loop C rs ps solve (constraint_list (length rs) (length ps) rank) (repeat 0%Q (length rs + length ps)) None) as [ks low] eqn:E.
  apply loop_spec in E as (E1 & E2 & E3 & _).
  assert (I : forall i, i < n -> In [i] (constraint_list (length rs) (length ps) rank)) by (intros i Hi; apply in_constraint_list, single_tried; exact Hi).
  destruct (E3 [0] (I 0 ltac:(lia)) (Cons 0 ltac:(lia))) as (m & -> & _).
  destruct (E2 m eq_refl) as [[_ F]|(c & Hin & Eks & _ & Em)]; [discriminate|]. apply in_constraint_list in Hin. destruct (T1 c Hin) as (i & -> & Hi).
  destruct (Sol i Hi) as (t & Ht & M). rewrite <- Eks in M, Em. assert (Lk : length ks = n) by (rewrite <- (Forall2_length _ _ _ M); lia).
  rewrite errors_wrong_signs in Em by exact Lk.
  assert (Tn : ~ (t == 0)%Q). { intros T. rewrite T in Ht. destruct (length rs <=? i); [|]; lra. }
  exists ks, m, t. split; [reflexivity|]. split; [exact Tn|]. split; [exact M|]. split; [exists i; split; [lia|rewrite (multiple_nth _ _ _ M i); exact Ht]|].
  split; [intros ->; apply wrong_signs_0; exact Em|]. split.
  - intros ->. pose proof (wrong_signs_0 (length rs) ks Em) as S.
    assert (S' : forall j, j < n -> (j < length rs -> (t * nth j v 0 < 0)%Q) /\ (length rs <= j -> (0 < t * nth j v 0)%Q)).
    { intros j Hj. assert (Hjk : nth_error ks j = Some (nth j ks 0%Q)) by (apply nth_error_nth'; lia). destruct (S _ _ Hjk) as [A B]. rewrite (multiple_nth _ _ _ M j) in A, B. split; intros G; [specialize (A G)|specialize (B G)]; lra. }
    destruct (Qlt_le_dec 0 t) as [T|T]; [left|right; assert (T' : (t < 0)%Q) by (apply Qle_lteq in T as [T|T]; [exact T|exfalso; apply Tn; exact T])]; apply sides_nth; rewrite ?map_length; intros j Hj.
    + destruct (S' j ltac:(lia)) as [A B]. split; intros G; [specialize (A G)|specialize (B G)]; nra.
    + rewrite !nth_opp. destruct (S' j ltac:(lia)) as [A B]. split; intros G; [specialize (A G)|specialize (B G)]; nra.
  - intros Sd. destruct (least_abs v) as (i0 & Hi0 & Hmin); [intros ->; cbn in Lv; lia|].
    destruct (E3 [i0] (I i0 ltac:(lia)) (Cons i0 ltac:(lia))) as (m' & Em' & Hle). injection Em' as <-.
    destruct (Sol i0 ltac:(lia)) as (t0 & Ht0 & M0). assert (L0 : length (solve [i0]) = n) by (rewrite <- (Forall2_length _ _ _ M0); lia).
    rewrite errors_wrong_signs in Hle by exact L0.
    assert (Z : wrong_signs (length rs) (solve [i0]) = 0).
    { apply wrong_signs_zero. intros j k Hk. assert (Hj : j < n) by (rewrite <- L0; apply nth_error_Some; congruence).
      rewrite <- (nth_error_nth (solve [i0]) j 0%Q Hk). rewrite !(multiple_nth _ _ _ M0 j).
      assert (Ab : (1 <= Qabs (t0 * nth j v 0))%Q).
      { rewrite Qabs_Qmult. assert (O : (Qabs (t0 * nth i0 v 0) == 1)%Q) by (rewrite Ht0; destruct (length rs <=? i0); reflexivity). rewrite Qabs_Qmult in O.
        pose proof (Qabs_nonneg t0) as N0. pose proof (Hmin j ltac:(lia)) as Hm. rewrite <- O. rewrite !(Qmult_comm (Qabs t0)). apply Qmult_le_compat_r; assumption. }
      assert (Sg : forall w, (forall l, l < n -> (nth l w 0 == nth l v 0)%Q) \/ (forall l, l < n -> (nth l w 0 == - nth l v 0)%Q) -> length w = n -> sides (length rs) w ->
        (j < length rs -> (t0 * nth j v 0 < 0)%Q) /\ (length rs <= j -> (0 < t0 * nth j v 0)%Q)).
      { intros w Hw Lw Sw. assert (Hi0n : i0 < n) by lia. rewrite sides_nth in Sw. destruct (Sw i0 ltac:(lia)) as [A0 B0]. destruct (Sw j ltac:(lia)) as [Aj Bj].
        destruct Hw as [Hw|Hw]; rewrite (Hw i0 Hi0n) in A0, B0; rewrite (Hw j Hj) in Aj, Bj; destruct (Nat.leb_spec (length rs) i0) as [G0|G0];
          [specialize (B0 G0)|specialize (A0 G0)|specialize (B0 G0)|specialize (A0 G0)]; split; intros G; [specialize (Aj G)|specialize (Bj G)|specialize (Aj G)|specialize (Bj G)|specialize (Aj G)|specialize (Bj G)|specialize (Aj G)|specialize (Bj G)]; nra. }
      destruct Sd as [Sd|Sd].
      - destruct (Sg v (or_introl (fun l _ => Qeq_refl _)) ltac:(lia) Sd) as [A B]. split; intros G; [specialize (A G); rewrite Qabs_neg in Ab by lra|specialize (B G); rewrite Qabs_pos in Ab by lra]; lra.
      - destruct (Sg (map Qopp v) (or_intror (fun l _ => nth_opp v l)) ltac:(rewrite map_length; lia) Sd) as [A B].
        split; intros G; [specialize (A G); rewrite Qabs_neg in Ab by lra|specialize (B G); rewrite Qabs_pos in Ab by lra]; lra. }
    lia.
Qed.
End Equations.
