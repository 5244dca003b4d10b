(* Proofs about the offset of an entry: C99. *)
From Coq Require Import Reals Qreals Lra Psatz.
From Verif Require Import Prelude NumQ OffsetModel OffsetSpec.
Open Scope R_scope.

Lemma norm_scalar a : norm a = sqrt (scalar a a).
Proof. unfold norm. f_equal. induction a as [|x a IH]; [reflexivity|]. cbn. rewrite IH. reflexivity. Qed.
Lemma scalar_nonneg a : 0 <= scalar a a.
Proof. induction a as [|x a IH]; cbn; [lra|]. nra. Qed.
Lemma scalar_pos a : (exists x, In x a /\ x <> 0) -> 0 < scalar a a.
Proof.
  intros (x & H & N). induction a as [|y a IH]; [destruct H|]. cbn. pose proof (scalar_nonneg a). destruct H as [->|H]; [|specialize (IH H); nra].
  assert (0 < x * x) by (apply Rlt_0_sqr in N; exact N). lra.
Qed.
Lemma scalar_diff a : forall p q, length p = length a -> length q = length a -> scalar a (difference p q) = scalar a p - scalar a q.
Proof.
  induction a as [|x a IH]; intros [|y p] [|z q] Hp Hq; try discriminate; cbn; [lra|]. rewrite IH by (cbn in *; congruence). ring.
Qed.
(* Cauchy-Schwarz *)
Lemma cauchy a : forall p, scalar a p * scalar a p <= scalar a a * scalar p p.
Proof.
  intros p. assert (Q : forall t, 0 <= scalar a a * t * t + 2 * scalar a p * t + scalar p p).
  { revert p. induction a as [|x a IH]; intros p t; [cbn; pose proof (scalar_nonneg p); lra|]. destruct p as [|y p]; [cbn; pose proof (scalar_nonneg a); nra|].
    cbn. specialize (IH p t). assert (0 <= (x * t + y) * (x * t + y)) by (apply Rle_0_sqr). nra. }
  destruct (Req_dec (scalar a a) 0) as [Z|NZ].
  - rewrite Z in *. assert (scalar a p = 0); [|rewrite H; pose proof (scalar_nonneg p); lra].
    pose proof (Q (- (scalar p p + 1) / (2 * scalar a p))) as H1. destruct (Req_dec (scalar a p) 0) as [E|N]; [exact E|exfalso].
    replace (0 * (- (scalar p p + 1) / (2 * scalar a p)) * (- (scalar p p + 1) / (2 * scalar a p)) + 2 * scalar a p * (- (scalar p p + 1) / (2 * scalar a p)) + scalar p p) with (-1) in H1 by (field; exact N). lra.
  - assert (P : 0 < scalar a a) by (pose proof (scalar_nonneg a); lra). specialize (Q (- scalar a p / scalar a a)).
    replace (scalar a a * (- scalar a p / scalar a a) * (- scalar a p / scalar a a) + 2 * scalar a p * (- scalar a p / scalar a a) + scalar p p) with ((scalar a a * scalar p p - scalar a p * scalar a p) / scalar a a) in Q by (field; lra).
    assert (0 <= (scalar a a * scalar p p - scalar a p * scalar a p) / scalar a a * scalar a a) by (apply Rmult_le_pos; lra).
    replace ((scalar a a * scalar p p - scalar a p * scalar a p) / scalar a a * scalar a a) with (scalar a a * scalar p p - scalar a p * scalar a p) in H by (field; lra). lra.
Qed.

Lemma abs_sqrt x : Rabs x = sqrt (x * x).
Proof. rewrite <- (sqrt_Rsqr_abs x). reflexivity. Qed.

Fixpoint shift (a : list R) (t : R) (p : list R) : list R :=
  match a, p with x :: a', y :: p' => (y - t * x) :: shift a' t p' | _, _ => [] end.
Lemma shift_length a t : forall p, length p = length a -> length (shift a t p) = length a.
Proof. induction a as [|x a IH]; intros [|y p] H; try discriminate; cbn; [reflexivity|]. rewrite IH by (cbn in H; congruence). reflexivity. Qed.
Lemma shift_scalar a t : forall p, length p = length a -> scalar a (shift a t p) = scalar a p - t * scalar a a.
Proof. induction a as [|x a IH]; intros [|y p] H; try discriminate; cbn; [lra|]. rewrite IH by (cbn in H; congruence). ring. Qed.
Lemma shift_difference a t : forall p, length p = length a -> scalar (difference p (shift a t p)) (difference p (shift a t p)) = t * t * scalar a a.
Proof. induction a as [|x a IH]; intros [|y p] H; try discriminate; cbn; [lra|]. rewrite IH by (cbn in H; congruence). ring. Qed.

Theorem parallel_gap a b d : (exists x, In x a /\ x <> 0) -> plane_gap a b (b - d) (parallel_distance a d).
Proof.
  intros Hn. assert (P := scalar_pos a Hn). assert (S : 0 < sqrt (scalar a a)) by (apply sqrt_lt_R0; exact P). unfold parallel_distance. rewrite norm_scalar. split.
  - intros p q [Lp Hp] [Lq Hq]. unfold distance. apply Rmult_le_reg_r with (sqrt (scalar a a)); [exact S|]. unfold Rdiv. rewrite Rmult_assoc, Rinv_l by lra. rewrite Rmult_1_r, (Rmult_comm _ (sqrt (scalar a a))).
    rewrite <- sqrt_mult by (try apply scalar_nonneg). rewrite abs_sqrt. apply sqrt_le_1_alt. pose proof (cauchy a (difference p q)) as C. rewrite scalar_diff in C by assumption. rewrite Hp, Hq in C.
    replace (b - (b - d)) with d in C by ring. exact C.
  - intros p [Lp Hp]. exists (shift a (d / scalar a a) p). split; [split; [apply shift_length; exact Lp|]|].
    + rewrite shift_scalar by exact Lp. rewrite Hp. field. lra.
    + unfold distance. rewrite shift_difference by exact Lp. replace (d / scalar a a * (d / scalar a a) * scalar a a) with (d * d / scalar a a) by (field; lra).
      rewrite sqrt_div_alt by exact P. rewrite <- abs_sqrt. reflexivity.
Qed.
Lemma nonzero_Q2R l : (exists x, In x l /\ ~ (x == 0)%Q) -> exists x, In x (map Q2R l) /\ x <> 0.
Proof. intros (x & H & N). exists (Q2R x). split; [apply in_map; exact H|]. intros E. apply N. apply eqR_Qeq. rewrite E. unfold Q2R. cbn. lra. Qed.

Theorem offset_spec is_min has_domain d normal b : (exists x, In x normal /\ ~ (x == 0)%Q) ->
  exists v, get_offset is_min has_domain (Ok d) normal = Ok v
  /\ (is_min = true -> has_domain = true -> v = 0)
  /\ (is_min && has_domain = false -> plane_gap (map Q2R normal) b (b - Q2R d) v /\ (v = 0 <-> (d == 0)%Q)).
Proof.
  intros Hn. unfold get_offset. destruct (is_min && has_domain) eqn:E.
  - exists 0. split; [reflexivity|]. split; [reflexivity|discriminate].
  - exists (parallel_distance (map Q2R normal) (Q2R d)). split; [reflexivity|]. split; [intros -> ->; discriminate|]. intros _. apply nonzero_Q2R in Hn. split; [apply parallel_gap; exact Hn|].
    assert (S : 0 < norm (map Q2R normal)) by (rewrite norm_scalar; apply sqrt_lt_R0, scalar_pos; exact Hn). unfold parallel_distance. split.
    + intros H. apply eqR_Qeq. apply Rmult_eq_compat_r with (r := norm (map Q2R normal)) in H. unfold Rdiv in H. rewrite Rmult_assoc, Rinv_l, Rmult_1_r, Rmult_0_l in H by lra.
      destruct (Req_dec (Q2R d) 0) as [Z|Z]; [rewrite Z; unfold Q2R; cbn; lra|]. apply Rabs_no_R0 in Z. contradiction.
    + intros H. apply Qeq_eqR in H. rewrite H. replace (Q2R 0) with 0 by (unfold Q2R; cbn; lra). rewrite Rabs_R0. unfold Rdiv. ring.
Qed.
