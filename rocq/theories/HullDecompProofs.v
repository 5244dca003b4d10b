From Coq Require Import Setoid Morphisms.
From Verif Require Import Prelude NumQ SumQ UtilsModel UtilsSpec UtilsProofs HullModel HullSpec CatalanProofs.
Open Scope Q_scope.

Notation qcat n := (inject_Z (cat n)).

Lemma sumZ_sumQ {A} (f : A -> Z) l : inject_Z (sumZ f l) == sumQ (fun a => inject_Z (f a)) l.
Proof.
  induction l as [|a l IH]; [reflexivity|].
  change (sumZ f (a :: l)) with (f a + sumZ f l)%Z. rewrite inject_Z_plus, IH. reflexivity.
Qed.

Lemma qcat_S m : qcat (S m) == sumQ (fun i => qcat i * qcat (m - i)) (seq 0 (S m)).
Proof.
  rewrite cat_S, sumZ_sumQ. apply sumQ_ext. intros i _. rewrite inject_Z_mult. reflexivity.
Qed.

Lemma altitude_height l m r : altitude l m r = height l m r.
Proof. destruct l, m, r. reflexivity. Qed.

(* --- sums with an explicit indicator over a larger interval --- *)
Lemma sumQ_ind_upper f s n m : (m <= n)%nat ->
  sumQ f (seq s m) == sumQ (fun x => ind (x <? s + m)%nat * f x) (seq s n).
Proof.
  intros H. rewrite (sumQ_seq_split _ s n m H).
  rewrite (sumQ_all_zero (fun x => ind (x <? s + m)%nat * f x) (seq (s + m) (n - m))).
  - rewrite (sumQ_ext (fun x => ind (x <? s + m)%nat * f x) f); [ring|].
    intros a Ha. apply in_seq in Ha. rewrite (proj2 (Nat.ltb_lt _ _)) by lia. unfold ind. ring.
  - intros a Ha. apply in_seq in Ha. rewrite (proj2 (Nat.ltb_ge _ _)) by lia. unfold ind. ring.
Qed.

Lemma sumQ_ind_lower f s n k : (k <= n)%nat ->
  sumQ f (seq (s + k) (n - k)) == sumQ (fun x => ind (s + k <=? x)%nat * f x) (seq s n).
Proof.
  intros H. rewrite (sumQ_seq_split _ s n k H).
  rewrite (sumQ_all_zero (fun x => ind (s + k <=? x)%nat * f x) (seq s k)).
  - rewrite (sumQ_ext (fun x => ind (s + k <=? x)%nat * f x) f); [ring|].
    intros a Ha. apply in_seq in Ha. rewrite (proj2 (Nat.leb_le _ _)) by lia. unfold ind. ring.
  - intros a Ha. apply in_seq in Ha. rewrite (proj2 (Nat.leb_gt _ _)) by lia. unfold ind. ring.
Qed.

Section Trees.
Variable pt : nat -> Q * Q.

Definition h3 (p j q : nat) : Q := height (pt p) (pt j) (pt q).

(* Sum of the tree energies over all trees of size n starting at lo. *)
Definition R (lo n : nat) : Q := sumQ (fun t => tree_energy pt t lo (lo + n + 1)) (trees n).

Lemma R_perm lo n ts : all_trees n ts ->
  sum_energies pt ts lo (lo + n + 1) == R lo n.
Proof.
  intros H. unfold R. apply (sumQ_perm (fun t => tree_energy pt t lo (lo + n + 1)) ts).
  apply (all_trees_perm n); [assumption | apply trees_all].
Qed.

Lemma R_0 lo : R lo 0 == 0.
Proof. unfold R. cbn. ring. Qed.

Lemma length_trees n : inject_Z (Z.of_nat (length (trees n))) = qcat n.
Proof. Transparent cat. reflexivity. Qed.
Opaque cat.

Lemma R_S lo m : R lo (S m) ==
  sumQ (fun i => qcat i * qcat (m - i) * h3 lo (lo + 1 + i) (lo + m + 2)
                 + R lo i * qcat (m - i) + qcat i * R (lo + 1 + i) (m - i)) (seq 0 (S m)).
Proof.
  unfold R at 1. unfold trees. rewrite trees_f_S, sumQ_flat_map. apply sumQ_ext.
  intros i Hi. apply in_seq in Hi. rewrite sumQ_flat_map.
  assert (Hl : Permutation (trees_f (S m) i) (trees i)) by (apply trees_f_perm; lia).
  assert (Hr : Permutation (trees_f (S m) (m - i)) (trees (m - i))) by (apply trees_f_perm; lia).
  set (hi := (lo + S m + 1)%nat).
  set (mid := (lo + 1 + i)%nat).
  transitivity (sumQ (fun l => sumQ (fun r => h3 lo mid hi + tree_energy pt l lo mid + tree_energy pt r mid hi)
                  (trees (m - i))) (trees i)).
  - rewrite (sumQ_perm _ _ _ Hl). apply sumQ_ext. intros l Hin.
    rewrite sumQ_map, (sumQ_perm _ _ _ Hr). apply sumQ_ext. intros r _.
    cbn [tree_energy]. apply trees_f_size in Hin. rewrite Hin. reflexivity.
  - replace (lo + m + 2)%nat with hi by (unfold hi; lia).
    transitivity (sumQ (fun l => qcat (m - i) * h3 lo mid hi + (qcat (m - i) * tree_energy pt l lo mid + R mid (m - i))) (trees i)).
    + apply sumQ_ext. intros l _. rewrite !sumQ_add, !sumQ_const, length_trees.
      unfold R. replace (mid + (m - i) + 1)%nat with hi by (unfold mid, hi; lia). ring.
    + rewrite !sumQ_add, !sumQ_const, length_trees, sumQ_scale_l.
      unfold R at 2. replace (lo + i + 1)%nat with mid by (unfold mid; lia). ring.
Qed.

(* All ordered triples with a fixed outer pair. *)
Definition L (p q : nat) : Q :=
  sumQ (fun j => qcat (j - p - 1) * qcat (q - j - 1) * h3 p j q) (seq (p + 1) (q - p - 1)).

Definition D (lo n : nat) : Q :=
  sumQ (fun p => sumQ (fun q => ind (p <? q)%nat * (qcat (n + 1 - (q - p)) * L p q)) (seq lo (n + 2)))
    (seq lo (n + 2)).

(* Catalan convolution behind the closed formula. *)
Lemma convolution lo n p q :
  (lo <= p)%nat -> (p < q)%nat -> (q <= lo + n + 1)%nat -> ~ (p = lo /\ q = lo + n + 1)%nat ->
  sumQ (fun i => ind (q <=? lo + i + 1)%nat * (qcat (i + 1 - (q - p)) * qcat (n - 1 - i))
                 + ind (lo + 1 + i <=? p)%nat * (qcat i * qcat (n - i - (q - p)))) (seq 0 n)
  == qcat (n + 1 - (q - p)).
Proof.
  intros Hp Hpq Hq Hne.
  set (d := (q - p)%nat). set (n' := (n - d)%nat).
  assert (En : (n + 1 - d = S n')%nat) by (unfold n', d; lia).
  rewrite En, qcat_S, sumQ_add.
  assert (H1 : sumQ (fun i => ind (q <=? lo + i + 1)%nat * (qcat (i + 1 - d) * qcat (n - 1 - i))) (seq 0 n)
               == sumQ (fun i => qcat i * qcat (n' - i)) (seq (p - lo) (S n' - (p - lo)))).
  { assert (Hk : (q - lo - 1 <= n)%nat) by lia.
    rewrite (sumQ_seq_split _ 0 n (q - lo - 1) Hk).
    rewrite (sumQ_all_zero _ (seq 0 (q - lo - 1))).
    - rewrite Qplus_0_l.
      replace (0 + (q - lo - 1))%nat with ((p - lo) + (d - 1))%nat by (unfold d; lia).
      rewrite sumQ_seq_shift.
      replace (n - (q - lo - 1))%nat with (S n' - (p - lo))%nat by (unfold n', d; lia).
      apply sumQ_ext. intros i Hi. apply in_seq in Hi.
      rewrite (proj2 (Nat.leb_le _ _)) by (unfold d in *; lia). unfold ind.
      replace (i + (d - 1) + 1 - d)%nat with i by (unfold d; lia).
      replace (n - 1 - (i + (d - 1)))%nat with (n' - i)%nat by (unfold n', d in *; lia). ring.
    - intros i Hi. apply in_seq in Hi. rewrite (proj2 (Nat.leb_gt _ _)) by lia. unfold ind. ring. }
  assert (H2 : sumQ (fun i => ind (lo + 1 + i <=? p)%nat * (qcat i * qcat (n - i - d))) (seq 0 n)
               == sumQ (fun i => qcat i * qcat (n' - i)) (seq 0 (p - lo))).
  { assert (Hk : (p - lo <= n)%nat) by lia.
    rewrite (sumQ_seq_split _ 0 n (p - lo) Hk).
    rewrite (sumQ_all_zero _ (seq (0 + (p - lo)) (n - (p - lo)))).
    - rewrite Qplus_0_r. apply sumQ_ext. intros i Hi. apply in_seq in Hi.
      rewrite (proj2 (Nat.leb_le _ _)) by lia. unfold ind.
      replace (n - i - d)%nat with (n' - i)%nat by (unfold n'; lia). ring.
    - intros i Hi. apply in_seq in Hi. rewrite (proj2 (Nat.leb_gt _ _)) by lia. unfold ind. ring. }
  rewrite H1, H2.
  rewrite (sumQ_seq_split _ 0 (S n') (p - lo)) by (unfold n', d; lia). cbn [plus]. ring.
Qed.

Lemma D_0 lo : D lo 0 == 0.
Proof.
  unfold D. apply sumQ_all_zero. intros p Hp. apply sumQ_all_zero. intros q Hq.
  apply in_seq in Hp. apply in_seq in Hq. destruct (Nat.ltb_spec p q); [|unfold ind; ring].
  unfold L. replace (q - p - 1)%nat with 0%nat by lia. cbn. ring.
Qed.

Lemma D_ext lo n i : (i < n)%nat -> D lo i ==
  sumQ (fun p => sumQ (fun q => ind (p <? q)%nat * (ind (q <=? lo + i + 1)%nat * (qcat (i + 1 - (q - p)) * L p q)))
     (seq lo (n + 2))) (seq lo (n + 2)).
Proof.
  intros Hi. unfold D. rewrite (sumQ_ind_upper _ lo (n + 2) (i + 2)) by lia.
  apply sumQ_ext. intros p Hp. rewrite <- sumQ_scale_l.
  rewrite (sumQ_ind_upper _ lo (n + 2) (i + 2)) by lia.
  apply sumQ_ext. intros q Hq. apply in_seq in Hp. apply in_seq in Hq.
  destruct (Nat.ltb_spec p q); [|unfold ind; ring].
  destruct (Nat.leb_spec q (lo + i + 1)).
  - rewrite (proj2 (Nat.ltb_lt q _)) by lia. rewrite (proj2 (Nat.ltb_lt p _)) by lia. unfold ind. ring.
  - rewrite (proj2 (Nat.ltb_ge q _)) by lia. unfold ind. ring.
Qed.

Lemma D_ext' lo n i : (i < n)%nat -> D (lo + 1 + i) (n - 1 - i) ==
  sumQ (fun p => sumQ (fun q => ind (p <? q)%nat * (ind (lo + 1 + i <=? p)%nat * (qcat (n - i - (q - p)) * L p q)))
     (seq lo (n + 2))) (seq lo (n + 2)).
Proof.
  intros Hi. unfold D.
  replace (n - 1 - i + 2)%nat with ((n + 2) - (1 + i))%nat by lia.
  replace (lo + 1 + i)%nat with (lo + (1 + i))%nat by lia.
  rewrite (sumQ_ind_lower _ lo (n + 2) (1 + i)) by lia.
  apply sumQ_ext. intros p Hp. rewrite <- sumQ_scale_l.
  rewrite (sumQ_ind_lower _ lo (n + 2) (1 + i)) by lia.
  apply sumQ_ext. intros q Hq. apply in_seq in Hp. apply in_seq in Hq.
  destruct (Nat.ltb_spec p q); [|unfold ind; ring].
  replace (n - 1 - i + 1 - (q - p))%nat with (n - i - (q - p))%nat by lia.
  destruct (Nat.leb_spec (lo + (1 + i)) p).
  - rewrite (proj2 (Nat.leb_le _ q)) by lia. unfold ind. ring.
  - unfold ind. ring.
Qed.

Lemma D_S lo m : D lo (S m) ==
  L lo (lo + m + 2) + sumQ (fun i => D lo i * qcat (m - i) + qcat i * D (lo + 1 + i) (m - i)) (seq 0 (S m)).
Proof.
  set (n := S m).
  transitivity (L lo (lo + m + 2) +
    sumQ (fun p => sumQ (fun q => ind (p <? q)%nat *
      (sumQ (fun i => ind (q <=? lo + i + 1)%nat * (qcat (i + 1 - (q - p)) * qcat (n - 1 - i))
                 + ind (lo + 1 + i <=? p)%nat * (qcat i * qcat (n - i - (q - p)))) (seq 0 n) * L p q))
        (seq lo (n + 2))) (seq lo (n + 2))).
  - unfold D.
    (* isolate the pair (lo, lo+n+1) *)
    assert (Hpair : L lo (lo + m + 2) ==
      sumQ (fun p => sumQ (fun q => ind ((p =? lo) && (q =? lo + n + 1))%nat * L p q) (seq lo (n + 2))) (seq lo (n + 2))).
    { set (F := fun p => sumQ _ (seq lo (n + 2))).
      replace (seq lo (n + 2)) with (lo :: seq (S lo) (n + 1)) by
        (replace (n + 2)%nat with (S (n + 1)) by lia; reflexivity).
      rewrite sumQ_cons. unfold F.
      rewrite (sumQ_all_zero _ (seq (S lo) (n + 1))).
      - replace (n + 2)%nat with ((n + 1) + 1)%nat by lia. rewrite seq_app, sumQ_app. cbn [seq].
        rewrite (sumQ_all_zero _ (seq lo (n + 1))).
        + rewrite sumQ_cons. cbn [sumQ fold_right]. rewrite !(Nat.eqb_refl lo).
          replace (lo + (n + 1))%nat with (lo + m + 2)%nat by (unfold n; lia).
          replace (lo + m + 2 =? lo + n + 1)%nat with true by (symmetry; apply Nat.eqb_eq; unfold n; lia).
          unfold ind. cbn [andb]. ring.
        + intros q Hq. apply in_seq in Hq.
          replace (q =? lo + n + 1)%nat with false by (symmetry; apply Nat.eqb_neq; lia).
          rewrite andb_false_r. unfold ind. ring.
      - intros p Hp. apply in_seq in Hp. apply sumQ_all_zero. intros q _.
        replace (p =? lo)%nat with false by (symmetry; apply Nat.eqb_neq; lia).
        cbn [andb]. unfold ind. ring. }
    rewrite Hpair at 1. rewrite <- sumQ_add. apply sumQ_ext. intros p Hp.
    rewrite <- sumQ_add. apply sumQ_ext. intros q Hq.
    apply in_seq in Hp. apply in_seq in Hq.
    destruct (Nat.ltb_spec p q) as [Hpq|Hpq].
    + destruct ((p =? lo) && (q =? lo + n + 1))%nat eqn:E.
      * apply andb_true_iff in E as [E1%Nat.eqb_eq E2%Nat.eqb_eq].
        rewrite (sumQ_all_zero _ (seq 0 n)).
        -- replace (n + 1 - (q - p))%nat with 0%nat by lia. rewrite cat_0. unfold ind. ring.
        -- intros i Hi. apply in_seq in Hi. rewrite !(proj2 (Nat.leb_gt _ _)) by lia. unfold ind. ring.
      * rewrite (convolution lo n p q) by
          (first [lia | intros [-> ->]; rewrite !Nat.eqb_refl in E; discriminate]).
        unfold ind. ring.
    + destruct ((p =? lo) && (q =? lo + n + 1))%nat eqn:E.
      * apply andb_true_iff in E as [E1%Nat.eqb_eq E2%Nat.eqb_eq]. lia.
      * unfold ind. ring.
  - apply Qplus_comp; [reflexivity|].
    transitivity (sumQ (fun p => sumQ (fun q => sumQ (fun i =>
       ind (p <? q)%nat * (ind (q <=? lo + i + 1)%nat * (qcat (i + 1 - (q - p)) * L p q)) * qcat (m - i)
       + qcat i * (ind (p <? q)%nat * (ind (lo + 1 + i <=? p)%nat * (qcat (n - i - (q - p)) * L p q)))) (seq 0 n))
       (seq lo (n + 2))) (seq lo (n + 2))).
    { apply sumQ_ext. intros p _. apply sumQ_ext. intros q _.
      rewrite <- sumQ_scale_r, <- sumQ_scale_l. apply sumQ_ext. intros i Hi.
      replace (n - 1 - i)%nat with (m - i)%nat by (unfold n; lia). ring. }
    transitivity (sumQ (fun p => sumQ (fun i => sumQ (fun q =>
       ind (p <? q)%nat * (ind (q <=? lo + i + 1)%nat * (qcat (i + 1 - (q - p)) * L p q)) * qcat (m - i)
       + qcat i * (ind (p <? q)%nat * (ind (lo + 1 + i <=? p)%nat * (qcat (n - i - (q - p)) * L p q)))) (seq lo (n + 2)))
       (seq 0 n)) (seq lo (n + 2))).
    { apply sumQ_ext. intros p _. apply sumQ_swap. }
    rewrite sumQ_swap. apply sumQ_ext. intros i Hi. apply in_seq in Hi.
    rewrite (D_ext lo n i) by lia.
    replace (m - i)%nat with (n - 1 - i)%nat by (unfold n; lia). rewrite (D_ext' lo n i) by lia.
    rewrite <- sumQ_scale_r, <- sumQ_scale_l, <- sumQ_add. apply sumQ_ext. intros p _.
    rewrite <- sumQ_scale_r, <- sumQ_scale_l, <- sumQ_add. reflexivity.
Qed.

Lemma R_eq_D n lo : R lo n == D lo n.
Proof.
  revert lo. induction n as [n IH] using lt_wf_ind. intros lo. destruct n as [|m].
  - rewrite R_0, D_0. reflexivity.
  - rewrite R_S, D_S.
    rewrite (sumQ_ext _ (fun i => qcat i * qcat (m - i) * h3 lo (lo + 1 + i) (lo + m + 2)
        + (D lo i * qcat (m - i) + qcat i * D (lo + 1 + i) (m - i)))).
    + rewrite sumQ_add. apply Qplus_comp; [|reflexivity].
      unfold L. replace (lo + m + 2 - lo - 1)%nat with (S m) by lia.
      replace (seq (lo + 1) (S m)) with (seq (0 + (lo + 1)) (S m)) by reflexivity.
      rewrite (sumQ_seq_shift _ 0 (S m) (lo + 1)).
      apply sumQ_ext. intros i Hi. apply in_seq in Hi.
      replace (i + (lo + 1) - lo - 1)%nat with i by lia.
      replace (lo + m + 2 - (i + (lo + 1)) - 1)%nat with (m - i)%nat by lia.
      replace (i + (lo + 1))%nat with (lo + 1 + i)%nat by lia. reflexivity.
    + intros i Hi. apply in_seq in Hi. rewrite (IH i) by lia. rewrite (IH (m - i)%nat) by lia. ring.
Qed.

(* D over [0, n+1] as a sum over all strictly increasing triples. *)
Definition term (n i j k : nat) : Q :=
  qcat (j - i - 1) * qcat (k - j - 1) * qcat (n - (j - i - 1) - (k - j - 1) - 1) * h3 i j k.

Lemma D_triples n : D 0 n ==
  sumQ (fun i => sumQ (fun j => sumQ (fun k => term n i j k) (seq (S j) (n + 2 - S j))) (seq (S i) (n + 2 - S i)))
    (seq 0 (n + 2)).
Proof.
  unfold D. apply sumQ_ext. intros i Hi. apply in_seq in Hi.
  transitivity (sumQ (fun j => sumQ (fun k => ind (i <? j)%nat * (ind (j <? k)%nat * term n i j k)) (seq 0 (n + 2))) (seq 0 (n + 2))).
  - rewrite sumQ_swap. apply sumQ_ext. intros k Hk. apply in_seq in Hk.
    destruct (Nat.ltb_spec i k) as [H|H].
    + unfold L. rewrite <- sumQ_scale_l, <- sumQ_scale_l.
      transitivity (sumQ (fun j => ind (i <? j)%nat * (ind (j <? k)%nat * term n i j k)) (seq (i + 1) (k - i - 1))).
      * apply sumQ_ext. intros j Hj. apply in_seq in Hj.
        rewrite !(proj2 (Nat.ltb_lt _ _)) by lia. unfold ind, term.
        replace (n - (j - i - 1) - (k - j - 1) - 1)%nat with (n + 1 - (k - i))%nat by lia. ring.
      * rewrite (sumQ_seq_split _ 0 (n + 2) (i + 1)) by lia.
        rewrite (sumQ_all_zero _ (seq 0 (i + 1))).
        2:{ intros j Hj. apply in_seq in Hj. rewrite (proj2 (Nat.ltb_ge _ _)) by lia. unfold ind. ring. }
        rewrite (sumQ_seq_split _ (0 + (i + 1)) (n + 2 - (i + 1)) (k - i - 1)) by lia.
        rewrite (sumQ_all_zero _ (seq (0 + (i + 1) + (k - i - 1)) _)).
        2:{ intros j Hj. apply in_seq in Hj. rewrite (proj2 (Nat.ltb_ge j k)) by lia. unfold ind. ring. }
        cbn [plus]. ring.
    + transitivity 0; [unfold ind; ring|]. symmetry. apply sumQ_all_zero. intros j _.
      destruct (Nat.ltb_spec i j); [|unfold ind; ring].
      rewrite (proj2 (Nat.ltb_ge j k)) by lia. unfold ind. ring.
  - assert (Hin : forall j, (j < n + 2)%nat ->
      sumQ (fun k => ind (j <? k)%nat * term n i j k) (seq 0 (n + 2)) ==
      sumQ (fun k => term n i j k) (seq (S j) (n + 2 - S j))).
    { intros j Hj. rewrite (sumQ_ind_lower (fun k => term n i j k) 0 (n + 2) (S j)) by lia. reflexivity. }
    rewrite (sumQ_ext _ (fun j => ind (i <? j)%nat * sumQ (fun k => term n i j k) (seq (S j) (n + 2 - S j)))).
    + rewrite <- (sumQ_ind_lower (fun j => sumQ (fun k => term n i j k) (seq (S j) (n + 2 - S j))) 0 (n + 2) (S i)) by lia.
      reflexivity.
    + intros j Hj. apply in_seq in Hj. rewrite sumQ_scale_l, (Hin j) by lia. reflexivity.
Qed.
End Trees.

(* --- combinations of a range of size 1, 2 and 3 as nested sums --- *)
Lemma combinations_0 {A} (l : list A) : combinations l 0 = [[]].
Proof. destruct l; reflexivity. Qed.

Lemma comb_sum (f : list nat -> Q) k s n :
  sumQ f (combinations (seq s n) (S k)) ==
  sumQ (fun i => sumQ (fun c => f (i :: c)) (combinations (seq (S i) (s + n - S i)) k)) (seq s n).
Proof.
  revert s; induction n as [|n IH]; intros s; [reflexivity|].
  cbn [seq combinations]. rewrite sumQ_app, sumQ_map, sumQ_cons, IH.
  replace (s + S n - S s)%nat with n by lia. apply Qplus_comp; [reflexivity|].
  apply sumQ_ext. intros i _. replace (S s + n - S i)%nat with (s + S n - S i)%nat by lia. reflexivity.
Qed.

Lemma comb3_sum (f : list nat -> Q) n :
  sumQ f (combinations (seq 0 n) 3) ==
  sumQ (fun i => sumQ (fun j => sumQ (fun k => f [i; j; k]) (seq (S j) (n - S j))) (seq (S i) (n - S i))) (seq 0 n).
Proof.
  rewrite comb_sum. apply sumQ_ext. intros i Hi. apply in_seq in Hi. rewrite comb_sum.
  apply sumQ_ext. intros j Hj. apply in_seq in Hj. rewrite comb_sum.
  replace (S i + (0 + n - S i) - S j)%nat with (n - S j)%nat by lia.
  apply sumQ_ext. intros k Hk. rewrite combinations_0. cbn. ring.
Qed.

Lemma mapM_ok {A B} (f : A -> result B) (g : A -> B) l :
  (forall a, In a l -> f a = Ok (g a)) -> mapM f l = Ok (map g l).
Proof.
  induction l as [|a l IH]; simpl; intros H; [reflexivity|].
  rewrite (H a) by auto. simpl. rewrite IH by auto. reflexivity.
Qed.

Lemma in_combinations_3 n c : In c (combinations (seq 0 n) 3) ->
  exists i j k, c = [i; j; k] /\ (i < j < k)%nat /\ (k < n)%nat.
Proof.
  intros H.
  assert (G : forall k s m c, In c (combinations (seq s m) k) ->
     match c with [] => True | a :: c' => (s <= a)%nat /\ (a < s + m)%nat /\
        exists k', k = S k' /\ In c' (combinations (seq (S a) (s + m - S a)) k') end).
  { clear. intros k s m; revert s k. induction m as [|m IH]; intros s k c Hc.
    - destruct k; simpl in Hc; [destruct Hc as [<-|[]]; exact I | tauto].
    - destruct k; cbn [seq combinations] in Hc; [destruct Hc as [<-|[]]; exact I|].
      apply in_app_or in Hc as [Hc|Hc].
      + apply in_map_iff in Hc as (c' & <- & Hc'). repeat split; try lia. exists k. split; [reflexivity|].
        replace (s + S m - S s)%nat with m by lia. assumption.
      + apply IH in Hc. destruct c as [|a c']; [exact I|].
        destruct Hc as (H1 & H2 & k' & Hk & Hc). repeat split; try lia. exists k'. split; [assumption|].
        replace (s + S m - S a)%nat with (S s + m - S a)%nat by lia. assumption. }
  assert (Hlen : length c = 3%nat) by (apply in_combinations in H as [_ H]; exact H).
  destruct c as [|i [|j [|k [|? ?]]]]; try discriminate.
  apply G in H as (Hi1 & Hi2 & k1 & _ & H).
  apply G in H as (Hj1 & Hj2 & k2 & _ & H).
  apply G in H as (Hk1 & Hk2 & k3 & _ & H).
  exists i, j, k. split; [reflexivity|]. lia.
Qed.

Definition pts (cs : list (Q * Q)) (i : nat) : Q * Q := nth i cs (0, 0).

Lemma count_ok k : count (Z.of_nat k) = Ok (cat k).
Proof. apply count_cat. Qed.

Lemma energy_term_ok cs n i j k :
  length cs = (n + 2)%nat -> (i < j < k)%nat -> (k < n + 2)%nat ->
  exists e, energy_term cs (Z.of_nat n) [i; j; k] = Ok e /\ e == term (pts cs) n i j k.
Proof.
  intros Hlen Hijk Hk. unfold energy_term.
  assert (Hn : forall a, (a < n + 2)%nat -> nth_error cs a = Some (pts cs a)).
  { intros a Ha. apply nth_error_nth'. rewrite Hlen. assumption. }
  rewrite !Hn by lia. unfold altitude_multiplicity.
  replace (Z.of_nat n - (Z.of_nat j - Z.of_nat i - 1) - (Z.of_nat k - Z.of_nat j - 1) - 1)%Z
    with (Z.of_nat (n - (j - i - 1) - (k - j - 1) - 1)) by lia.
  replace (Z.of_nat j - Z.of_nat i - 1)%Z with (Z.of_nat (j - i - 1)) by lia.
  replace (Z.of_nat k - Z.of_nat j - 1)%Z with (Z.of_nat (k - j - 1)) by lia.
  rewrite (proj2 (Z.ltb_ge _ _)) by lia. rewrite !count_ok.
  eexists. split; [reflexivity|]. rewrite altitude_height. unfold term, h3.
  rewrite !inject_Z_mult. reflexivity.
Qed.

Lemma decomposition_energy_spec cs ts : (2 <= length cs)%nat -> all_trees (length cs - 2) ts ->
  exists e, decomposition_energy cs = Ok e /\ e == sum_energies (pts cs) ts 0 (length cs - 1).
Proof.
  intros Hlen Hts. set (n := (length cs - 2)%nat) in *.
  assert (Hn : length cs = (n + 2)%nat) by (unfold n; lia).
  unfold decomposition_energy.
  replace (Z.of_nat (length cs) - 2)%Z with (Z.of_nat n) by lia.
  set (g := fun c => match energy_term cs (Z.of_nat n) c with Ok e => e | Err _ => 0 end).
  rewrite (mapM_ok _ g).
  2:{ intros c Hc. apply in_combinations_3 in Hc as (i & j & k & -> & Hijk & Hk).
      destruct (energy_term_ok cs n i j k) as (e & He & _); try lia. unfold g. rewrite He. reflexivity. }
  eexists. split; [reflexivity|]. rewrite fold_left_Qplus, Qplus_0_l.
  replace (length cs - 1)%nat with (0 + n + 1)%nat by lia. rewrite (R_perm _ 0 n ts Hts).
  rewrite R_eq_D, D_triples, sumQ_map, Hn, comb3_sum.
  apply sumQ_ext. intros i Hi. apply in_seq in Hi. apply sumQ_ext. intros j Hj. apply in_seq in Hj.
  apply sumQ_ext. intros k Hk. apply in_seq in Hk.
  destruct (energy_term_ok cs n i j k) as (e & He & Hv); try lia. unfold g. rewrite He. exact Hv.
Qed.
