(* Proofs for C154: what a hull raises. *)
From Coq Require Import Sorting.Sorted Lqa.
From Verif Require Import Prelude NumQ UtilsModel HullModel HullSpec ParetoProofs HullDecompProofs HullChainProofs HullEnergyProofs HullSignProofs.
Open Scope nat_scope.

Lemma vertex_point h i : In i (sort_nat (hull_vertices h)) -> In i (qhull h) /\ exists p, nth_error (coords h) i = Some p.
Proof.
  intros Hi. apply (Permutation.Permutation_in _ (sort_nat_perm _)) in Hi. apply filter_In in Hi. destruct Hi as [Hq Hv].
  split; [exact Hq|]. unfold is_hull_vertex in Hv. destruct (nth_error (coords h) i) as [p|]; [exists p; reflexivity|discriminate].
Qed.

Lemma loop_step cs x v1 v2 vs x1 y1 x2 y2 : nth_error cs v1 = Some (x1, y1) -> nth_error cs v2 = Some (x2, y2) ->
  by_coordinate_loop cs x (v1 :: v2 :: vs) =
  if isclose x x1 then Ok [(v1, 1%Q)] else if isclose x x2 then Ok [(v2, 1%Q)]
  else if Qlt_bool x1 x && Qlt_bool x x2 then Ok [(v1, (x2 - x) / (x2 - x1)); (v2, (x - x1) / (x2 - x1))]%Q else by_coordinate_loop cs x (v2 :: vs).
Proof. intros E1 E2. cbn [by_coordinate_loop]. rewrite E1, E2. reflexivity. Qed.

Lemma loop_error cs x : forall vs, (forall i, In i vs -> exists p, nth_error cs i = Some p) ->
  match by_coordinate_loop cs x vs with Ok l => forall i w, In (i, w) l -> In i vs | Err e => e = ValueError end.
Proof.
  induction vs as [|v1 [|v2 vs] IH]; intros H; [reflexivity|reflexivity|].
  destruct (H v1 (or_introl eq_refl)) as [[x1 y1] E1]. destruct (H v2 (or_intror (or_introl eq_refl))) as [[x2 y2] E2]. rewrite (loop_step _ _ _ _ _ _ _ _ _ E1 E2).
  destruct (isclose x x1); [intros i w [[= <- _]|[]]; left; reflexivity|].
  destruct (isclose x x2); [intros i w [[= <- _]|[]]; right; left; reflexivity|].
  destruct (Qlt_bool x1 x && Qlt_bool x x2); [intros i w [[= <- _]|[[= <- _]|[]]]; [left|right; left]; reflexivity|].
  specialize (IH (fun i Hi => H i (or_intror Hi))).
  destruct (by_coordinate_loop cs x (v2 :: vs)); [intros i w Hi; right; exact (IH i w Hi)|exact IH].
Qed.

Lemma weighted_ok cs l : (forall i w, In (i, w) l -> exists p, nth_error cs i = Some p) -> exists e, weighted_energy cs l = Ok e.
Proof.
  induction l as [|[i w] l IH]; intros H; [eexists; reflexivity|]. cbn [weighted_energy].
  destruct (H i w (or_introl eq_refl)) as [[x y] ->]. destruct (IH (fun j v Hj => H j v (or_intror Hj))) as [s ->]. eexists; reflexivity.
Qed.

Lemma hull_energy_error h x e : get_hull_energy h x = Err e -> e = ValueError.
Proof.
  unfold get_hull_energy, get_reactions_by_coordinate. intros E.
  pose proof (loop_error (coords h) x (sort_nat (hull_vertices h)) (fun i Hi => proj2 (vertex_point h i Hi))) as H.
  destruct (by_coordinate_loop _ _ _) as [l|e']; [|congruence].
  destruct (weighted_ok (coords h) l) as [v Ev]; [|congruence]. intros i w Hi. exact (proj2 (vertex_point h i (H i w Hi))).
Qed.

(* Beyond the vertices, and with fewer than two of them, there is no energy. *)
Lemma loop_beyond cs x : forall vs, (forall i, In i vs -> exists p, nth_error cs i = Some p) ->
  (forall i p, In i vs -> nth_error cs i = Some p -> (x < fst p)%Q /\ isclose x (fst p) = false)
  \/ (forall i p, In i vs -> nth_error cs i = Some p -> (fst p < x)%Q /\ isclose x (fst p) = false) ->
  by_coordinate_loop cs x vs = Err ValueError.
Proof.
  induction vs as [|v1 [|v2 vs] IH]; intros H Ho; [reflexivity|reflexivity|].
  destruct (H v1 (or_introl eq_refl)) as [[x1 y1] E1]. destruct (H v2 (or_intror (or_introl eq_refl))) as [[x2 y2] E2].
  rewrite (loop_step _ _ _ _ _ _ _ _ _ E1 E2). assert (Hc : isclose x x1 = false /\ isclose x x2 = false /\ Qlt_bool x1 x && Qlt_bool x x2 = false).
  { destruct Ho as [Ho|Ho].
    - destruct (Ho v1 _ (or_introl eq_refl) E1) as [L1 C1]. destruct (Ho v2 _ (or_intror (or_introl eq_refl)) E2) as [_ C2]. cbn in L1, C1, C2.
      repeat split; [exact C1|exact C2|]. destruct (Qlt_bool x1 x) eqn:L; [|reflexivity]. apply Qlt_bool_iff in L. lra.
    - destruct (Ho v1 _ (or_introl eq_refl) E1) as [_ C1]. destruct (Ho v2 _ (or_intror (or_introl eq_refl)) E2) as [L2 C2]. cbn in L2, C1, C2.
      repeat split; [exact C1|exact C2|]. destruct (Qlt_bool x x2) eqn:L; [|apply andb_false_r]. apply Qlt_bool_iff in L. lra. }
  destruct Hc as (-> & -> & ->). apply IH; [intros i Hi; exact (H i (or_intror Hi))|].
  destruct Ho as [Ho|Ho]; [left|right]; intros i p Hi; exact (Ho i p (or_intror Hi)).
Qed.

Lemma range_error h x1 x2 e : get_coords_in_range h x1 x2 = Err e -> e = ValueError.
Proof.
  unfold get_coords_in_range. set (a := if Qle_bool x1 x2 then x1 else x2). set (b := if Qle_bool x1 x2 then x2 else x1).
  destruct (get_hull_energy h a) as [ya|ea] eqn:Ea; destruct (get_hull_energy h b) as [yb|eb] eqn:Eb; try discriminate; intros [= <-];
    [exact (hull_energy_error _ _ _ Eb)|exact (hull_energy_error _ _ _ Ea)|exact (hull_energy_error _ _ _ Ea)].
Qed.

Lemma altitudes_ok cs : exists e, max_decomposition_energy cs = Ok e.
Proof.
  unfold max_decomposition_energy.
  assert (H : forall l, (forall c, In c l -> exists q, altitude_of cs c = Ok q) -> exists es, mapM (altitude_of cs) l = Ok es).
  { induction l as [|c l IH]; intros H; [eexists; reflexivity|]. cbn [mapM]. destruct (H c (or_introl eq_refl)) as [q ->].
    destruct (IH (fun d Hd => H d (or_intror Hd))) as [es ->]. eexists; reflexivity. }
  destruct (H (combinations (seq 0 (length cs)) 3)) as [es ->]; [|eexists; reflexivity].
  intros c Hc. destruct (in_combinations_3 _ _ Hc) as (i & j & k & -> & Hij & Hk). cbn [altitude_of].
  assert (S : forall n, n < length cs -> exists p, nth_error cs n = Some p).
  { intros n Hn. destruct (nth_error cs n) as [p|] eqn:E; [exists p; reflexivity|]. apply nth_error_None in E. lia. }
  destruct (S i) as [p ->]; [lia|]. destruct (S j) as [q ->]; [lia|]. destruct (S k) as [r ->]; [lia|]. eexists; reflexivity.
Qed.

Lemma max_error h x1 x2 e : get_max_decomposition_energy h x1 x2 = Err e -> e = ValueError.
Proof.
  unfold get_max_decomposition_energy. destruct (get_coords_in_range h x1 x2) as [cs|e'] eqn:E; cbn [bind].
  - destruct (altitudes_ok cs) as [v ->]. discriminate.
  - intros [= <-]. exact (range_error _ _ _ _ E).
Qed.

Lemma hull_raises h x e :
  (get_hull_energy h x = Err e -> e = ValueError)
  /\ (get_secondary_competition_max_energy h x = Err e -> e = ValueError)
  /\ ((forall i p, In i (qhull h) -> nth_error (coords h) i = Some p -> (x < fst p)%Q /\ isclose x (fst p) = false)
      \/ (forall i p, In i (qhull h) -> nth_error (coords h) i = Some p -> (fst p < x)%Q /\ isclose x (fst p) = false) ->
      get_hull_energy h x = Err ValueError).
Proof.
  split; [exact (hull_energy_error h x e)|]. split.
  - unfold get_secondary_competition_max_energy. destruct (get_max_decomposition_energy h 0 x) as [le|el] eqn:El; [|intros [= <-]; exact (max_error _ _ _ _ El)].
    destruct (get_max_decomposition_energy h x 1) as [re|er] eqn:Er; [discriminate|]. intros [= <-]. exact (max_error _ _ _ _ Er).
  - intros Ho. unfold get_hull_energy, get_reactions_by_coordinate. rewrite loop_beyond; [reflexivity|intros i Hi; exact (proj2 (vertex_point h i Hi))|].
    destruct Ho as [Ho|Ho]; [left|right]; intros i p Hi; exact (Ho i p (proj1 (vertex_point h i Hi))).
Qed.

Lemma where_none cs x : (forall c, In c cs -> ~ (fst c == x)%Q) -> forall k, where_x cs x k = [].
Proof.
  induction cs as [|c cs IH]; intros H k; [reflexivity|]. cbn [where_x].
  destruct (Qeq_bool (fst c) x) eqn:E; [apply Qeq_bool_iff in E; destruct (H c (or_introl eq_refl) E)|]. apply IH. intros d Hd. apply H. right. exact Hd.
Qed.
Lemma where_all cs x : (forall c, In c cs -> (fst c == x)%Q) -> forall k, where_x cs x k = seq k (length cs).
Proof.
  induction cs as [|c cs IH]; intros H k; [reflexivity|]. cbn [where_x length seq].
  rewrite (proj2 (Qeq_bool_iff _ _) (H c (or_introl eq_refl))). f_equal. apply IH. intros d Hd. apply H. right. exact Hd.
Qed.
Lemma last_seq n : forall k d, last (seq k n) d = match n with 0 => d | S m => k + m end.
Proof.
  induction n as [|n IH]; intros k d; [reflexivity|]. cbn [seq]. destruct n as [|n]; [cbn; lia|].
  change (last (k :: seq (S k) (S n)) d) with (last (seq (S k) (S n)) d). rewrite IH. lia.
Qed.

Lemma primary_answers h energy x : StronglySorted (fun c d => (fst c <= fst d)%Q) (coords h) ->
  ((exists v, get_primary_competition h energy x = Ok v) <-> (exists c, In c (coords h) /\ (fst c == x)%Q) /\ (exists c, In c (coords h) /\ ~ (fst c == x)%Q))
  /\ (~ ((exists c, In c (coords h) /\ (fst c == x)%Q) /\ (exists c, In c (coords h) /\ ~ (fst c == x)%Q)) -> get_primary_competition h energy x = Err ValueError).
Proof.
  intros Hs.
  assert (Hno : ~ ((exists c, In c (coords h) /\ (fst c == x)%Q) /\ (exists c, In c (coords h) /\ ~ (fst c == x)%Q)) -> get_primary_competition h energy x = Err ValueError).
  { intros Hn. unfold get_primary_competition.
    destruct (existsb (fun c : coord => Qeq_bool (fst c) x) (coords h)) eqn:Ex.
    - apply existsb_exists in Ex. destruct Ex as (c & Hc & E). apply Qeq_bool_iff in E.
      assert (Ha : forall d, In d (coords h) -> (fst d == x)%Q).
      { intros d Hd. destruct (Qeq_bool (fst d) x) eqn:Ed; [apply Qeq_bool_iff; exact Ed|]. exfalso. apply Hn. split; [exists c; auto|].
        exists d. split; [exact Hd|]. intros Eq. apply Qeq_bool_iff in Eq. congruence. }
      rewrite (where_all _ _ Ha). destruct (coords h) as [|c0 cs]; [destruct Hc|]. cbn [length seq]. rewrite last_seq.
      replace (skipn _ (c0 :: cs)) with (@nil coord); [reflexivity|].
      symmetry. apply skipn_all2. cbn [length]. destruct (length cs); cbn; lia.
    - rewrite where_none; [reflexivity|]. intros c Hc E. apply Qeq_bool_iff in E.
      assert (T : existsb (fun c : coord => Qeq_bool (fst c) x) (coords h) = true) by (apply existsb_exists; exists c; auto). congruence. }
  split; [|exact Hno]. split.
  - intros [v Ev].
    destruct (existsb (fun c : coord => Qeq_bool (fst c) x) (coords h)) eqn:Ex.
    + destruct (existsb (fun c : coord => negb (Qeq_bool (fst c) x)) (coords h)) eqn:En.
      * apply existsb_exists in Ex. apply existsb_exists in En. destruct Ex as (c & Hc & E). destruct En as (d & Hd & E').
        split; [exists c; split; [exact Hc|apply Qeq_bool_iff; exact E]|]. exists d. split; [exact Hd|]. intros Eq. apply Qeq_bool_iff in Eq. rewrite Eq in E'. discriminate.
      * rewrite Hno in Ev; [discriminate|]. intros [_ (d & Hd & Nd)].
        assert (T : existsb (fun c : coord => negb (Qeq_bool (fst c) x)) (coords h) = true); [|congruence].
        apply existsb_exists. exists d. split; [exact Hd|]. destruct (Qeq_bool (fst d) x) eqn:E; [apply Qeq_bool_iff in E; destruct (Nd E)|reflexivity].
    + rewrite Hno in Ev; [discriminate|]. intros [(d & Hd & Nd) _].
      assert (T : existsb (fun c : coord => Qeq_bool (fst c) x) (coords h) = true); [|congruence].
      apply existsb_exists. exists d. split; [exact Hd|]. apply Qeq_bool_iff. exact Nd.
  - intros [H1 H2]. destruct (primary_spec h energy x Hs H1 H2) as (r & _ & E & _). exists r. exact E.
Qed.

(* A negative number of points reads the table of count from its end. *)
Lemma count_negative k : (k < 0)%Z ->
  count k = if (k <? -23)%Z then Err IndexError else count (23 + k).
Proof.
  intros Hk. unfold count. rewrite (proj2 (Z.leb_le k 22)) by lia. unfold py_index. rewrite (proj2 (Z.ltb_lt k 0) Hk).
  change (Z.of_nat (length counts)) with 23%Z. destruct (k <? -23)%Z eqn:E.
  - apply Z.ltb_lt in E. rewrite (proj2 (Z.ltb_lt (23 + k) 0)) by lia. reflexivity.
  - apply Z.ltb_ge in E. rewrite (proj2 (Z.leb_le (23 + k) 22)) by lia. cbv zeta. replace (23 + k <? 0)%Z with false by (symmetry; apply Z.ltb_ge; lia). cbv beta iota.
    replace (23 + k <? 0)%Z with false by (symmetry; apply Z.ltb_ge; lia). reflexivity.
Qed.

Lemma above_raises h i e : (length (coords h) <= i -> get_energy_above_hull h i = Err ValueError) /\ (get_energy_above_hull h i = Err e -> e = ValueError).
Proof.
  unfold get_energy_above_hull. split.
  - intros L. apply nth_error_None in L. rewrite L. reflexivity.
  - destruct (nth_error (coords h) i) as [[x y]|]; [|congruence]. destruct (get_hull_energy h x) as [v|e'] eqn:E; [discriminate|].
    intros [= <-]. exact (hull_energy_error _ _ _ E).
Qed.
