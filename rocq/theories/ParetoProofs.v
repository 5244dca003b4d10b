From Coq Require Import Sorted.
From Verif Require Import Prelude NumQ ParetoModel ParetoSpec.

Lemma Qlt_bool_iff a b : Qlt_bool a b = true <-> (a < b)%Q.
Proof.
  unfold Qlt_bool. rewrite negb_true_iff. split; intros H.
  - apply Qnot_le_lt. intros Hle. apply Qle_bool_iff in Hle. congruence.
  - destruct (Qle_bool b a) eqn:E; [|reflexivity]. apply Qle_bool_iff in E.
    exfalso. eapply Qlt_not_le; eauto.
Qed.
Lemma Qlt_bool_false_iff a b : Qlt_bool a b = false <-> (b <= a)%Q.
Proof. unfold Qlt_bool. rewrite negb_false_iff. apply Qle_bool_iff. Qed.

Lemma any_lt_false_iff row pivot :
  length row = length pivot -> any_lt row pivot = false <-> le_all pivot row.
Proof.
  unfold le_all. revert pivot; induction row as [|a row IH]; intros [|b pivot] Hl; try discriminate; simpl.
  - split; [constructor|reflexivity].
  - rewrite orb_false_iff, Qlt_bool_false_iff, IH by (simpl in Hl; lia).
    split; [intros [H1 H2]; constructor; assumption | intros H; inversion H; auto].
Qed.

Lemma le_all_trans p q r : le_all p q -> le_all q r -> le_all p r.
Proof.
  unfold le_all. intros H; revert r; induction H as [|a b p q Hab H IH]; intros r Hr;
    inversion Hr; subst; constructor; eauto using Qle_trans.
Qed.

Lemma le_all_dec p q : length p = length q -> le_all p q \/ ~ le_all p q.
Proof.
  intros Hl. destruct (any_lt q p) eqn:E.
  - right. intros H. apply any_lt_false_iff in H; [congruence | congruence].
  - left. apply any_lt_false_iff; congruence.
Qed.

(* --- selection by masks --- *)
Lemma select_map {A} (f : A -> bool) l : select (map f l) l = filter f l.
Proof. induction l; simpl; auto. destruct (f a); simpl; congruence. Qed.

Lemma select_app {A} m1 m2 (l1 l2 : list A) : length m1 = length l1 ->
  select (m1 ++ m2) (l1 ++ l2) = select m1 l1 ++ select m2 l2.
Proof.
  revert l1; induction m1 as [|b m1 IH]; intros [|x l1] H; try discriminate; simpl; auto.
  rewrite IH by (simpl in H; lia). destruct b; reflexivity.
Qed.

Lemma select_map_r {A B} (f : A -> B) m l : select m (map f l) = map f (select m l).
Proof.
  revert l; induction m as [|b m IH]; intros [|x l]; simpl; auto.
  destruct b; simpl; rewrite IH; reflexivity.
Qed.

Lemma set_true_app m1 b m2 : set_true (length m1) (m1 ++ b :: m2) = m1 ++ true :: m2.
Proof. induction m1; simpl; congruence. Qed.

Lemma count_true_map {A} (f : A -> bool) l : count_true (map f l) = length (filter f l).
Proof. unfold count_true. induction l; simpl; auto. destruct (f a); simpl; auto. Qed.

Lemma filter_length_le {A} (f : A -> bool) l : length (filter f l) <= length l.
Proof. induction l; simpl; auto. destruct (f a); simpl; lia. Qed.

Lemma StronglySorted_app_r {A} (R : A -> A -> Prop) l1 x l2 :
  StronglySorted R (l1 ++ x :: l2) -> forall y, In y l2 -> R x y.
Proof.
  induction l1 as [|a l1 IH]; simpl; intros H y Hy; inversion H; subst.
  - rewrite Forall_forall in H3. auto.
  - eauto.
Qed.

Lemma StronglySorted_filter {A} (R : A -> A -> Prop) f l :
  StronglySorted R l -> StronglySorted R (filter f l).
Proof.
  induction 1 as [|a l H IH Hf]; simpl; [constructor|].
  destruct (f a); [|assumption]. constructor; [assumption|].
  rewrite Forall_forall in *. intros x Hx. apply filter_In in Hx as [Hx _]. auto.
Qed.

Lemma StronglySorted_seq s m : StronglySorted lt (seq s m).
Proof.
  revert s; induction m; intros s; simpl; constructor; auto.
  rewrite Forall_forall. intros x Hx. apply in_seq in Hx. lia.
Qed.

Lemma map_row_seq_gen (pre l : list point) :
  map (fun i => nth i (pre ++ l) []) (seq (length pre) (length l)) = l.
Proof.
  revert pre; induction l as [|p l IH]; intros pre; simpl; auto. f_equal.
  - rewrite app_nth2, Nat.sub_diag by lia. reflexivity.
  - specialize (IH (pre ++ [p])). rewrite app_length in IH. simpl in IH.
    rewrite <- app_assoc in IH. simpl in IH.
    replace (length pre + 1) with (S (length pre)) in IH by lia. exact IH.
Qed.

Section Loop.
Variable costs : list point.
Variable d : nat.
Hypothesis Hdim : Forall (fun p => length p = d) costs.
Let n := length costs.
Let row i := nth i costs [].

Lemma row_length i : i < n -> length (row i) = d.
Proof. intros H. unfold row. rewrite Forall_forall in Hdim. apply Hdim, nth_In, H. Qed.

Let bts j i := le_all (row j) (row i) /\ (~ le_all (row i) (row j) \/ j < i).

Lemma bts_trans i j k : i < n -> j < n -> k < n -> bts k j -> bts j i -> bts k i.
Proof.
  intros Hi Hj Hk [H1 H2] [H3 H4]. split; [eauto using le_all_trans|].
  assert (Hd : length (row i) = length (row k)) by (rewrite !row_length; auto).
  destruct (le_all_dec (row i) (row k) Hd) as [Hle|Hle]; [|left; assumption].
  right. destruct H2 as [H2|H2]; [exfalso; apply H2; eauto using le_all_trans|].
  destruct H4 as [H4|H4]; [exfalso; apply H4; eauto using le_all_trans|]. lia.
Qed.

Definition Inv (pre post : list nat) : Prop :=
  StronglySorted lt (pre ++ post)
  /\ Forall (fun i => i < n) (pre ++ post)
  /\ (forall a b, In a pre -> In b (pre ++ post) -> a <> b -> ~ le_all (row a) (row b))
  /\ (forall i, i < n -> In i (pre ++ post) \/ exists j, In j (pre ++ post) /\ bts j i).

Lemma loop_step fuel pre p post :
  pareto_loop (S fuel) (pre ++ p :: post) (map row (pre ++ p :: post)) (length pre) =
  let f i := any_lt (row i) (row p) in
  pareto_loop fuel ((filter f pre ++ [p]) ++ filter f post)
    (map row ((filter f pre ++ [p]) ++ filter f post)) (length (filter f pre ++ [p])).
Proof.
  cbn [pareto_loop].
  rewrite nth_error_map, nth_error_app2, Nat.sub_diag by lia. cbn [nth_error option_map].
  set (f := fun i => any_lt (row i) (row p)).
  assert (Hm : set_true (length pre) (map (fun r => any_lt r (row p)) (map row (pre ++ p :: post)))
    = map f pre ++ true :: map f post).
  { rewrite map_map, map_app. cbn [map].
    rewrite <- (map_length f pre) at 1. apply set_true_app. }
  rewrite Hm. cbv zeta.
  rewrite select_map_r.
  assert (Hs : select (map f pre ++ true :: map f post) (pre ++ p :: post)
    = (filter f pre ++ [p]) ++ filter f post).
  { rewrite select_app by apply map_length. cbn [select]. rewrite !select_map, <- app_assoc. reflexivity. }
  rewrite Hs. f_equal.
  rewrite <- (map_length f pre) at 1. rewrite firstn_app, Nat.sub_diag, firstn_all. cbn [firstn].
  rewrite app_nil_r, count_true_map, app_length. reflexivity.
Qed.

Lemma Inv_step pre p post :
  Inv pre (p :: post) ->
  let f i := any_lt (row i) (row p) in Inv (filter f pre ++ [p]) (filter f post).
Proof.
  intros (Hs & Hb & Hp & Hc) f.
  assert (Hpn : p < n).
  { rewrite Forall_forall in Hb. apply Hb. rewrite in_app_iff. right; left; reflexivity. }
  assert (Hlt : forall i, i < n -> f i = false -> le_all (row p) (row i)).
  { intros i Hi Hf. apply any_lt_false_iff; [|exact Hf]. rewrite !row_length; auto. }
  assert (Hsub : forall x, In x ((filter f pre ++ [p]) ++ filter f post) -> In x (pre ++ p :: post)).
  { intros x. rewrite !in_app_iff, !filter_In. simpl. intuition. }
  assert (Hself : In p ((filter f pre ++ [p]) ++ filter f post)).
  { rewrite !in_app_iff. simpl. auto. }
  assert (Hsort' : StronglySorted lt ((filter f pre ++ [p]) ++ filter f post)).
  { (* the new list is a filter of the old one by a predicate true at p *)
    assert (Heq : (filter f pre ++ [p]) ++ filter f post
        = filter (fun i => f i || Nat.eqb i p) (pre ++ p :: post)).
    { rewrite filter_app. simpl. rewrite Nat.eqb_refl, orb_true_r, <- app_assoc. simpl.
      assert (Hpre : forall x, In x pre -> x <> p).
      { intros x Hx ->. clear - Hs Hx. induction pre as [|a pre IH]; [destruct Hx|].
        simpl in Hs. inversion Hs; subst. destruct Hx as [->|Hx]; [|auto].
        rewrite Forall_forall in H2. specialize (H2 p). rewrite in_app_iff in H2.
        assert (p < p) by (apply H2; simpl; auto). lia. }
      assert (Hpost : forall x, In x post -> x <> p).
      { intros x Hx ->. pose proof (StronglySorted_app_r _ _ _ _ Hs p Hx). lia. }
      f_equal; [|f_equal]; apply filter_ext_in; intros x Hx.
      - apply Hpre in Hx. apply Nat.eqb_neq in Hx. rewrite Hx, orb_false_r. reflexivity.
      - apply Hpost in Hx. apply Nat.eqb_neq in Hx. rewrite Hx, orb_false_r. reflexivity. }
    rewrite Heq. apply StronglySorted_filter. assumption. }
  split; [exact Hsort'|]. split; [|split].
  - rewrite Forall_forall in *. intros x Hx. apply Hb, Hsub, Hx.
  - intros a b Ha Hb' Hab.
    apply in_app_iff in Ha as [Ha|[<-|[]]].
    + apply filter_In in Ha as [Ha _]. apply Hp; auto.
    + intros Hle.
      assert (Hfb : f b = true).
      { rewrite !in_app_iff, !filter_In in Hb'. simpl in Hb'. intuition congruence. }
      assert (Hbn : b < n) by (rewrite Forall_forall in Hb; apply Hb, Hsub, Hb').
      apply any_lt_false_iff in Hle; [unfold f in Hfb; congruence|].
      rewrite !row_length; auto.
  - (* anything removed is beaten by p *)
    assert (Hrem : forall i, In i (pre ++ p :: post) -> i < n ->
              In i ((filter f pre ++ [p]) ++ filter f post) \/ bts p i).
    { intros i Hi Hin. destruct (f i) eqn:Ef.
      - left. rewrite !in_app_iff, !filter_In. rewrite in_app_iff in Hi. simpl in *. intuition.
      - destruct (Nat.eq_dec i p) as [->|Hne]; [left; assumption|].
        right. split; [auto|].
        apply in_app_iff in Hi as [Hi|[Hi|Hi]]; [| congruence |].
        + left. apply Hp; [assumption | rewrite in_app_iff; simpl; auto | assumption].
        + right. eapply StronglySorted_app_r; eauto. }
    intros i Hi. destruct (Hc i Hi) as [Hin|(j & Hj & Hji)].
    + destruct (Hrem i Hin Hi) as [H|H]; [left; exact H | right; exists p; auto].
    + assert (Hjn : j < n) by (rewrite Forall_forall in Hb; apply Hb, Hj).
      destruct (Hrem j Hj Hjn) as [H|H]; right; [exists j; auto | exists p; split; [assumption|]].
      eapply bts_trans; [| | |exact H|exact Hji]; auto.
Qed.

Lemma loop_spec fuel pre post :
  Inv pre post -> length post <= fuel ->
  exists eff, pareto_loop fuel (pre ++ post) (map row (pre ++ post)) (length pre) = Ok eff
    /\ Inv eff [].
Proof.
  revert pre post; induction fuel as [|fuel IH]; intros pre post Hi Hl.
  - destruct post; [|simpl in Hl; lia]. exists pre. split; [|assumption].
    rewrite app_nil_r. simpl.
    rewrite (proj2 (nth_error_None _ _)); [reflexivity|]. rewrite map_length. lia.
  - destruct post as [|p post].
    + exists pre. split; [|assumption]. rewrite app_nil_r. cbn [pareto_loop].
      rewrite (proj2 (nth_error_None _ _)); [reflexivity|]. rewrite map_length. lia.
    + rewrite loop_step. apply IH; [apply Inv_step, Hi|].
      simpl in Hl. pose proof (filter_length_le (fun i => any_lt (row i) (row p)) post). lia.
Qed.

Lemma map_row_seq : map row (seq 0 n) = costs.
Proof. apply (map_row_seq_gen []). Qed.

Lemma indices_spec :
  exists eff, is_pareto_efficient_indices costs = Ok eff
    /\ StronglySorted lt eff
    /\ forall i, In i eff <-> on_front le_all costs i.
Proof.
  assert (Hi0 : Inv [] (seq 0 n)).
  { split; [apply StronglySorted_seq|]. split.
    - rewrite Forall_forall. intros x Hx. apply in_seq in Hx. simpl in *. lia.
    - split; [intros a b []|]. intros i Hi. left. apply in_seq. lia. }
  destruct (loop_spec n [] (seq 0 n) Hi0) as (eff & He & Hs & Hb & Hp & Hc).
  { rewrite seq_length. lia. }
  exists eff. unfold is_pareto_efficient_indices.
  cbn [app length] in He. rewrite map_row_seq in He. split; [exact He|].
  rewrite app_nil_r in *. split; [assumption|].
  assert (Hbts : forall j i, beats le_all costs j i <-> j < n /\ i < n /\ bts j i).
  { intros j i. unfold beats, bts. split.
    - intros (p & q & Hj & Hi & Hle & Hor).
      pose proof (proj1 (nth_error_Some costs j)) as Hjn. pose proof (proj1 (nth_error_Some costs i)) as Hin.
      pose proof (nth_error_nth _ _ [] Hj) as Hj'. pose proof (nth_error_nth _ _ [] Hi) as Hi'.
      split; [apply Hjn; rewrite Hj; discriminate|]. split; [apply Hin; rewrite Hi; discriminate|].
      unfold row. rewrite Hj', Hi'. auto.
    - intros (Hj & Hi & Hle & Hor). exists (row j), (row i).
      unfold row. split; [apply nth_error_nth'; assumption|].
      split; [apply nth_error_nth'; assumption|]. auto. }
  rewrite Forall_forall in Hb.
  intros i. unfold on_front. split.
  - intros Hi. split; [apply Hb, Hi|]. intros (j & Hj). apply Hbts in Hj as (Hjn & Hin & Hji).
    assert (Hno : forall k, In k eff -> k < n -> bts k i -> False).
    { intros k Hk Hkn [Hle Hor]. destruct (Nat.eq_dec k i) as [->|Hne].
      - destruct Hor as [Hor|Hor]; [contradiction|lia].
      - exact (Hp k i Hk Hi Hne Hle). }
    destruct (Hc j Hjn) as [Hje|(k & Hk & Hkj)]; [eapply Hno; eauto|].
    eapply (Hno k); eauto. eapply bts_trans; [| | |exact Hkj|exact Hji]; auto.
  - intros [Hin Hno]. destruct (Hc i Hin) as [H|(j & Hj & Hji)]; [assumption|].
    exfalso. apply Hno. exists j. apply Hbts. auto.
Qed.
End Loop.

(* --- the mask --- *)
Lemma set_true_length i m : length (set_true i m) = length m.
Proof. revert i; induction m; intros [|i]; simpl; auto. Qed.

Lemma set_true_nth i m k : nth_error (set_true i m) k =
  if Nat.eqb k i then (if Nat.ltb k (length m) then Some true else None) else nth_error m k.
Proof.
  revert i k; induction m as [|b m IH]; intros [|i] [|k]; simpl; auto.
  - destruct (Nat.eqb k i); reflexivity.
  - rewrite IH. reflexivity.
Qed.

Lemma mask_of_length eff m : length (fold_left (fun m i => set_true i m) eff m) = length m.
Proof. revert m; induction eff; intros m; simpl; auto. rewrite IHeff, set_true_length. reflexivity. Qed.

Lemma mask_of_nth eff m k : k < length m ->
  nth_error (fold_left (fun m i => set_true i m) eff m) k =
  if existsb (Nat.eqb k) eff then Some true else nth_error m k.
Proof.
  revert m; induction eff as [|i eff IH]; intros m Hk; simpl; auto.
  rewrite IH by (rewrite set_true_length; assumption). rewrite set_true_nth.
  destruct (Nat.eqb k i); simpl; [|reflexivity].
  apply Nat.ltb_lt in Hk. rewrite Hk. destruct (existsb (Nat.eqb k) eff); reflexivity.
Qed.

Lemma list_ext {A} (l1 l2 : list A) : length l1 = length l2 ->
  (forall k, k < length l1 -> nth_error l1 k = nth_error l2 k) -> l1 = l2.
Proof.
  revert l2; induction l1 as [|a l1 IH]; intros [|b l2] Hl H; try discriminate; auto.
  pose proof (H 0 ltac:(simpl; lia)) as H0. simpl in H0. injection H0 as ->. f_equal.
  apply IH; [simpl in Hl; lia|]. intros k Hk. apply (H (S k)). simpl; lia.
Qed.

Lemma mask_of_eq eff n :
  fold_left (fun m i => set_true i m) eff (repeat false n)
  = map (fun i => existsb (Nat.eqb i) eff) (seq 0 n).
Proof.
  apply list_ext.
  - rewrite mask_of_length, repeat_length, map_length, seq_length. reflexivity.
  - intros k Hk. rewrite mask_of_length, repeat_length in Hk.
    rewrite mask_of_nth by (rewrite repeat_length; assumption).
    rewrite nth_error_map.
    rewrite (nth_error_nth' _ 0) by (rewrite seq_length; assumption).
    rewrite seq_nth by assumption. simpl.
    destruct (existsb (Nat.eqb k) eff); [reflexivity|].
    apply nth_error_repeat; assumption.
Qed.

Lemma select_rows_gen {Row} (f : nat -> bool) (df pre : list Row) :
  map (nth_error (pre ++ df)) (filter f (seq (length pre) (length df)))
  = map Some (select (map f (seq (length pre) (length df))) df).
Proof.
  revert pre; induction df as [|r df IH]; intros pre; simpl; auto.
  specialize (IH (pre ++ [r])). rewrite app_length in IH. simpl in IH.
  rewrite <- app_assoc in IH. simpl in IH.
  replace (length pre + 1) with (S (length pre)) in IH by lia.
  destruct (f (length pre)); simpl; rewrite IH; [|reflexivity]. f_equal.
  rewrite nth_error_app2, Nat.sub_diag by lia. reflexivity.
Qed.

Lemma StronglySorted_nth l : StronglySorted lt l ->
  forall a b i j, a < b -> nth_error l a = Some i -> nth_error l b = Some j -> i < j.
Proof.
  induction 1 as [|x l Hs IH Hf]; intros a b i j Hab Ha Hb; [destruct a; discriminate|].
  destruct b; [lia|]. destruct a; simpl in *.
  - injection Ha as ->. rewrite Forall_forall in Hf. apply Hf. eapply nth_error_In; eauto.
  - eapply IH; [|eassumption|eassumption]. lia.
Qed.

Lemma select_rows {Row} (f : nat -> bool) (P : nat -> Prop) (df : list Row) :
  (forall i, i < length df -> f i = true <-> P i) ->
  rows_at P df (select (map f (seq 0 (length df))) df).
Proof.
  intros Hf. exists (filter f (seq 0 (length df))). split; [|split].
  - intros i. rewrite filter_In, in_seq. split.
    + intros [H1 H2]. split; [apply Hf; [lia|assumption]|lia].
    + intros [H1 H2]. split; [lia|apply Hf; assumption].
  - apply StronglySorted_nth, StronglySorted_filter, StronglySorted_seq.
  - apply (select_rows_gen f df []).
Qed.

Lemma existsb_eqb_iff i eff : existsb (Nat.eqb i) eff = true <-> In i eff.
Proof.
  rewrite existsb_exists. split.
  - intros (x & Hx & He). apply Nat.eqb_eq in He. subst. assumption.
  - intros H. exists i. split; [assumption | apply Nat.eqb_refl].
Qed.

Lemma is_pareto_efficient_spec costs :
  same_dim costs ->
  exists eff mask,
    is_pareto_efficient_indices costs = Ok eff
    /\ is_pareto_efficient_mask costs = Ok mask
    /\ NoDup eff
    /\ (forall i, In i eff <-> on_front le_all costs i)
    /\ length mask = length costs
    /\ (forall i, nth_error mask i = Some true <-> In i eff).
Proof.
  intros [d Hd]. destruct (indices_spec costs d Hd) as (eff & He & Hs & Hf).
  exists eff. eexists. unfold is_pareto_efficient_mask. rewrite He.
  split; [reflexivity|]. split; [reflexivity|]. split.
  { clear - Hs. induction Hs as [|x l H IH Hf]; constructor; auto.
    intros Hin. rewrite Forall_forall in Hf. apply Hf in Hin. lia. }
  split; [assumption|]. rewrite mask_of_eq. split; [rewrite map_length, seq_length; reflexivity|].
  intros i. rewrite nth_error_map. destruct (Nat.lt_ge_cases i (length costs)) as [Hi|Hi].
  - rewrite (nth_error_nth' _ 0) by (rewrite seq_length; assumption).
    rewrite seq_nth by assumption. simpl. rewrite <- existsb_eqb_iff.
    split; [intros E; injection E; auto | intros ->; reflexivity].
  - rewrite (proj2 (nth_error_None _ _)) by (rewrite seq_length; lia). simpl.
    split; [discriminate|]. intros Hin. apply Hf in Hin as [Hin _]. lia.
Qed.

Lemma front_of_mask {Row} (df : list Row) (pts : list point) :
  length pts = length df -> same_dim pts ->
  exists out, match is_pareto_efficient_mask pts with
              | Err e => Err e | Ok mask => Ok (select mask df) end = Ok out
    /\ rows_at (on_front le_all pts) df out.
Proof.
  intros Hl [d Hd]. destruct (indices_spec pts d Hd) as (eff & He & Hs & Hf).
  unfold is_pareto_efficient_mask. rewrite He. eexists. split; [reflexivity|].
  rewrite mask_of_eq, Hl. apply select_rows. intros i Hi.
  rewrite existsb_eqb_iff. apply Hf.
Qed.

Lemma le_all_negate_tail p q :
  le_all (negate_tail p) (negate_tail q) <-> first_le_rest_ge p q.
Proof.
  assert (H : forall p q, Forall2 Qle (map (fun x => x * (-1 # 1))%Q p) (map (fun x => x * (-1 # 1))%Q q)
              <-> ge_all p q).
  { unfold ge_all. clear. induction p as [|a p IH]; intros [|b q]; simpl; split; intros H; inversion H; subst; constructor;
      try (apply IH; assumption).
    - assert (E : (a * (-1 # 1) <= b * (-1 # 1))%Q) by assumption.
      clear - E. unfold Qle, Qmult in *. simpl in *. nia.
    - assert (E : (b <= a)%Q) by assumption. clear - E. unfold Qle, Qmult in *. simpl in *. nia. }
  unfold le_all, first_le_rest_ge. destruct p as [|a p], q as [|b q]; simpl.
  - split; auto.
  - split; [intros E; inversion E|tauto].
  - split; [intros E; inversion E|tauto].
  - rewrite <- H. split; [intros E; inversion E; auto|intros [E1 E2]; constructor; auto].
Qed.

Lemma on_front_map better better' f pts :
  (forall p q, better (f p) (f q) <-> better' p q) ->
  forall i, on_front better (map f pts) i <-> on_front better' pts i.
Proof.
  intros Hf i. unfold on_front, beats. rewrite map_length.
  assert (Hb : forall j i, (exists p q, nth_error (map f pts) j = Some p /\ nth_error (map f pts) i = Some q
      /\ better p q /\ (~ better q p \/ j < i)) <->
     (exists p q, nth_error pts j = Some p /\ nth_error pts i = Some q
      /\ better' p q /\ (~ better' q p \/ j < i))).
  { intros j i'. rewrite !nth_error_map. split.
    - intros (p & q & Hp & Hq & H1 & H2).
      destruct (nth_error pts j) as [p'|]; [|discriminate].
      destruct (nth_error pts i') as [q'|]; [|discriminate].
      simpl in *. injection Hp as <-. injection Hq as <-.
      exists p', q'. rewrite <- !Hf. auto.
    - intros (p & q & Hp & Hq & H1 & H2). exists (f p), (f q). rewrite Hp, Hq, !Hf. auto. }
  split; intros [H1 H2]; split; auto; intros (j & Hj); apply H2; exists j; apply Hb; assumption.
Qed.

Lemma rows_at_ext {Row} P Q' (df out : list Row) :
  (forall i, P i <-> Q' i) -> rows_at P df out -> rows_at Q' df out.
Proof.
  intros H (idxs & H1 & H2 & H3). exists idxs. split; [|auto].
  intros i. rewrite H1, H. reflexivity.
Qed.

Lemma negate_tail_length p : length (negate_tail p) = length p.
Proof. destruct p; simpl; [reflexivity|]. rewrite map_length. reflexivity. Qed.

Lemma get_pareto_front_min {Row} (get : Row -> list Q) df :
  same_dim (map get df) ->
  exists out, get_pareto_front get false df = Ok out
    /\ rows_at (on_front le_all (map get df)) df out.
Proof. intros H. apply front_of_mask; [apply map_length|assumption]. Qed.

Lemma get_pareto_front_max {Row} (get : Row -> list Q) df :
  same_dim (map get df) ->
  exists out, get_pareto_front get true df = Ok out
    /\ rows_at (on_front first_le_rest_ge (map get df)) df out.
Proof.
  intros [d Hd]. unfold get_pareto_front.
  destruct (front_of_mask df (map negate_tail (map get df))) as (out & Ho & Hr).
  - rewrite !map_length. reflexivity.
  - exists d. rewrite Forall_map, Forall_forall in *. intros p Hp. rewrite negate_tail_length. apply in_map_iff in Hp as (x & <- & Hx). auto.
  - exists out. split; [exact Ho|]. eapply rows_at_ext; [|exact Hr].
    intros i. apply on_front_map. apply le_all_negate_tail.
Qed.
