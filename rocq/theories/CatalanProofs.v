From Verif Require Import Prelude NumQ HullModel HullSpec UtilsProofs.

(* --- an explicit enumeration of trees --- *)
Fixpoint trees_f (fuel n : nat) : list tree :=
  match fuel with
  | 0 => []
  | S f =>
      match n with
      | 0 => [Leaf]
      | S m => flat_map (fun i => flat_map (fun l => map (Node l) (trees_f f (m - i))) (trees_f f i))
                 (seq 0 (S m))
      end
  end.

Lemma trees_f_S f m : trees_f (S f) (S m) =
  flat_map (fun i => flat_map (fun l => map (Node l) (trees_f f (m - i))) (trees_f f i)) (seq 0 (S m)).
Proof. reflexivity. Qed.

Lemma in_trees_f fuel n t : n < fuel -> In t (trees_f fuel n) <-> size t = n.
Proof.
  revert n t; induction fuel as [|f IH]; intros n t Hn; [lia|].
  destruct n as [|m].
  - simpl. split; [intros [<-|[]]; reflexivity | destruct t; simpl; [auto|discriminate]].
  - cbn [trees_f]. rewrite in_flat_map. remember (seq 0 (S m)) as sq eqn:Esq. split.
    + intros (i & Hi & Ht). rewrite Esq in Hi. apply in_seq in Hi. apply in_flat_map in Ht as (l & Hl & Ht).
      apply in_map_iff in Ht as (r & <- & Hr).
      apply IH in Hl; [|lia]. apply IH in Hr; [|lia]. simpl. lia.
    + destruct t as [|l r]; [discriminate|]. simpl. intros Hs.
      exists (size l). split; [rewrite Esq; apply in_seq; lia|].
      apply in_flat_map. exists l. split; [apply IH; lia|].
      apply in_map_iff. exists r. split; [reflexivity|]. apply IH; lia.
Qed.

Lemma NoDup_flat_map {A B} (f : A -> list B) l :
  NoDup l -> (forall a, In a l -> NoDup (f a)) ->
  (forall a a' b, In a l -> In a' l -> In b (f a) -> In b (f a') -> a = a') ->
  NoDup (flat_map f l).
Proof.
  induction 1 as [|a l Ha Hn IH]; simpl; intros Hf Hd; [constructor|].
  apply NoDup_app_intro; [auto | apply IH; intros; eauto |].
  intros b Hb Hb'. apply in_flat_map in Hb' as (a' & Ha' & Hb').
  assert (a = a') by (eapply Hd; eauto). subst. contradiction.
Qed.

Lemma NoDup_map_inj {A B} (f : A -> B) l : (forall x y, f x = f y -> x = y) -> NoDup l -> NoDup (map f l).
Proof.
  intros Hi; induction 1 as [|a l Ha Hn IH]; simpl; constructor; auto.
  rewrite in_map_iff. intros (x & Hx & Hin). apply Hi in Hx. subst. contradiction.
Qed.

Lemma trees_f_size f k t : In t (trees_f f k) -> size t = k.
Proof.
  revert k t; induction f as [|f IH]; [simpl; tauto|]. intros k t. destruct k as [|m].
  - simpl. intros [<-|[]]; reflexivity.
  - cbn [trees_f]. rewrite in_flat_map. intros (i & Hi & Ht). apply in_seq in Hi.
    apply in_flat_map in Ht as (l & Hl & Ht). apply in_map_iff in Ht as (r & <- & Hr).
    apply IH in Hl. apply IH in Hr. simpl. lia.
Qed.

Lemma NoDup_trees_f fuel n : NoDup (trees_f fuel n).
Proof.
  revert n; induction fuel as [|f IH]; intros n; [constructor|].
  destruct n as [|m]; [repeat constructor; simpl; tauto|]. cbn [trees_f].
  apply NoDup_flat_map.
  - apply seq_NoDup.
  - intros i _. apply NoDup_flat_map; [apply IH| |].
    + intros l _. apply NoDup_map_inj; [congruence | apply IH].
    + intros l l' t _ _ H1 H2. apply in_map_iff in H1 as (r & <- & _).
      apply in_map_iff in H2 as (r' & H2 & _). congruence.
  - intros i i' t _ _ H1 H2.
    apply in_flat_map in H1 as (l & Hl & H1). apply in_map_iff in H1 as (r & <- & _).
    apply in_flat_map in H2 as (l' & Hl' & H2). apply in_map_iff in H2 as (r' & H2 & _).
    injection H2 as <- _. apply trees_f_size in Hl. apply trees_f_size in Hl'. congruence.
Qed.

Definition trees (n : nat) : list tree := trees_f (S n) n.

Lemma trees_all n : all_trees n (trees n).
Proof. split; [apply NoDup_trees_f|]. intros t. apply in_trees_f. lia. Qed.

Lemma all_trees_perm n ts ts' : all_trees n ts -> all_trees n ts' -> Permutation ts ts'.
Proof.
  intros [H1 H2] [H3 H4]. apply NoDup_Permutation; auto. intros t. rewrite H2, H4. reflexivity.
Qed.

Lemma trees_f_perm fuel n : n < fuel -> Permutation (trees_f fuel n) (trees n).
Proof.
  intros H. apply (all_trees_perm n); [|apply trees_all].
  split; [apply NoDup_trees_f | intros; apply in_trees_f; assumption].
Qed.

Definition cat (n : nat) : Z := Z.of_nat (length (trees n)).

Definition sumZ {A} (f : A -> Z) (l : list A) : Z := fold_right (fun a s => (f a + s)%Z) 0%Z l.

Lemma sumZ_ext {A} (f g : A -> Z) l : (forall a, In a l -> f a = g a) -> sumZ f l = sumZ g l.
Proof.
  induction l as [|a l IH]; simpl; intros H; [reflexivity|].
  rewrite (H a) by auto. rewrite IH by auto. reflexivity.
Qed.

Lemma sumZ_app {A} (f : A -> Z) l1 l2 : sumZ f (l1 ++ l2) = (sumZ f l1 + sumZ f l2)%Z.
Proof.
  induction l1 as [|a l1 IH]; [reflexivity|].
  change (f a + sumZ f (l1 ++ l2) = f a + sumZ f l1 + sumZ f l2)%Z. lia.
Qed.

Lemma length_flat_map_Z {A B} (f : A -> list B) l :
  Z.of_nat (length (flat_map f l)) = sumZ (fun a => Z.of_nat (length (f a))) l.
Proof.
  induction l as [|a l IH]; [reflexivity|]. cbn [flat_map]. rewrite app_length.
  change (Z.of_nat (length (f a) + length (flat_map f l))
          = Z.of_nat (length (f a)) + sumZ (fun a => Z.of_nat (length (f a))) l)%Z. lia.
Qed.

Lemma sumZ_const {A} c (l : list A) : sumZ (fun _ => c) l = (Z.of_nat (length l) * c)%Z.
Proof.
  induction l as [|a l IH]; [reflexivity|]. cbn [length].
  change (c + sumZ (fun _ => c) l = Z.of_nat (S (length l)) * c)%Z. lia.
Qed.

Lemma cat_0 : cat 0 = 1%Z.
Proof. reflexivity. Qed.

Lemma cat_S m : cat (S m) = sumZ (fun i => (cat i * cat (m - i))%Z) (seq 0 (S m)).
Proof.
  unfold cat at 1, trees. rewrite trees_f_S. rewrite length_flat_map_Z. apply sumZ_ext. intros i Hi. apply in_seq in Hi.
  rewrite length_flat_map_Z.
  assert (Hr : length (trees_f (S m) (m - i)) = length (trees (m - i)))
    by (apply Permutation_length, trees_f_perm; lia).
  assert (Hl : length (trees_f (S m) i) = length (trees i))
    by (apply Permutation_length, trees_f_perm; lia).
  rewrite (sumZ_ext _ (fun _ => cat (m - i))).
  - rewrite sumZ_const, Hl. reflexivity.
  - intros l _. rewrite map_length, Hr. reflexivity.
Qed.

Global Opaque cat.

Lemma cat_1 : cat 1 = 1%Z.
Proof. rewrite cat_S. simpl. rewrite cat_0. reflexivity. Qed.

Lemma cat_pos n : (1 <= cat n)%Z.
Proof.
  induction n as [n IH] using lt_wf_ind. destruct n as [|m]; [rewrite cat_0; lia|].
  rewrite cat_S. cbn [seq sumZ fold_right].
  fold (sumZ (fun i => (cat i * cat (m - i))%Z) (seq 1 m)).
  assert (H0 : (1 <= cat 0 * cat (m - 0))%Z).
  { rewrite cat_0. specialize (IH (m - 0) ltac:(lia)). lia. }
  assert (Hs : (0 <= sumZ (fun i => (cat i * cat (m - i))%Z) (seq 1 m))%Z).
  { assert (G : forall l, (forall i, In i l -> i <= m) ->
        (0 <= sumZ (fun i => (cat i * cat (m - i))%Z) l)%Z).
    { induction l as [|i l IHl]; intros Hl; simpl; [lia|].
      assert (1 <= cat i)%Z by (apply IH; specialize (Hl i (or_introl eq_refl)); lia).
      assert (1 <= cat (m - i))%Z by (apply IH; lia).
      specialize (IHl (fun j Hj => Hl j (or_intror Hj))).
      assert (0 <= cat i * cat (m - i))%Z by (apply Z.mul_nonneg_nonneg; lia). lia. }
    apply G. intros i Hi. apply in_seq in Hi. lia. }
  lia.
Qed.

(* --- computing Catalan numbers as a list --- *)
Fixpoint dotZ (l1 l2 : list Z) : Z :=
  match l1, l2 with a :: l1', b :: l2' => (a * b + dotZ l1' l2')%Z | _, _ => 0%Z end.
Fixpoint cat_list (n : nat) : list Z :=
  match n with 0 => [1%Z] | S m => let l := cat_list m in l ++ [dotZ l (rev l)] end.

Lemma dotZ_map (f g : nat -> Z) l : dotZ (map f l) (map g l) = sumZ (fun i => (f i * g i)%Z) l.
Proof. induction l; simpl; congruence. Qed.

Lemma rev_seq_sub m : rev (seq 0 (S m)) = map (fun i => m - i) (seq 0 (S m)).
Proof.
  apply nth_ext with (d := 0) (d' := 0).
  - rewrite rev_length, map_length, seq_length. reflexivity.
  - intros k Hk. rewrite rev_length, seq_length in Hk.
    rewrite rev_nth by (rewrite seq_length; lia). rewrite seq_length, seq_nth by lia.
    rewrite nth_indep with (d' := (fun i => m - i) 0) by (rewrite map_length, seq_length; lia).
    rewrite map_nth, seq_nth by lia. lia.
Qed.

Lemma cat_list_spec n : cat_list n = map cat (seq 0 (S n)).
Proof.
  induction n as [|m IH]; [simpl; rewrite cat_0; reflexivity|].
  cbn [cat_list]. rewrite IH. rewrite (seq_S (S m)), map_app. cbn [map plus]. f_equal. f_equal.
  rewrite cat_S, <- map_rev, rev_seq_sub, map_map, dotZ_map. reflexivity.
Qed.

Lemma counts_table : map cat (seq 0 23) = counts.
Proof. rewrite <- (cat_list_spec 22). vm_compute. reflexivity. Qed.

Lemma nth_error_map_seq (f : nat -> Z) n k : k < n -> nth_error (map f (seq 0 n)) k = Some (f k).
Proof.
  intros H. rewrite nth_error_map, (nth_error_nth' _ 0) by (rewrite seq_length; assumption).
  rewrite seq_nth by assumption. reflexivity.
Qed.

(* --- the recursive count --- *)
Definition cache_after (n : nat) (cache : list Z) : list Z :=
  match n with
  | 0 => [1%Z]
  | 1 => [1%Z; 1%Z]
  | _ => if Nat.leb n (length cache) then cache else map cat (seq 0 (S n))
  end.

Definition ok_cache (n : nat) (cache : list Z) : Prop :=
  cache = [] \/ exists k, n < k /\ cache = map cat (seq 0 k).

Lemma count_recursive_spec fuel n cache :
  n < fuel -> ok_cache n cache ->
  count_recursive fuel n cache = Ok (cat n, cache_after n cache).
Proof.
  revert n cache; induction fuel as [|f IH]; intros n cache Hn Hc; [lia|].
  destruct n as [|[|m]]; [simpl; rewrite cat_0; reflexivity | simpl; rewrite cat_1; reflexivity |].
  set (n := S (S m)) in *.
  change (count_recursive (S f) n cache) with
    (if Nat.leb n (length cache) then
       match index cache n with Ok v => Ok (v, cache) | Err e => Err e end
     else
       (fix loop (todo : nat) (total : Z) (biggest : list Z) : result (Z * list Z) :=
          match todo with
          | 0 => Ok (total, biggest ++ [total])
          | S todo' =>
              let i := n - todo in
              match count_recursive f i biggest with
              | Err e => Err e
              | Ok (left_divs, c1) =>
                  match count_recursive f (n - i - 1) biggest with
                  | Err e => Err e
                  | Ok (right_divs, c2) =>
                      let biggest := if Nat.ltb (length biggest) (length c1) then c1 else biggest in
                      let biggest := if Nat.ltb (length biggest) (length c2) then c2 else biggest in
                      loop todo' (total + left_divs * right_divs)%Z biggest
                  end
              end
          end) n 0%Z []).
  destruct (Nat.leb_spec n (length cache)) as [Hle|Hgt].
  - destruct Hc as [->|(k & Hk & ->)]; [simpl in Hle; lia|].
    unfold index. rewrite nth_error_map_seq by assumption.
    unfold cache_after. fold n. rewrite map_length, seq_length.
    rewrite (proj2 (Nat.leb_le _ _)) by lia. reflexivity.
  - assert (Hca : cache_after n cache = map cat (seq 0 (S n))).
    { unfold cache_after, n. fold n. rewrite (proj2 (Nat.leb_gt _ _)) by lia. reflexivity. }
    rewrite Hca.
    set (loop := fix loop (todo : nat) (total : Z) (biggest : list Z) : result (Z * list Z) := _).
    assert (Hstep : forall todo total biggest, loop (S todo) total biggest =
      match count_recursive f (n - S todo) biggest with
      | Err e => Err e
      | Ok (left_divs, c1) =>
          match count_recursive f (n - (n - S todo) - 1) biggest with
          | Err e => Err e
          | Ok (right_divs, c2) =>
              let biggest := if Nat.ltb (length biggest) (length c1) then c1 else biggest in
              let biggest := if Nat.ltb (length biggest) (length c2) then c2 else biggest in
              loop todo (total + left_divs * right_divs)%Z biggest
          end
      end) by reflexivity.
    assert (Hloop : forall todo total, todo < n ->
      loop todo total (map cat (seq 0 n)) =
      let t := (total + sumZ (fun i => (cat i * cat (S m - i))%Z) (seq (n - todo) todo))%Z in
      Ok (t, map cat (seq 0 n) ++ [t])).
    { induction todo as [|todo IHt]; intros total Ht.
      - simpl. rewrite Z.add_0_r. reflexivity.
      - rewrite Hstep.
        set (i := n - S todo). assert (Hi : 1 <= i < n) by (unfold i; lia).
        rewrite (IH i) by first [lia | right; exists n; split; [lia|reflexivity]].
        rewrite (IH (n - i - 1)) by first [lia | right; exists n; split; [lia|reflexivity]].
        assert (Hlen : length (map cat (seq 0 n)) = n) by (rewrite map_length, seq_length; reflexivity).
        assert (Hb : forall j, j < n ->
          (if Nat.ltb (length (map cat (seq 0 n))) (length (cache_after j (map cat (seq 0 n))))
           then cache_after j (map cat (seq 0 n)) else map cat (seq 0 n)) = map cat (seq 0 n)).
        { intros j Hj. rewrite Hlen. destruct j as [|[|j]].
          - simpl. destruct (Nat.ltb_spec n 1); [lia|reflexivity].
          - simpl. destruct (Nat.ltb_spec n 2); [lia|reflexivity].
          - unfold cache_after. rewrite Hlen. rewrite (proj2 (Nat.leb_le _ _)) by lia.
            rewrite Hlen, Nat.ltb_irrefl. reflexivity. }
        cbv zeta. rewrite (Hb i) by lia. rewrite (Hb (n - i - 1)) by lia.
        rewrite IHt by lia. cbv zeta.
        replace (n - todo) with (S i) by (unfold i; lia).
        cbn [seq sumZ fold_right]. fold (sumZ (fun i => (cat i * cat (S m - i))%Z) (seq (S i) todo)).
        replace (n - i - 1) with (S m - i) by (unfold n; lia).
        rewrite Z.add_assoc. reflexivity. }
    (* first iteration *)
    change (loop n 0%Z []) with (loop (S (S m)) 0%Z []). rewrite Hstep. fold n. rewrite Nat.sub_diag.
    rewrite (IH 0) by first [lia | left; reflexivity].
    rewrite (IH (n - 0 - 1)) by first [lia | left; reflexivity].
    assert (Hbig : cache_after (n - 0 - 1) [] = map cat (seq 0 n)).
    { unfold n. replace (S (S m) - 0 - 1) with (S m) by lia. destruct m; simpl.
      - rewrite cat_0, cat_1. reflexivity.
      - reflexivity. }
    rewrite Hbig. cbv zeta. change (cache_after 0 []) with [1%Z].
    change (length [] <? length [1%Z]) with true. cbv iota. change (length [1%Z]) with 1.
    rewrite (proj2 (Nat.ltb_lt 1 (length (map cat (seq 0 n))))) by
      (rewrite map_length, seq_length; unfold n; lia).
    rewrite Hloop by (unfold n; lia). cbv zeta.
    assert (Ht : (0 + cat 0 * cat (n - 0 - 1) + sumZ (fun i => (cat i * cat (S m - i))%Z) (seq (n - S m) (S m)))%Z = cat n).
    { unfold n at 3. rewrite (cat_S (S m)). replace (n - S m) with 1 by (unfold n; lia).
      replace (n - 0 - 1) with (S m - 0) by (unfold n; lia). cbn [seq sumZ fold_right]. lia. }
    rewrite Ht. f_equal. f_equal. rewrite (seq_S n), map_app. reflexivity.
Qed.

Lemma count_cat n : count (Z.of_nat n) = Ok (cat n).
Proof.
  unfold count. destruct (Z.leb_spec (Z.of_nat n) 22) as [H|H].
  - unfold py_index. destruct (Z.ltb_spec (Z.of_nat n) 0); [lia|].
    rewrite (proj2 (Z.ltb_ge _ _)) by lia.
    rewrite <- counts_table, Nat2Z.id. unfold index. rewrite nth_error_map_seq by lia. reflexivity.
  - rewrite Nat2Z.id, count_recursive_spec; [reflexivity | lia | left; reflexivity].
Qed.

Lemma count_is_number_of_trees n ts :
  all_trees n ts -> count (Z.of_nat n) = Ok (Z.of_nat (length ts)).
Proof.
  intros H. rewrite count_cat. Transparent cat. unfold cat. f_equal. f_equal.
  apply Permutation_length. apply (all_trees_perm n); [apply trees_all|assumption].
Qed.
Opaque cat.

Lemma count_recurrence n :
  exists c : nat -> Z, (forall k, count (Z.of_nat k) = Ok (c k)) /\ c 0 = 1%Z
  /\ c (S n) = fold_right Z.add 0%Z (map (fun i => (c i * c (n - i)%nat)%Z) (seq 0 (S n))).
Proof.
  exists cat. split; [apply count_cat|]. split; [apply cat_0|].
  rewrite cat_S. generalize (seq 0 (S n)). induction l; simpl; congruence.
Qed.
