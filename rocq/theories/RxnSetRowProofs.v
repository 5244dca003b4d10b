(* Rows with their columns sorted, and multiples of reactions. *)
From Coq Require Import Sorted Lqa.
From Verif Require Import Prelude NumQ ListFacts ReactionBaseProofs RxnSetModel RxnSetSpec RxnSetBaseProofs RxnSetProofs.
Open Scope nat_scope.

(* --- sorted columns --- *)
Definition col_le (a b : nat * Q) : Prop := fst a <= fst b.

Lemma insert_col_perm p l : Permutation (insert_col p l) (p :: l).
Proof.
  induction l as [|q l IH]; simpl; [apply Permutation_refl|]. destruct (Nat.leb (fst p) (fst q)); [apply Permutation_refl|].
  eapply perm_trans; [apply perm_skip; exact IH|]. apply perm_swap.
Qed.

Lemma sort_cols_perm idx co : Permutation (sort_cols idx co) (combine idx co).
Proof.
  unfold sort_cols. induction (combine idx co) as [|p l IH]; simpl; [constructor|].
  eapply perm_trans; [apply insert_col_perm|]. apply perm_skip. exact IH.
Qed.

Lemma insert_col_sorted p l : StronglySorted col_le l -> StronglySorted col_le (insert_col p l).
Proof.
  induction l as [|q l IH]; intros H; simpl; [constructor; constructor|].
  inversion H as [|? ? H1 H2]; subst. destruct (Nat.leb_spec (fst p) (fst q)) as [Hle|Hgt].
  - constructor; [exact H|]. constructor; [exact Hle|]. eapply Forall_impl; [|exact H2].
    intros x Hx. unfold col_le in *. lia.
  - constructor; [apply IH; exact H1|]. apply Forall_forall. intros x Hx.
    apply (Permutation_in _ (insert_col_perm p l)) in Hx as [<-|Hx]; [unfold col_le; lia|].
    rewrite Forall_forall in H2. apply H2. exact Hx.
Qed.

Lemma sort_cols_sorted idx co : StronglySorted col_le (sort_cols idx co).
Proof. unfold sort_cols. induction (combine idx co) as [|p l IH]; simpl; [constructor|]. apply insert_col_sorted. exact IH. Qed.

Lemma sorted_cols_eq l l' : StronglySorted col_le l -> StronglySorted col_le l' -> Permutation l l' -> NoDup (map fst l) -> l = l'.
Proof.
  revert l'. induction l as [|a l IH]; intros l' S S' P N.
  - apply Permutation_nil in P. symmetry. exact P.
  - destruct l' as [|b l']; [apply Permutation_sym, Permutation_nil in P; discriminate|].
    inversion S as [|? ? S1 S2]; subst. inversion S' as [|? ? S1' S2']; subst. simpl in N. inversion N as [|? ? N1 N2]; subst.
    assert (E : a = b).
    { assert (Ha : In a (b :: l')) by (apply (Permutation_in _ P); left; reflexivity).
      assert (Hb : In b (a :: l)) by (apply (Permutation_in _ (Permutation_sym P)); left; reflexivity).
      destruct Ha as [Ha|Ha]; [symmetry; exact Ha|]. destruct Hb as [Hb|Hb]; [exact Hb|].
      rewrite Forall_forall in S2, S2'. pose proof (S2 b Hb) as L1. pose proof (S2' a Ha) as L2. unfold col_le in *.
      exfalso. apply N1. apply in_map_iff. exists b. split; [lia|exact Hb]. }
    subst b. f_equal. apply IH; [assumption|assumption| |assumption]. eapply Permutation_cons_inv. exact P.
Qed.

Lemma sort_cols_length idx co : length co = length idx -> length (sort_cols idx co) = length idx.
Proof. intros H. rewrite (Permutation_length (sort_cols_perm idx co)), combine_length. lia. Qed.

(* --- proportional lists --- *)
Definition proportional (a b : list Q) : Prop := exists k, (0 < k)%Q /\ Forall2 (fun x y => (y == k * x)%Q) a b.

Lemma proportional_refl a : proportional a a.
Proof. exists 1%Q. split; [reflexivity|]. induction a; constructor; [ring|assumption]. Qed.

Lemma Forall2_flip {A B} (P : A -> B -> Prop) l1 l2 : Forall2 P l1 l2 -> Forall2 (fun x y => P y x) l2 l1.
Proof. induction 1; constructor; assumption. Qed.

Lemma proportional_sym a b : proportional a b -> proportional b a.
Proof.
  intros (k & Hk & H). exists (/ k)%Q. split; [apply Qinv_lt_0_compat; exact Hk|].
  apply Forall2_flip in H. eapply Forall2_impl; [|exact H]. intros x y E. cbv beta in E. rewrite E. field. intros Hz. rewrite Hz in Hk. discriminate.
Qed.

Lemma proportional_trans a b c : proportional a b -> proportional b c -> proportional a c.
Proof.
  intros (k & Hk & H) (m & Hm & H'). exists (m * k)%Q. split; [apply Qmult_lt_0_compat; assumption|].
  revert c H'. induction H as [|x y a b E H IH]; intros c H'; inversion H' as [|? z ? c' E' H2]; subst; constructor.
  - rewrite E', E. ring.
  - apply IH. exact H2.
Qed.

Lemma Forall2_combine {A B} (P : A -> B -> Prop) a b x y : Forall2 P a b -> In (x, y) (combine a b) -> P x y.
Proof. induction 1; simpl; [intros []|]. intros [E|E]; [injection E as <- <-; assumption|auto]. Qed.

Lemma isclose_eq x y : (x == y)%Q -> isclose x y = true.
Proof.
  intros H. unfold isclose. apply Qle_bool_iff. setoid_replace (x - y)%Q with 0%Q by (rewrite H; ring).
  change (Qabs 0) with 0%Q. pose proof (Qabs_nonneg y). set (t := Qabs y) in *. clearbody t. lra.
Qed.

Lemma proportional_is_multiple a b : proportional a b -> (forall c, In c b -> ~ (c == 0)%Q) -> is_multiple a b = true.
Proof.
  intros (k & Hk & H) Hnz. unfold is_multiple. destruct H as [|x y a b E H]; [reflexivity|].
  assert (Hk0 : ~ (k == 0)%Q) by (intros Hz; rewrite Hz in Hk; discriminate).
  apply andb_true_iff. split.
  - apply forallb_forall. intros q Hq. apply negb_true_iff, not_true_iff_false. intros Hz. apply Qeq_bool_iff in Hz.
    apply (Hnz q Hq Hz).
  - assert (Q1 : forall p q, In (p, q) (combine (x :: a) (y :: b)) -> (p / q == / k)%Q).
    { intros p q Hpq. assert (Epq : (q == k * p)%Q).
      { apply (Forall2_combine (fun x y => (y == k * x)%Q) (x :: a) (y :: b)); [constructor; assumption|exact Hpq]. }
      assert (Hq0 : ~ (q == 0)%Q) by (apply Hnz; eapply in_combine_r; exact Hpq).
      assert (Hp0 : ~ (p == 0)%Q) by (intros Hz; apply Hq0; rewrite Epq, Hz; ring).
      rewrite Epq. field. split; assumption. }
    apply forallb_forall. intros [p q] Hpq. cbn [fst snd]. apply isclose_eq.
    rewrite (Q1 p q Hpq), (Q1 x y) by (left; reflexivity). apply Qabs_pos. apply Qlt_le_weak, Qinv_lt_0_compat. exact Hk.
Qed.

(* --- reactions of rows --- *)
Definition srow (r : row) : list (nat * Q) := sort_cols (fst (fst r)) (snd (fst r)).
Definition key (r : row) : list nat := map fst (srow r).
Definition cof (r : row) : list Q := map snd (srow r).

Section Rows.
Variable s : rset.
Hypothesis entries_nodup : NoDup (r_entries s).
Definition good_row (r : row) : Prop :=
  (forall i, In i (fst (fst r)) -> i < length (r_entries s)) /\ length (snd (fst r)) = length (fst (fst r)).
Let ent (p : nat * Q) : sentry * Q := (nth (fst p) (r_entries s) dummy, snd p).

Lemma combine_map_fst {A B D} (f : A -> D) (a : list A) (b : list B) : combine (map f a) b = map (fun p => (f (fst p), snd p)) (combine a b).
Proof. revert b. induction a as [|x a IH]; intros [|y b]; simpl; [reflexivity|reflexivity|reflexivity|]. rewrite IH. reflexivity. Qed.

Lemma columns r : combine (x_entries (rxn_at s r)) (x_coeffs (rxn_at s r)) = map ent (combine (fst (fst r)) (snd (fst r))).
Proof. unfold rxn_at. cbn [x_entries x_coeffs]. rewrite combine_map_fst. reflexivity. Qed.

Lemma columns_sorted r : Permutation (map ent (srow r)) (combine (x_entries (rxn_at s r)) (x_coeffs (rxn_at s r))).
Proof. rewrite columns. apply Permutation_map, sort_cols_perm. Qed.

Lemma map_combine_l {A B D} (f : A -> D) (a : list A) (b : list B) : length a = length b -> map (fun p => f (fst p)) (combine a b) = map f a.
Proof.
  revert b. induction a as [|x a IH]; intros [|y b] H; try discriminate; [reflexivity|]. simpl. f_equal. apply IH. simpl in H. lia.
Qed.
Lemma map_combine_r {A B D} (f : B -> D) (a : list A) (b : list B) : length a = length b -> map (fun p => f (snd p)) (combine a b) = map f b.
Proof.
  revert b. induction a as [|x a IH]; intros [|y b] H; try discriminate; [reflexivity|]. simpl. f_equal. apply IH. simpl in H. lia.
Qed.

(* equal keys align two rows *)
Definition alignment (r r' : row) : list (sentry * Q * Q) :=
  map (fun p => (nth (fst (fst p)) (r_entries s) dummy, snd (fst p), snd (snd p))) (combine (srow r) (srow r')).

Lemma key_combine (a b : list (nat * Q)) x y : map fst a = map fst b -> In (x, y) (combine a b) -> fst x = fst y.
Proof.
  revert b. induction a as [|u a IH]; intros [|v b] E; intros H; simpl in *; try contradiction.
  injection E as E1 E2. destruct H as [H|H]; [injection H as <- <-; exact E1|apply (IH b); assumption].
Qed.

Lemma alignment_ok r r' : key r = key r' -> aligned (rxn_at s r) (rxn_at s r') (alignment r r').
Proof.
  intros E. assert (L : length (srow r) = length (srow r')).
  { unfold key in E. rewrite <- (map_length fst (srow r)), E, map_length. reflexivity. }
  unfold aligned, alignment. rewrite !map_map. cbn [fst snd]. split.
  - rewrite (map_ext _ (fun p => ent (fst p))) by (intros p; reflexivity). rewrite (map_combine_l ent (srow r) (srow r') L). apply columns_sorted.
  - rewrite (map_ext_in _ (fun p => ent (snd p))).
    + rewrite (map_combine_r ent (srow r) (srow r') L). apply columns_sorted.
    + intros [x y] H. cbn [fst snd]. unfold ent. rewrite (key_combine _ _ x y E H). reflexivity.
Qed.

Lemma in_alignment r r' e x y : In (e, x, y) (alignment r r') -> In (x, y) (combine (cof r) (cof r')).
Proof.
  unfold alignment, cof. generalize (srow r) (srow r'). intros a b. revert b.
  induction a as [|u a IH]; intros [|v b]; intros H; simpl in *; try contradiction.
  destruct H as [H|H]; [injection H as _ <- <-; left; reflexivity|right; apply IH; assumption].
Qed.

Lemma proportional_multiples r r' : key r = key r' -> proportional (cof r) (cof r') -> multiples (rxn_at s r) (rxn_at s r').
Proof.
  intros E (k & Hk & H). exists k, (alignment r r'). split; [exact Hk|]. split; [apply alignment_ok; exact E|].
  intros e x y Hin. apply in_alignment in Hin. apply (Forall2_combine _ _ _ _ _ H Hin).
Qed.

Lemma is_multiple_nearly r r' : key r = key r' -> cof r' <> [] -> is_multiple (cof r) (cof r') = true ->
  nearly_multiples (rxn_at s r) (rxn_at s r').
Proof.
  intros E Hne H.
  pose proof (alignment_ok r r' E) as A.
  assert (IA : forall e x y, In (e, x, y) (alignment r r') -> In (x, y) (combine (cof r) (cof r'))) by apply in_alignment.
  exists (alignment r r').
  assert (L : map fst (srow r) = map fst (srow r')) by exact E.
  unfold alignment in *. unfold cof in *.
  destruct (srow r') as [|v b]; [contradiction|]. destruct (srow r) as [|u a]; [discriminate|].
  exists (nth (fst u) (r_entries s) dummy), (snd u), (snd v). split; [exact A|]. split; [left; reflexivity|].
  intros e x y Hin. apply IA in Hin. unfold is_multiple in H. cbn [map] in H. apply andb_true_iff in H as [_ H].
  rewrite forallb_forall in H. specialize (H _ Hin). cbn [fst snd] in H. unfold isclose in H. apply Qle_bool_iff in H. exact H.
Qed.

Lemma nth_inj i j : i < length (r_entries s) -> j < length (r_entries s) ->
  nth i (r_entries s) dummy = nth j (r_entries s) dummy -> i = j.
Proof. intros Hi Hj H. apply (proj1 (NoDup_nth (r_entries s) dummy) entries_nodup i j Hi Hj H). Qed.

Lemma map_ent_split l (m : list (nat * Q)) : map ent m = l -> map fst l = map (fun i => nth i (r_entries s) dummy) (map fst m) /\ map snd l = map snd m.
Proof. intros <-. rewrite !map_map. split; reflexivity. Qed.

Lemma map_nth_inj (a b : list nat) : (forall i, In i a -> i < length (r_entries s)) -> (forall i, In i b -> i < length (r_entries s)) ->
  map (fun i => nth i (r_entries s) dummy) a = map (fun i => nth i (r_entries s) dummy) b -> a = b.
Proof.
  revert b. induction a as [|x a IH]; intros [|y b] Ha Hb E; try discriminate; [reflexivity|]. simpl in E. injection E as E1 E2.
  f_equal; [apply nth_inj; [apply Ha; left; reflexivity|apply Hb; left; reflexivity|exact E1]|].
  apply IH; [intros i Hi; apply Ha; right; exact Hi|intros i Hi; apply Hb; right; exact Hi|exact E2].
Qed.

Lemma combine_split_eq (m : list (nat * Q)) : combine (map fst m) (map snd m) = m.
Proof. induction m as [|[a b] m IH]; simpl; [reflexivity|]. rewrite IH. reflexivity. Qed.

Lemma combine_in_range r (m : list (nat * Q)) : good_row r -> Permutation (combine (fst (fst r)) (snd (fst r))) m -> forall i, In i (map fst m) -> i < length (r_entries s).
Proof.
  intros [G _] P i Hi. apply in_map_iff in Hi as ([j c] & <- & Hj). apply (Permutation_in _ (Permutation_sym P)) in Hj.
  apply G. eapply in_combine_l. exact Hj.
Qed.

(* sorting an aligned triple list sorts both rows *)
Fixpoint insert3 (p : nat * (Q * Q)) (l : list (nat * (Q * Q))) : list (nat * (Q * Q)) :=
  match l with [] => [p] | q :: l' => if Nat.leb (fst p) (fst q) then p :: l else q :: insert3 p l' end.
Definition sort3 (l : list (nat * (Q * Q))) := fold_right insert3 [] l.

Lemma sort3_perm l : Permutation (sort3 l) l.
Proof.
  assert (I : forall p m, Permutation (insert3 p m) (p :: m)).
  { intros p m. induction m as [|q m IH]; simpl; [apply Permutation_refl|]. destruct (Nat.leb (fst p) (fst q)); [apply Permutation_refl|].
    eapply perm_trans; [apply perm_skip; exact IH|]. apply perm_swap. }
  induction l as [|p l IH]; simpl; [constructor|]. eapply perm_trans; [apply I|]. apply perm_skip. exact IH.
Qed.

Lemma sort3_left (f : Q * Q -> Q) l : map (fun t => (fst t, f (snd t))) (sort3 l) = fold_right insert_col [] (map (fun t => (fst t, f (snd t))) l).
Proof.
  assert (I : forall p m, map (fun t => (fst t, f (snd t))) (insert3 p m) = insert_col (fst p, f (snd p)) (map (fun t => (fst t, f (snd t))) m)).
  { intros p m. induction m as [|q m IH]; simpl; [reflexivity|]. destruct (Nat.leb (fst p) (fst q)); simpl; [reflexivity|].
    rewrite IH. reflexivity. }
  induction l as [|p l IH]; simpl; [reflexivity|]. rewrite I, IH. reflexivity.
Qed.

Lemma fold_insert_sorted l : StronglySorted col_le (fold_right insert_col [] l).
Proof. induction l as [|p l IH]; simpl; [constructor|]. apply insert_col_sorted. exact IH. Qed.
Lemma fold_insert_perm l : Permutation (fold_right insert_col [] l) l.
Proof. induction l as [|p l IH]; simpl; [constructor|]. eapply perm_trans; [apply insert_col_perm|]. apply perm_skip. exact IH. Qed.

Lemma srow_of_perm r m : NoDup (fst (fst r)) -> length (snd (fst r)) = length (fst (fst r)) ->
  Permutation (combine (fst (fst r)) (snd (fst r))) m -> srow r = fold_right insert_col [] m.
Proof.
  intros N L P. apply sorted_cols_eq; [apply sort_cols_sorted|apply fold_insert_sorted| |].
  - eapply perm_trans; [apply sort_cols_perm|]. eapply perm_trans; [exact P|]. apply Permutation_sym, fold_insert_perm.
  - eapply Permutation_NoDup; [apply Permutation_sym, Permutation_map, sort_cols_perm|]. rewrite combine_fst_len by exact L. exact N.
Qed.

Lemma multiples_key r r' : good_row r -> good_row r' -> NoDup (fst (fst r)) -> NoDup (fst (fst r')) ->
  multiples (rxn_at s r) (rxn_at s r') -> key r = key r' /\ proportional (cof r) (cof r').
Proof.
  intros G G' N N' (k & l & Hk & [A1 A2] & Hl). rewrite columns in A1, A2.
  apply Permutation_sym in A1. apply Permutation_sym in A2.
  destruct (Permutation_map_inv _ _ (Permutation_sym A1)) as (m & Em & Pm).
  destruct (Permutation_map_inv _ _ (Permutation_sym A2)) as (m' & Em' & Pm').
  symmetry in Em, Em'. destruct (map_ent_split _ _ Em) as [F1 S1]. destruct (map_ent_split _ _ Em') as [F2 S2].
  rewrite map_map in F1, S1, F2, S2. cbn [fst snd] in *.
  assert (K : map fst m = map fst m').
  { apply map_nth_inj; [apply (combine_in_range r); assumption|apply (combine_in_range r'); assumption|].
    rewrite <- F1, <- F2. reflexivity. }
  set (t := combine (map fst m) (combine (map (fun t => snd (fst t)) l) (map snd l))).
  assert (Ll : length (map fst m) = length l) by (rewrite map_length, <- (map_length snd m), <- S1, map_length; reflexivity).
  assert (T1 : map (fun t => (fst t, fst (snd t))) t = m).
  { unfold t. transitivity (combine (map fst m) (map snd m)); [|apply combine_split_eq]. rewrite <- S1. revert Ll. generalize (map fst m). intros a. clear.
    revert a. induction l as [|x l IH]; intros [|y a] H; try discriminate; [reflexivity|]. simpl. f_equal. apply IH. simpl in H. lia. }
  assert (T2 : map (fun t => (fst t, snd (snd t))) t = m').
  { unfold t. transitivity (combine (map fst m') (map snd m')); [|apply combine_split_eq]. rewrite <- S2, <- K. revert Ll. generalize (map fst m). intros a. clear.
    revert a. induction l as [|x l IH]; intros [|y a] H; try discriminate; [reflexivity|]. simpl. f_equal. apply IH. simpl in H. lia. }
  assert (E1 : srow r = map (fun t => (fst t, fst (snd t))) (sort3 t)).
  { rewrite (sort3_left fst), T1. apply srow_of_perm; [exact N|apply G|exact Pm]. }
  assert (E2 : srow r' = map (fun t => (fst t, snd (snd t))) (sort3 t)).
  { rewrite (sort3_left snd), T2. apply srow_of_perm; [exact N'|apply G'|exact Pm']. }
  unfold key, cof. rewrite E1, E2, !map_map. cbn [fst snd]. split; [reflexivity|].
  exists k. split; [exact Hk|].
  assert (Ht : forall x, In x (sort3 t) -> (snd (snd x) == k * fst (snd x))%Q).
  { intros x Hx. apply (Permutation_in _ (sort3_perm t)) in Hx. destruct x as [i [x y]]. cbn [fst snd].
    unfold t in Hx. apply in_combine_r in Hx. 
    assert (exists e, In (e, x, y) l) as (e & He).
    { revert Hx. clear. induction l as [|[[e a] b] l IH]; simpl; [intros []|]. intros [E|E].
      - injection E as <- <-. exists e. left. reflexivity.
      - destruct (IH E) as (e' & He'). exists e'. right. exact He'. }
    apply (Hl e x y He). }
  clear -Ht. induction (sort3 t) as [|x u IH]; simpl; [constructor|]. constructor; [apply Ht; left; reflexivity|].
  apply IH. intros y Hy. apply Ht. right. exact Hy.
Qed.
End Rows.
