(* filter_duplicates on whole sets: C21, C22, C23. *)
From Verif Require Import Prelude NumQ ListFacts ReactionBaseProofs UtilsModel UtilsSpec UtilsProofs RxnSetModel RxnSetSpec RxnSetBaseProofs RxnSetProofs
  RxnSetKeepProofs RxnSetRowProofs RxnSetDupProofs.
Open Scope nat_scope.

Lemma NoDup_incl_rest {A} (l m : list A) : NoDup l -> NoDup m -> incl l m -> exists rest, Permutation m (l ++ rest).
Proof.
  revert m. induction l as [|x l IH]; intros m Hl Hm Hi; [exists m; apply Permutation_refl|].
  inversion Hl as [|? ? Hx Hl']; subst. assert (Hin : In x m) by (apply Hi; left; reflexivity).
  destruct (in_split x m Hin) as (m1 & m2 & ->). destruct (IH (m1 ++ m2)) as (rest & Hr).
  - exact Hl'.
  - apply NoDup_remove_1 in Hm. exact Hm.
  - intros y Hy. assert (In y (m1 ++ x :: m2)) as H by (apply Hi; right; exact Hy).
    apply in_app_iff in H as [H|[<-|H]]; [apply in_app_iff; left; exact H|contradiction|apply in_app_iff; right; exact H].
  - exists rest. simpl. apply Permutation_sym, Permutation_cons_app, Permutation_sym. exact Hr.
Qed.

Lemma ForallOrdPairs_map {A B} (P : B -> B -> Prop) (f : A -> B) l : NoDup l ->
  (forall x y, In x l -> In y l -> x <> y -> P (f x) (f y)) -> ForallOrdPairs P (map f l).
Proof.
  induction l as [|x l IH]; intros Hn H; simpl; [constructor|]. inversion Hn as [|? ? Hx Hn']; subst. constructor.
  - apply Forall_forall. intros b Hb. apply in_map_iff in Hb as (y & <- & Hy). apply H; [left; reflexivity|right; exact Hy|].
    intros ->. contradiction.
  - apply IH; [exact Hn'|]. intros y z Hy Hz. apply H; right; assumption.
Qed.

Section Filter.
Variable argsort : list Q -> list nat.
Variable shuffle : list nat -> list nat.
Hypothesis argsort_perm : forall l, Permutation (argsort l) (seq 0 (length l)).
Hypothesis shuffle_perm : forall l, Permutation (shuffle l) l.

Section OneSet.
Variable s : rset.
Hypothesis W : well_formed s.
Hypothesis Nd : NoDup (r_entries s).
Variable rs : list srxn.
Hypothesis Hrs : get_rxns s = Ok rs.
Hypothesis Hplain : forall r, In r rs -> plain r.
Let rx (p : nat * nat) : srxn := rxn_at s (row_ni s p).
Let rwn n := sorted_rows (vals n (r_indices s)) (vals n (r_coeffs s)).

Lemma rs_eq : rs = map rx (all_ni s (fun n => seq 0 (count s n))).
Proof. rewrite (in_map_rows s rs W Hrs), (rows_all s W), map_map. reflexivity. Qed.

Lemma in_rs n i : In n (sizes s) -> i < count s n -> In (rx (n, i)) rs.
Proof. intros Hn Hi. rewrite rs_eq. apply in_map. apply in_all_ni. split; [exact Hn|]. apply in_seq. lia. Qed.

Lemma row_good n i : In n (sizes s) -> i < count s n -> good_row s (row_ni s (n, i)).
Proof.
  intros Hn Hi. destruct (wf_size s n W Hn) as (L1 & _ & L3 & L4). rewrite row_ni_eq by assumption. unfold good_row. cbn [fst snd].
  destruct (L3 (nth i (vals n (r_indices s)) [])) as [A B]; [apply nth_In; exact Hi|].
  assert (length (nth i (vals n (r_coeffs s)) []) = n) by (apply L4, nth_In; rewrite L1; exact Hi).
  split; [exact B|congruence].
Qed.

Lemma nth_sorted n i : In n (sizes s) -> i < count s n -> nth i (rwn n) [] = srow (row_ni s (n, i)).
Proof.
  intros Hn Hi. destruct (wf_size s n W Hn) as (L1 & _). unfold rwn, sorted_rows.
  rewrite (nth_indep _ [] (sort_cols (fst (@nil nat, @nil Q)) (snd (@nil nat, @nil Q)))) by (rewrite map_length, combine_length; unfold count in Hi; lia).
  rewrite (map_nth (fun ic => sort_cols (fst ic) (snd ic))), combine_nth by (symmetry; exact L1).
  rewrite row_ni_eq by assumption. reflexivity.
Qed.

Lemma rwn_length n : In n (sizes s) -> length (rwn n) = count s n.
Proof. intros Hn. destruct (wf_size s n W Hn) as (L1 & _). unfold rwn, sorted_rows. rewrite map_length, combine_length. unfold count. lia. Qed.

Lemma nth_cof n i : In n (sizes s) -> i < count s n -> nth i (map (map snd) (rwn n)) [] = cof (row_ni s (n, i)).
Proof.
  intros Hn Hi. change (@nil Q) with (map snd (@nil (nat * Q))). rewrite map_nth, nth_sorted by assumption. reflexivity.
Qed.

Lemma nth_key n i : In n (sizes s) -> i < count s n -> nth i (map (map fst) (rwn n)) [] = key (row_ni s (n, i)).
Proof.
  intros Hn Hi. change (@nil nat) with (map fst (@nil (nat * Q))). rewrite map_nth, nth_sorted by assumption. reflexivity.
Qed.

Lemma idx_nodup n i : In n (sizes s) -> i < count s n -> NoDup (fst (fst (row_ni s (n, i)))).
Proof.
  intros Hn Hi. destruct (Hplain _ (in_rs n i Hn Hi)) as [P _]. unfold rx, rxn_at in P. cbn [x_entries] in P. apply NoDup_map_inv in P. exact P.
Qed.

Lemma cof_nonzero n i c : In n (sizes s) -> i < count s n -> In c (cof (row_ni s (n, i))) -> ~ (c == 0)%Q.
Proof.
  intros Hn Hi Hc. destruct (Hplain _ (in_rs n i Hn Hi)) as (_ & _ & P). apply P. unfold rx, rxn_at. cbn [x_coeffs].
  unfold cof in Hc. apply in_map_iff in Hc as ([j q] & <- & Hj). unfold srow in Hj.
  apply (Permutation_in _ (sort_cols_perm _ _)) in Hj. eapply in_combine_r. exact Hj.
Qed.

Lemma multiple_refl n i : In n (sizes s) -> i < count s n -> is_multiple (cof (row_ni s (n, i))) (cof (row_ni s (n, i))) = true.
Proof. intros Hn Hi. apply proportional_is_multiple; [apply proportional_refl|]. intros c. apply cof_nonzero; assumption. Qed.

Lemma multiple_iff n i j : sharp rs -> In n (sizes s) -> i < count s n -> j < count s n -> key (row_ni s (n, i)) = key (row_ni s (n, j)) ->
  (is_multiple (cof (row_ni s (n, i))) (cof (row_ni s (n, j))) = true <-> proportional (cof (row_ni s (n, i))) (cof (row_ni s (n, j)))).
Proof.
  intros Sh Hn Hi Hj E. split.
  - intros H. destruct (cof (row_ni s (n, j))) as [|c cs] eqn:Ec.
    + assert (L : length (cof (row_ni s (n, i))) = 0).
      { unfold cof. rewrite map_length. unfold key in E. rewrite <- (map_length fst), E, map_length, <- (map_length snd). fold (cof (row_ni s (n, j))).
        rewrite Ec. reflexivity. }
      destruct (cof (row_ni s (n, i))); [apply proportional_refl|discriminate].
    + rewrite <- Ec in *. assert (Nr : nearly_multiples (rx (n, i)) (rx (n, j))).
      { apply is_multiple_nearly; [exact E|rewrite Ec; discriminate|exact H]. }
      apply Sh in Nr; [|apply in_rs; assumption|apply in_rs; assumption].
      apply (multiples_key s Nd) in Nr; [apply Nr|apply row_good; assumption|apply row_good; assumption|apply idx_nodup; assumption|apply idx_nodup; assumption].
  - intros H. apply proportional_is_multiple; [exact H|]. intros c. apply cof_nonzero; assumption.
Qed.

Lemma multiples_same_size p q : In (fst p) (sizes s) -> snd p < count s (fst p) -> In (fst q) (sizes s) -> snd q < count s (fst q) ->
  multiples (rx p) (rx q) -> fst p = fst q.
Proof.
  destruct p as [n i], q as [m j]. cbn [fst snd]. intros Hn Hi Hm Hj (k & l & _ & [A1 A2] & _).
  apply Permutation_length in A1. apply Permutation_length in A2. rewrite map_length, combine_length in A1, A2.
  destruct (Hplain _ (in_rs n i Hn Hi)) as (_ & P1 & _). destruct (Hplain _ (in_rs m j Hm Hj)) as (_ & P2 & _).
  fold (rx (n, i)) in A1. rewrite P1 in A1. rewrite P2 in A2. rewrite Nat.min_id in A1, A2.
  assert (S1 : forall a b, In a (sizes s) -> b < count s a -> length (x_entries (rx (a, b))) = a).
  { intros a b Ha Hb. unfold rx, rxn_at. cbn [x_entries]. rewrite map_length, row_ni_eq by assumption. cbn [fst].
    destruct (wf_size s a W Ha) as (_ & _ & L3 & _). apply L3. apply nth_In. exact Hb. }
  rewrite S1 in A1, A2 by assumption. congruence.
Qed.

Variable ensure : list srxn.
Hypothesis Hens : forall a, In a ensure -> x_entries a <> [] /\ exists r, In r rs /\ same_rxn r a.

Lemma ensured_found : exists ens, mapM (find_ensured s) ensure = Ok ens
  /\ Forall2 (fun a p => In (fst p) (sizes s) /\ snd p < count s (fst p) /\ same_rxn (rx p) a) ensure ens.
Proof.
  assert (H : forall a, In a ensure -> exists p, find_ensured s a = Ok p /\ In (fst p) (sizes s) /\ snd p < count s (fst p) /\ same_rxn (rx p) a).
  { intros a Ha. destruct (Hens a Ha) as (Hne & r & Hr & Hsame). rewrite rs_eq in Hr. apply in_map_iff in Hr as ([n i] & <- & Hp).
    apply in_all_ni in Hp as [Hn Hi]. apply in_seq in Hi.
    destruct (find_ensured_ok s a n i W Nd Hn) as (j & E1 & E2 & E3); [lia|exact Hne|exact Hsame|].
    exists (n, j). split; [exact E1|]. cbn [fst snd]. split; [exact Hn|]. split; [exact E2|exact E3]. }
  clear Hens. induction ensure as [|a l IH]; [exists []; split; [reflexivity|constructor]|].
  destruct (H a (or_introl eq_refl)) as (p & Hp & Hp'). destruct IH as (ens & E1 & E2); [intros b Hb; apply H; right; exact Hb|].
  exists (p :: ens). cbn [mapM]. rewrite Hp, E1. split; [reflexivity|]. constructor; assumption.
Qed.

Lemma in_ensured_of n i ens : In i (ensured_of n ens) <-> In (n, i) ens.
Proof.
  unfold ensured_of. rewrite in_map_iff. split.
  - intros ([m j] & <- & H). apply filter_In in H as [H E]. cbn [fst] in E. apply Nat.eqb_eq in E. subst m. exact H.
  - intros H. exists (n, i). split; [reflexivity|]. apply filter_In. split; [exact H|apply Nat.eqb_refl].
Qed.

Lemma idxs_ok ens kf : mapM (find_ensured s) ensure = Ok ens ->
  (forall n, In n (sizes s) -> filter_size argsort shuffle (vals n (r_indices s)) (vals n (r_coeffs s)) (ensured_of n ens) = Ok (kf n)) ->
  filter_duplicates_idxs argsort shuffle s ensure = Ok (map (fun n => (n, kf n)) (sizes s)).
Proof.
  intros He Hk. unfold filter_duplicates_idxs. rewrite He. cbn [bind]. unfold sizes. rewrite map_map. apply mapM_ok.
  intros [n is] Hin. cbn [fst snd]. pose proof W as (Wn & Wc & _).
  assert (Hn : In n (sizes s)) by (apply in_map_iff; exists (n, is); split; [reflexivity|exact Hin]).
  rewrite dict_item_vals by (rewrite Wc; exact Hn). cbn [bind]. rewrite <- (vals_in n is _ Wn Hin), (Hk n Hn). reflexivity.
Qed.

(* C23: the ensured reactions stay. *)
Theorem filter_keeps : exists s' out, filter_duplicates argsort shuffle s ensure = Ok s' /\ well_formed s' /\ get_rxns s' = Ok out
  /\ (forall r, In r out -> In r rs)
  /\ (forall a, In a ensure -> exists r, In r out /\ same_rxn r a).
Proof.
  destruct ensured_found as (ens & He & Hf).
  set (kf := fun n => match filter_size argsort shuffle (vals n (r_indices s)) (vals n (r_coeffs s)) (ensured_of n ens) with Ok K => K | Err _ => [] end).
  assert (P : forall n, In n (sizes s) -> filter_size argsort shuffle (vals n (r_indices s)) (vals n (r_coeffs s)) (ensured_of n ens) = Ok (kf n)
     /\ (forall i, In i (kf n) -> i < count s n) /\ (forall i, i < count s n -> In i (ensured_of n ens) -> In i (kf n))).
  { intros n Hn. destruct (wf_size s n W Hn) as (L1 & _).
    destruct (filter_size_weak argsort shuffle argsort_perm shuffle_perm (vals n (r_indices s)) (vals n (r_coeffs s)) (ensured_of n ens) L1) as (K & HK & H).
    - intros i Hi. fold (rwn n). rewrite !nth_cof by assumption. apply multiple_refl; assumption.
    - unfold kf. rewrite HK. split; [reflexivity|exact H]. }
  destruct (set_by_indices s kf W) as (s' & E1 & E2 & _ & _ & E3); [intros n k Hn; apply (P n Hn)|].
  exists s', (map rx (all_ni s kf)). split; [|split; [exact E2|split; [exact E3|split]]].
  - unfold filter_duplicates. rewrite (idxs_ok ens kf He) by (intros n Hn; apply (P n Hn)). exact E1.
  - intros r Hr. apply in_map_iff in Hr as ([n i] & <- & Hp). apply in_all_ni in Hp as [Hn Hi]. apply in_rs; [exact Hn|]. apply (P n Hn). exact Hi.
  - intros a Ha. destruct (Forall2_In_l _ _ _ _ Hf Ha) as ([n i] & Hp & Hn & Hi & Hs). cbn [fst snd] in *.
    exists (rx (n, i)). split; [|exact Hs]. apply in_map. apply in_all_ni. split; [exact Hn|]. apply (P n Hn); [exact Hi|]. apply in_ensured_of. exact Hp.
Qed.

(* C21: one representative per family. *)
Theorem filter_families : sharp rs -> exists s' out, filter_duplicates argsort shuffle s ensure = Ok s' /\ well_formed s' /\ get_rxns s' = Ok out
  /\ (exists rest, Permutation rs (out ++ rest))
  /\ (forall r, In r rs -> exists r', In r' out /\ multiples r r')
  /\ ForallOrdPairs (fun r r' => multiples r r' -> (exists a, In a ensure /\ same_rxn r a) /\ (exists a, In a ensure /\ same_rxn r' a)) out
  /\ (forall a, In a ensure -> exists r, In r out /\ same_rxn r a).
Proof.
  intros Sh. destruct ensured_found as (ens & He & Hf).
  set (kf := fun n => match filter_size argsort shuffle (vals n (r_indices s)) (vals n (r_coeffs s)) (ensured_of n ens) with Ok K => K | Err _ => [] end).
  assert (P : forall n, In n (sizes s) -> filter_size argsort shuffle (vals n (r_indices s)) (vals n (r_coeffs s)) (ensured_of n ens) = Ok (kf n)
     /\ NoDup (kf n) /\ (forall i, In i (kf n) -> i < count s n)
     /\ (forall i, i < count s n -> exists k, In k (kf n) /\ k < count s n /\ multiples (rx (n, i)) (rx (n, k)))
     /\ (forall k k', In k (kf n) -> In k' (kf n) -> k <> k' -> multiples (rx (n, k)) (rx (n, k')) ->
           In k (ensured_of n ens) /\ In k' (ensured_of n ens))
     /\ (forall i, i < count s n -> In i (ensured_of n ens) -> In i (kf n))).
  { intros n Hn. destruct (wf_size s n W Hn) as (L1 & _).
    destruct (filter_size_strong argsort shuffle argsort_perm shuffle_perm (vals n (r_indices s)) (vals n (r_coeffs s)) (ensured_of n ens) L1)
      as (K & HK & H1 & H2 & H3 & H4 & H5).
    - intros i Hi. fold (rwn n). rewrite !nth_cof by assumption. apply multiple_refl; assumption.
    - intros i j Hi Hj. fold (rwn n). rewrite !nth_cof, !nth_key by assumption. intros E HR.
      apply (multiple_iff n i j Sh Hn Hi Hj E) in HR. apply (multiple_iff n j i Sh Hn Hj Hi (eq_sym E)). apply proportional_sym. exact HR.
    - intros i j k Hi Hj Hk. fold (rwn n). rewrite !nth_cof, !nth_key by assumption. intros E1 E2 HR1 HR2.
      apply (multiple_iff n i j Sh Hn Hi Hj E1) in HR1. apply (multiple_iff n j k Sh Hn Hj Hk E2) in HR2.
      apply (multiple_iff n i k Sh Hn Hi Hk (eq_trans E1 E2)). eapply proportional_trans; eassumption.
    - unfold kf. rewrite HK. fold (rwn n) in H3, H4. split; [reflexivity|]. split; [exact H1|]. split; [exact H2|]. split; [|split; [|exact H5]].
      + intros i Hi. destruct (H3 i Hi) as (k & Hk & E & HR). pose proof (H2 k Hk) as Hk'. exists k. split; [exact Hk|]. split; [exact Hk'|].
        rewrite !nth_key in E by assumption. rewrite !nth_cof in HR by assumption. symmetry in E.
        apply proportional_multiples; [exact E|]. apply (multiple_iff n i k Sh Hn Hi Hk' E). exact HR.
      + intros k k' Hk Hk' Hne Hm. pose proof (H2 k Hk) as Lk. pose proof (H2 k' Hk') as Lk'.
        apply (multiples_key s Nd) in Hm; [|apply row_good; assumption|apply row_good; assumption|apply idx_nodup; assumption|apply idx_nodup; assumption].
        destruct Hm as [E Hm]. apply H4; try assumption.
        * rewrite !nth_key by assumption. exact E.
        * rewrite !nth_cof by assumption. apply (multiple_iff n k k' Sh Hn Lk Lk' E). exact Hm. }
  destruct (set_by_indices s kf W) as (s' & E1 & E2 & _ & _ & E3); [intros n k Hn; apply (P n Hn)|].
  assert (Rg : forall p, In p (all_ni s kf) -> In (fst p) (sizes s) /\ snd p < count s (fst p) /\ In (snd p) (kf (fst p))).
  { intros [n i] Hp. apply in_all_ni in Hp as [Hn Hi]. cbn [fst snd]. split; [exact Hn|]. split; [apply (P n Hn); exact Hi|exact Hi]. }
  assert (Nk : NoDup (all_ni s kf)) by (apply all_ni_nodup; [apply W|intros n Hn; apply (P n Hn)]).
  exists s', (map rx (all_ni s kf)). split; [|split; [exact E2|split; [exact E3|split; [|split; [|split]]]]].
  - unfold filter_duplicates. rewrite (idxs_ok ens kf He) by (intros n Hn; apply (P n Hn)). exact E1.
  - assert (Na : NoDup (all_ni s (fun n => seq 0 (count s n)))) by (apply all_ni_nodup; [apply W|intros n _; apply seq_NoDup]).
    destruct (NoDup_incl_rest (all_ni s kf) (all_ni s (fun n => seq 0 (count s n)))) as (rest & Hrest); [exact Nk|exact Na| |].
    + intros [n i] Hp. apply in_all_ni in Hp as [Hn Hi]. apply in_all_ni. split; [exact Hn|]. apply in_seq.
      assert (i < count s n) by (apply (P n Hn); exact Hi). lia.
    + exists (map rx rest). rewrite rs_eq, <- map_app. apply Permutation_map. exact Hrest.
  - intros r Hr. rewrite rs_eq in Hr. apply in_map_iff in Hr as ([n i] & <- & Hp). apply in_all_ni in Hp as [Hn Hi]. apply in_seq in Hi.
    destruct (P n Hn) as (_ & _ & _ & P4 & _). destruct (P4 i) as (k & Hk & _ & Hm); [lia|].
    exists (rx (n, k)). split; [|exact Hm]. apply in_map. apply in_all_ni. split; assumption.
  - apply ForallOrdPairs_map; [exact Nk|]. intros p q Hp Hq Hne Hm.
    destruct (Rg p Hp) as (A1 & A2 & A3). destruct (Rg q Hq) as (B1 & B2 & B3).
    pose proof (multiples_same_size p q A1 A2 B1 B2 Hm) as Es. destruct p as [n i], q as [m j]. cbn [fst snd] in *. subst m.
    assert (Hij : i <> j) by (intros ->; apply Hne; reflexivity).
    destruct (P n A1) as (_ & _ & _ & _ & P5 & _). destruct (P5 i j A3 B3 Hij Hm) as [I1 I2].
    apply in_ensured_of in I1. apply in_ensured_of in I2.
    destruct (Forall2_In_r _ _ _ _ Hf I1) as (a & Ha & _ & _ & Sa). destruct (Forall2_In_r _ _ _ _ Hf I2) as (b & Hb & _ & _ & Sb).
    split; [exists a|exists b]; split; assumption.
  - intros a Ha. destruct (Forall2_In_l _ _ _ _ Hf Ha) as ([n i] & Hp & Hn & Hi & Hs). cbn [fst snd] in *.
    exists (rx (n, i)). split; [|exact Hs]. apply in_map. apply in_all_ni. split; [exact Hn|]. apply (P n Hn); [exact Hi|]. apply in_ensured_of. exact Hp.
Qed.
End OneSet.
End Filter.

Theorem no_ensured_families argsort shuffle :
  (forall l, Permutation (argsort l) (seq 0 (length l))) -> (forall l, Permutation (shuffle l) l) ->
  forall s, well_formed s -> NoDup (r_entries s) ->
  forall rs, get_rxns s = Ok rs -> (forall r, In r rs -> plain r) -> sharp rs ->
  exists s' out, filter_duplicates argsort shuffle s [] = Ok s' /\ well_formed s' /\ get_rxns s' = Ok out
  /\ (exists rest, Permutation rs (out ++ rest))
  /\ (forall r, In r rs -> exists r', In r' out /\ multiples r r')
  /\ ForallOrdPairs (fun r r' => ~ multiples r r') out.
Proof.
  intros Ha Hs s W Nd rs Hg Hp Sh.
  destruct (filter_families argsort shuffle Ha Hs s W Nd rs Hg Hp []) as (s' & out & E1 & E2 & E3 & E4 & E5 & E6 & _); [intros a []|exact Sh|].
  exists s', out. split; [exact E1|]. split; [exact E2|]. split; [exact E3|]. split; [exact E4|]. split; [exact E5|].
  clear -E6. induction E6 as [|x l H F IH]; constructor.
  - rewrite Forall_forall in *. intros y Hy Hm. destruct (H y Hy Hm) as ((a & [] & _) & _).
  - apply IH; auto.
Qed.
