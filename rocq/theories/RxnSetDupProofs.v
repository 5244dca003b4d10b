(* filter_duplicates: groups, sizes and the whole set (C21, C23). *)
From Verif Require Import Prelude NumQ ListFacts ReactionBaseProofs RxnSetModel RxnSetSpec RxnSetBaseProofs RxnSetProofs
  RxnSetKeepProofs RxnSetRowProofs.
Open Scope nat_scope.

Lemma sort_pos_perm l : Permutation (sort_pos l) l.
Proof.
  assert (I : forall n m, Permutation (insert_pos n m) (n :: m)).
  { intros n m. induction m as [|q m IH]; simpl; [apply Permutation_refl|]. destruct (Nat.leb n q); [apply Permutation_refl|].
    eapply perm_trans; [apply perm_skip; exact IH|]. apply perm_swap. }
  unfold sort_pos. induction l as [|p l IH]; simpl; [constructor|]. eapply perm_trans; [apply I|]. apply perm_skip. exact IH.
Qed.

Lemma take_ok {A} (l : list A) d ks : (forall k, In k ks -> k < length l) -> take l ks = Ok (map (fun k => nth k l d) ks).
Proof. intros H. apply mapM_ok. intros k Hk. apply index_nth. apply H. exact Hk. Qed.

Lemma map_nth_seq {A} (l : list A) d : map (fun k => nth k l d) (seq 0 (length l)) = l.
Proof.
  induction l as [|x l IH]; [reflexivity|]. simpl. f_equal. rewrite <- seq_shift, map_map. simpl. exact IH.
Qed.

Section Dup.
Variable argsort : list Q -> list nat.
Variable shuffle : list nat -> list nat.
Hypothesis argsort_perm : forall l, Permutation (argsort l) (seq 0 (length l)).
Hypothesis shuffle_perm : forall l, Permutation (shuffle l) l.

(* --- one group --- *)
Section Group.
Variable coeffs : list (list Q).
Variable ens : list nat.
Variable g : list nat.
Hypothesis g_range : forall i, In i g -> i < length coeffs.
Hypothesis g_nodup : NoDup g.
Let R i j := is_multiple (nth i coeffs []) (nth j coeffs []).
Let rws := map (fun i => nth i coeffs []) g.
Let rel := flat_map (fun e => positions (Nat.eqb e) g 0) (filter (fun e => memb Nat.eqb e g) ens).
Let order := argsort (map abs_sum rws).

Lemma in_order p : In p order <-> p < length g.
Proof.
  unfold order. split.
  - intros H. apply (Permutation_in _ (argsort_perm _)) in H. apply in_seq in H. rewrite map_length in H. unfold rws in H. rewrite map_length in H. lia.
  - intros H. apply (Permutation_in _ (Permutation_sym (argsort_perm _))). apply in_seq. rewrite map_length. unfold rws. rewrite map_length. lia.
Qed.

Lemma order_nodup : NoDup order.
Proof. eapply Permutation_NoDup; [apply Permutation_sym, argsort_perm|apply seq_NoDup]. Qed.

Lemma nth_rws p : p < length g -> nth p rws [] = nth (nth p g 0) coeffs [].
Proof.
  intros H. unfold rws. rewrite (nth_indep _ [] (nth 0 coeffs [])) by (rewrite map_length; exact H).
  apply (map_nth (fun i => nth i coeffs [])).
Qed.

Lemma in_rel p : In p rel <-> p < length g /\ In (nth p g 0) ens.
Proof.
  unfold rel. rewrite in_flat_map. split.
  - intros (e & He & Hp). apply filter_In in He as [He _]. apply (in_positions _ _ _ _ 0) in Hp as [Hp E].
    rewrite Nat.sub_0_r in E. apply Nat.eqb_eq in E. subst e. split; [lia|exact He].
  - intros [Hp He]. exists (nth p g 0). split.
    + apply filter_In. split; [exact He|]. apply memb_nat, nth_In. exact Hp.
    + apply (in_positions _ _ _ _ 0). rewrite Nat.sub_0_r. split; [lia|apply Nat.eqb_refl].
Qed.

Lemma process_group_eq K : keep_loop rws order rel order [] [] = Ok K -> (forall p, In p K -> p < length g) ->
  process_group argsort coeffs ens g = Ok (map (fun p => nth p g 0) (sort_pos K)).
Proof.
  intros H HK. unfold process_group. rewrite (take_ok coeffs [] g g_range). cbn [bind]. fold rws rel.
  unfold get_idxs_to_keep. fold order. rewrite H. cbn [bind]. apply take_ok.
  intros k Hk. apply HK. apply (Permutation_in _ (sort_pos_perm K)). exact Hk.
Qed.

Lemma in_out K i : In i (map (fun p => nth p g 0) (sort_pos K)) <-> exists p, In p K /\ nth p g 0 = i.
Proof.
  rewrite in_map_iff. split; intros (p & H1 & H2); exists p.
  - split; [apply (Permutation_in _ (sort_pos_perm K)); exact H2|exact H1].
  - split; [exact H2|apply (Permutation_in _ (Permutation_sym (sort_pos_perm K))); exact H1].
Qed.

Lemma process_group_weak : (forall i, In i g -> R i i = true) ->
  exists out, process_group argsort coeffs ens g = Ok out /\ incl out g /\ (forall i, In i g -> In i ens -> In i out).
Proof.
  intros Hr.
  destruct (keep_loop_weak rws order rel order) with (K := @nil nat) (X := @nil nat) as (K & H1 & _ & H3 & H4).
  - intros x H. exact H.
  - intros p Hp. apply in_order in Hp. rewrite nth_rws by exact Hp. apply Hr. apply nth_In. exact Hp.
  - intros x [].
  - intros x [].
  - assert (HK : forall p, In p K -> p < length g) by (intros p Hp; apply in_order, H3; exact Hp).
    exists (map (fun p => nth p g 0) (sort_pos K)). split; [apply process_group_eq; assumption|]. split.
    + intros i Hi. apply in_out in Hi as (p & Hp & <-). apply nth_In, HK. exact Hp.
    + intros i Hi He. destruct (In_nth g i 0 Hi) as (p & Hp & Ep). apply in_out. exists p. split; [|exact Ep].
      apply H4; [apply in_order; exact Hp|apply in_rel; split; [exact Hp|rewrite Ep; exact He]].
Qed.

Lemma process_group_strong :
  (forall i, In i g -> R i i = true) ->
  (forall i j, In i g -> In j g -> R i j = true -> R j i = true) ->
  (forall i j k, In i g -> In j g -> In k g -> R i j = true -> R j k = true -> R i k = true) ->
  exists out, process_group argsort coeffs ens g = Ok out /\ NoDup out /\ incl out g
  /\ (forall i, In i g -> exists k, In k out /\ R i k = true)
  /\ (forall k k', In k out -> In k' out -> k <> k' -> R k k' = true -> In k ens /\ In k' ens)
  /\ (forall i, In i g -> In i ens -> In i out).
Proof.
  intros Hr Hs Ht.
  assert (T : forall p q, p < length g -> q < length g -> is_multiple (nth p rws []) (nth q rws []) = R (nth p g 0) (nth q g 0)).
  { intros p q Hp Hq. rewrite !nth_rws by assumption. reflexivity. }
  destruct (keep_loop_spec rws order rel) as (K & H1 & H2 & H3 & H4 & H5 & H6).
  - apply order_nodup.
  - intros p Hp. apply in_order in Hp. rewrite T by assumption. apply Hr, nth_In. exact Hp.
  - intros p q Hp Hq. apply in_order in Hp. apply in_order in Hq. rewrite !T by assumption. apply Hs; apply nth_In; assumption.
  - intros p q u Hp Hq Hu. apply in_order in Hp. apply in_order in Hq. apply in_order in Hu. rewrite !T by assumption.
    apply Ht; apply nth_In; assumption.
  - assert (HK : forall p, In p K -> p < length g) by (intros p Hp; apply in_order, H3; exact Hp).
    exists (map (fun p => nth p g 0) (sort_pos K)). split; [apply process_group_eq; assumption|].
    split; [|split; [|split; [|split]]].
    + apply NoDup_map_inj.
      * eapply Permutation_NoDup; [apply Permutation_sym, sort_pos_perm|exact H2].
      * intros p q Hp Hq E. apply (Permutation_in _ (sort_pos_perm K)) in Hp. apply (Permutation_in _ (sort_pos_perm K)) in Hq.
        apply (proj1 (NoDup_nth g 0) g_nodup); [apply HK; exact Hp|apply HK; exact Hq|exact E].
    + intros i Hi. apply in_out in Hi as (p & Hp & <-). apply nth_In, HK. exact Hp.
    + intros i Hi. destruct (In_nth g i 0 Hi) as (p & Hp & Ep).
      destruct (H4 p) as (q & Hq & HR); [apply in_order; exact Hp|]. exists (nth q g 0). split; [apply in_out; exists q; split; [exact Hq|reflexivity]|].
      rewrite <- Ep. rewrite <- T; [exact HR|exact Hp|apply HK; exact Hq].
    + intros k k' Hk Hk' Hne HR. apply in_out in Hk as (p & Hp & <-). apply in_out in Hk' as (q & Hq & <-).
      destruct (H5 p q Hp Hq) as [E1 E2]; [intros ->; contradiction|rewrite T by (apply HK; assumption); exact HR|].
      apply in_rel in E1. apply in_rel in E2. split; [apply E1|apply E2].
    + intros i Hi He. destruct (In_nth g i 0 Hi) as (p & Hp & Ep). apply in_out. exists p. split; [|exact Ep].
      apply H6; [apply in_order; exact Hp|apply in_rel; split; [exact Hp|rewrite Ep; exact He]].
Qed.
End Group.

(* --- the groups of one size --- *)
Lemma key_eqb_iff a b : key_eqb a b = true <-> a = b.
Proof. unfold key_eqb. destruct (list_eq_dec Nat.eq_dec a b); split; congruence. Qed.

Definition distinct (keys : list (list nat)) : list (list nat) := rev (nodup (list_eq_dec Nat.eq_dec) (rev keys)).
Definition grp (keys : list (list nat)) (k : list nat) : list nat := shuffle (positions (key_eqb k) keys 0).

Lemma distinct_nodup keys : NoDup (distinct keys).
Proof. apply NoDup_rev, NoDup_nodup. Qed.
Lemma in_distinct keys k : In k (distinct keys) <-> In k keys.
Proof. unfold distinct. rewrite <- in_rev, nodup_In, <- in_rev. reflexivity. Qed.

Lemma in_grp keys k i : In i (grp keys k) <-> i < length keys /\ nth i keys [] = k.
Proof.
  unfold grp. transitivity (In i (positions (key_eqb k) keys 0)).
  - split; apply Permutation_in; [apply shuffle_perm|apply Permutation_sym, shuffle_perm].
  - rewrite (in_positions _ _ _ _ []), Nat.sub_0_r, key_eqb_iff. intuition; lia.
Qed.

Lemma positions_nodup {A} (p : A -> bool) l k : NoDup (positions p l k).
Proof.
  revert k. induction l as [|x l IH]; intros k; simpl; [constructor|]. destruct (p x); [|apply IH]. constructor; [|apply IH].
  intros H. apply positions_ge in H. lia.
Qed.

Lemma grp_nodup keys k : NoDup (grp keys k).
Proof. eapply Permutation_NoDup; [apply Permutation_sym, shuffle_perm|apply positions_nodup]. Qed.

Definition chosen (pick : list nat -> list nat) (g : list nat) : list nat := if Nat.eqb (length g) 1 then g else pick g.

Lemma split_groups pick gs : Permutation (singles gs ++ concat (map pick (multis gs))) (flat_map (chosen pick) gs).
Proof.
  unfold singles, multis, chosen. induction gs as [|g gs IH]; simpl; [constructor|].
  destruct (Nat.eqb (length g) 1); simpl.
  - rewrite <- app_assoc. apply Permutation_app_head. exact IH.
  - eapply perm_trans; [apply Permutation_app_swap_app|]. apply Permutation_app_head. exact IH.
Qed.

Lemma process_duplicates_ok coeffs ens pick ms :
  (forall g, In g ms -> process_group argsort coeffs ens g = Ok (pick g)) ->
  process_duplicates argsort coeffs ens (map Some ms) = Ok (concat (map pick ms)).
Proof.
  intros H. unfold process_duplicates.
  rewrite (mapM_ok _ (fun o => match o with Some g => pick g | None => [] end)).
  - cbn [bind]. rewrite map_map. reflexivity.
  - intros o Ho. apply in_map_iff in Ho as (g & <- & Hg). apply H. exact Hg.
Qed.

Lemma filter_size_ok is cs ens pick :
  let rws := sorted_rows is cs in
  (forall k, In k (distinct (map (map fst) rws)) ->
     process_group argsort (map (map snd) rws) ens (grp (map (map fst) rws) k) = Ok (pick k)) ->
  exists K, filter_size argsort shuffle is cs ens = Ok K
  /\ Permutation K (flat_map (fun k => if Nat.eqb (length (grp (map (map fst) rws) k)) 1 then grp (map (map fst) rws) k else pick k)
                             (distinct (map (map fst) rws))).
Proof.
  intros rws H. set (keys := map (map fst) rws) in *.
  set (pf := fun g => match process_group argsort (map (map snd) rws) ens g with Ok o => o | Err _ => [] end).
  exists (singles (key_groups shuffle keys) ++ concat (map pf (multis (key_groups shuffle keys)))). split.
  - unfold filter_size. fold rws. fold keys. rewrite (process_duplicates_ok _ _ pf); [reflexivity|].
    intros g Hg. unfold multis in Hg. apply filter_In in Hg as [Hg _]. unfold key_groups in Hg. apply in_map_iff in Hg as (k & <- & Hk).
    fold (distinct keys) in Hk. specialize (H k Hk). unfold grp in H. unfold pf. rewrite H. reflexivity.
  - eapply perm_trans; [apply split_groups|]. unfold key_groups. fold (distinct keys).
    rewrite !flat_map_concat_map, map_map. apply Permutation_refl'. f_equal. apply map_ext_in. intros k Hk.
    unfold chosen. fold (grp keys k). unfold pf. rewrite (H k Hk). reflexivity.
Qed.

Lemma NoDup_flat_map_key {A B} (key : B -> A) (f : A -> list B) ks : NoDup ks -> (forall k, In k ks -> NoDup (f k)) ->
  (forall k x, In k ks -> In x (f k) -> key x = k) -> NoDup (flat_map f ks).
Proof.
  induction ks as [|k ks IH]; intros N H1 H2; [constructor|]. inversion N as [|? ? N1 N2]; subst. simpl.
  apply NoDup_app_disjoint.
  - apply H1. left. reflexivity.
  - apply IH; [assumption| |]; intros; [apply H1; right; assumption|apply H2; [right|]; assumption].
  - intros x Hx Hx'. apply in_flat_map in Hx' as (k' & Hk' & Hx'). apply N1.
    rewrite <- (H2 k x (or_introl eq_refl) Hx), (H2 k' x (or_intror Hk') Hx'). exact Hk'.
Qed.

(* One size: [eqv] says that the comparison is an equivalence on rows with equal keys. *)
Section Size.
Variable is : list (list nat).
Variable cs : list (list Q).
Variable ens : list nat.
Hypothesis lens : length cs = length is.
Let rws := sorted_rows is cs.
Let keys := map (map fst) rws.
Let N := length is.
Let C i := nth i (map (map snd) rws) [].
Let Key i := nth i keys [].
Let R i j := is_multiple (C i) (C j).

Lemma rws_length : length rws = N.
Proof. unfold rws, sorted_rows. rewrite map_length, combine_length. unfold N. lia. Qed.
Lemma keys_length : length keys = N.
Proof. unfold keys. rewrite map_length. apply rws_length. Qed.

Lemma filter_size_weak : (forall i, i < N -> R i i = true) ->
  exists K, filter_size argsort shuffle is cs ens = Ok K /\ (forall i, In i K -> i < N) /\ (forall i, i < N -> In i ens -> In i K).
Proof.
  intros Hr.
  set (pf := fun k => match process_group argsort (map (map snd) rws) ens (grp keys k) with Ok o => o | Err _ => [] end).
  assert (P : forall k, process_group argsort (map (map snd) rws) ens (grp keys k) = Ok (pf k) /\ incl (pf k) (grp keys k)
     /\ forall i, In i (grp keys k) -> In i ens -> In i (pf k)).
  { intros k. destruct (process_group_weak (map (map snd) rws) ens (grp keys k)) as (o & H1 & H2 & H3).
    - intros i Hi. apply in_grp in Hi as [Hi _]. rewrite map_length, rws_length, <- keys_length. exact Hi.
    - intros i Hi. apply in_grp in Hi as [Hi _]. apply Hr. rewrite <- keys_length. exact Hi.
    - unfold pf. rewrite H1. split; [reflexivity|]. split; assumption. }
  destruct (filter_size_ok is cs ens pf) as (K & HK & PK); [intros k _; apply P|]. fold rws keys in PK.
  exists K. split; [exact HK|]. split.
  - intros i Hi. apply (Permutation_in _ PK) in Hi. apply in_flat_map in Hi as (k & Hk & Hi).
    assert (G : In i (grp keys k)) by (destruct (Nat.eqb (length (grp keys k)) 1); [exact Hi|apply P; exact Hi]).
    apply in_grp in G as [G _]. rewrite <- keys_length. exact G.
  - intros i Hi He. apply (Permutation_in _ (Permutation_sym PK)). apply in_flat_map. exists (Key i). split.
    + apply in_distinct. apply nth_In. rewrite keys_length. exact Hi.
    + assert (G : In i (grp keys (Key i))) by (apply in_grp; rewrite keys_length; split; [exact Hi|reflexivity]).
      destruct (Nat.eqb (length (grp keys (Key i))) 1); [exact G|]. apply P; assumption.
Qed.

Lemma filter_size_strong : 
  (forall i, i < N -> R i i = true) ->
  (forall i j, i < N -> j < N -> Key i = Key j -> R i j = true -> R j i = true) ->
  (forall i j k, i < N -> j < N -> k < N -> Key i = Key j -> Key j = Key k -> R i j = true -> R j k = true -> R i k = true) ->
  exists K, filter_size argsort shuffle is cs ens = Ok K /\ NoDup K /\ (forall i, In i K -> i < N)
  /\ (forall i, i < N -> exists k, In k K /\ Key k = Key i /\ R i k = true)
  /\ (forall k k', In k K -> In k' K -> k <> k' -> Key k = Key k' -> R k k' = true -> In k ens /\ In k' ens)
  /\ (forall i, i < N -> In i ens -> In i K).
Proof.
  intros Hr Hs Ht.
  set (pf := fun k => match process_group argsort (map (map snd) rws) ens (grp keys k) with Ok o => o | Err _ => [] end).
  assert (P : forall k, process_group argsort (map (map snd) rws) ens (grp keys k) = Ok (pf k)
     /\ NoDup (pf k) /\ incl (pf k) (grp keys k)
     /\ (forall i, In i (grp keys k) -> exists j, In j (pf k) /\ R i j = true)
     /\ (forall i j, In i (pf k) -> In j (pf k) -> i <> j -> R i j = true -> In i ens /\ In j ens)
     /\ (forall i, In i (grp keys k) -> In i ens -> In i (pf k))).
  { intros k.
    assert (G : forall i, In i (grp keys k) -> i < N /\ Key i = k).
    { intros i Hi. apply in_grp in Hi as [Hi E]. split; [rewrite <- keys_length; exact Hi|exact E]. }
    destruct (process_group_strong (map (map snd) rws) ens (grp keys k)) as (o & H1 & H2).
    - intros i Hi. rewrite map_length, rws_length. apply G. exact Hi.
    - apply grp_nodup.
    - intros i Hi. apply Hr, G, Hi.
    - intros i j Hi Hj. apply G in Hi as [Hi E1]. apply G in Hj as [Hj E2]. apply Hs; try assumption. congruence.
    - intros i j m Hi Hj Hm. apply G in Hi as [Hi E1]. apply G in Hj as [Hj E2]. apply G in Hm as [Hm E3]. apply Ht; try assumption; congruence.
    - unfold pf. rewrite H1. split; [reflexivity|]. exact H2. }
  destruct (filter_size_ok is cs ens pf) as (K & HK & PK); [intros k _; apply P|]. fold rws keys in PK.
  set (f := fun k => if Nat.eqb (length (grp keys k)) 1 then grp keys k else pf k) in *.
  assert (F : forall k, NoDup (f k) /\ incl (f k) (grp keys k)
     /\ (forall i, In i (grp keys k) -> exists j, In j (f k) /\ R i j = true)
     /\ (forall i j, In i (f k) -> In j (f k) -> i <> j -> R i j = true -> In i ens /\ In j ens)
     /\ (forall i, In i (grp keys k) -> In i ens -> In i (f k))).
  { intros k. unfold f. destruct (Nat.eqb_spec (length (grp keys k)) 1) as [L|L]; [|apply P].
    split; [apply grp_nodup|]. split; [intros i Hi; exact Hi|]. split.
    - intros i Hi. exists i. split; [exact Hi|]. apply Hr. apply in_grp in Hi as [Hi _]. rewrite <- keys_length. exact Hi.
    - split; [|intros i Hi _; exact Hi]. intros i j Hi Hj Hne.
      destruct (grp keys k) as [|x [|y t]]; try discriminate. destruct Hi as [<-|[]]. destruct Hj as [<-|[]]. contradiction. }
  assert (KK : forall i, In i K <-> exists k, In k (distinct keys) /\ In i (f k)).
  { intros i. rewrite <- in_flat_map. split; apply Permutation_in; [exact PK|apply Permutation_sym; exact PK]. }
  assert (FK : forall k i, In i (f k) -> i < N /\ Key i = k).
  { intros k i Hi. apply (proj1 (proj2 (F k))) in Hi. apply in_grp in Hi as [Hi E]. split; [rewrite <- keys_length; exact Hi|exact E]. }
  exists K. split; [exact HK|]. split; [|split; [|split; [|split]]].
  - eapply Permutation_NoDup; [apply Permutation_sym; exact PK|]. apply (NoDup_flat_map_key Key).
    + apply distinct_nodup.
    + intros k _. apply F.
    + intros k x _ Hx. apply FK. exact Hx.
  - intros i Hi. apply KK in Hi as (k & _ & Hi). apply (FK k i Hi).
  - intros i Hi. assert (G : In i (grp keys (Key i))) by (apply in_grp; rewrite keys_length; split; [exact Hi|reflexivity]).
    destruct (F (Key i)) as (_ & _ & F3 & _). destruct (F3 i G) as (j & Hj & HR). exists j. split.
    + apply KK. exists (Key i). split; [|exact Hj]. apply in_distinct, nth_In. rewrite keys_length. exact Hi.
    + split; [apply (FK (Key i) j Hj)|exact HR].
  - intros k k' Hk Hk' Hne E HR. apply KK in Hk as (m & _ & Hk). apply KK in Hk' as (m' & _ & Hk').
    destruct (FK m k Hk) as [_ E1]. destruct (FK m' k' Hk') as [_ E2]. assert (m = m') by congruence. rewrite <- H in Hk'.
    destruct (F m) as (_ & _ & _ & F4 & _). apply F4; assumption.
  - intros i Hi He. apply KK. exists (Key i). split; [apply in_distinct, nth_In; rewrite keys_length; exact Hi|].
    apply F; [|exact He]. apply in_grp. rewrite keys_length. split; [exact Hi|reflexivity].
Qed.
End Size.

(* --- the whole set --- *)
Definition drow : row := ([], [], 0).
Definition row_ni (s : rset) (p : nat * nat) : row := nth (snd p) (size_rows s (fst p)) drow.
Definition count (s : rset) (n : nat) : nat := length (vals n (r_indices s)).
Definition all_ni (s : rset) (kf : nat -> list nat) : list (nat * nat) := flat_map (fun n => map (pair n) (kf n)) (sizes s).

Lemma size_rows_length s n : well_formed s -> In n (sizes s) -> length (size_rows s n) = count s n.
Proof.
  intros W Hn. destruct (wf_size s n W Hn) as (H1 & H2 & _). unfold size_rows, zip3, count. rewrite !combine_length. lia.
Qed.

Lemma nth_zip3 {A B D} (a : list A) (b : list B) (d : list D) i x y z : length b = length a -> length d = length a -> i < length a ->
  nth i (zip3 a b d) (x, y, z) = (nth i a x, nth i b y, nth i d z).
Proof.
  intros H1 H2 Hi. unfold zip3. rewrite combine_nth by (rewrite combine_length; lia). rewrite combine_nth by lia. reflexivity.
Qed.

Lemma row_ni_eq s n i : well_formed s -> In n (sizes s) -> i < count s n ->
  row_ni s (n, i) = (nth i (vals n (r_indices s)) [], nth i (vals n (r_coeffs s)) [], nth i (vals n (r_data s)) 0).
Proof.
  intros W Hn Hi. destruct (wf_size s n W Hn) as (H1 & H2 & _). unfold row_ni, size_rows. cbn [fst snd]. apply nth_zip3; assumption.
Qed.

Lemma rows_all s : well_formed s -> rows s = map (row_ni s) (all_ni s (fun n => seq 0 (count s n))).
Proof.
  intros W. unfold rows, all_ni. rewrite flat_map_map. apply flat_map_ext_in. intros n Hn. rewrite map_map.
  rewrite <- (size_rows_length s n W Hn). symmetry. exact (map_nth_seq (size_rows s n) drow).
Qed.

Lemma set_by_indices s kf : well_formed s -> (forall n k, In n (sizes s) -> In k (kf n) -> k < count s n) ->
  exists s', get_rxn_set_by_indices s (map (fun n => (n, kf n)) (sizes s)) = Ok s' /\ well_formed s'
  /\ mu_dict s' = mu_dict s /\ r_entries s' = r_entries s
  /\ get_rxns s' = Ok (map (fun p => rxn_at s (row_ni s p)) (all_ni s kf)).
Proof.
  intros W Hk. pose proof W as (Wn & Wc & Wd & _).
  assert (Sub : forall V (d : list (nat * list V)) (x : V), map fst d = sizes s ->
    (forall n, In n (sizes s) -> length (vals n d) = count s n) ->
    mapM (fun kv => bind (dict_item (fst kv) d) (fun l => bind (take l (snd kv)) (fun l' => Ok (fst kv, l')))) (map (fun n => (n, kf n)) (sizes s))
    = Ok (map (fun n => (n, map (fun k => nth k (vals n d) x) (kf n))) (sizes s))).
  { intros V d x Hd Hl. rewrite (mapM_ok _ (fun kv => (fst kv, map (fun k => nth k (vals (fst kv) d) x) (snd kv)))).
    - rewrite map_map. reflexivity.
    - intros kv Hkv. apply in_map_iff in Hkv as (n & <- & Hn). cbn [fst snd]. rewrite dict_item_vals by (rewrite Hd; exact Hn). cbn [bind].
      rewrite (take_ok _ x); [reflexivity|]. intros k Hin. rewrite Hl by exact Hn. apply Hk; assumption. }
  unfold get_rxn_set_by_indices.
  rewrite (Sub _ (r_indices s) []) by (first [reflexivity]). cbn [bind].
  rewrite (Sub _ (r_coeffs s) []); [|exact Wc|intros n Hn; apply (wf_size s n W Hn)]. cbn [bind].
  rewrite (Sub _ (r_data s) 0); [|exact Wd|intros n Hn; apply (wf_size s n W Hn)]. cbn [bind].
  eexists. split; [reflexivity|].
  match goal with |- well_formed ?t /\ _ => set (s' := t) end.
  assert (Ks : sizes s' = sizes s) by (unfold sizes at 1, s'; cbn [rset_init r_indices]; apply map_pair_keys).
  assert (Vi : forall n, In n (sizes s) -> vals n (r_indices s') = map (fun k => nth k (vals n (r_indices s)) []) (kf n))
    by (intros n Hn; apply (vals_map_pair (fun n => map (fun k => nth k (vals n (r_indices s)) []) (kf n))); [exact Wn|exact Hn]).
  assert (Vc : forall n, In n (sizes s) -> vals n (r_coeffs s') = map (fun k => nth k (vals n (r_coeffs s)) []) (kf n))
    by (intros n Hn; apply (vals_map_pair (fun n => map (fun k => nth k (vals n (r_coeffs s)) []) (kf n))); [exact Wn|exact Hn]).
  assert (Vd : forall n, In n (sizes s) -> vals n (r_data s') = map (fun k => nth k (vals n (r_data s)) 0) (kf n))
    by (intros n Hn; apply (vals_map_pair (fun n => map (fun k => nth k (vals n (r_data s)) 0) (kf n))); [exact Wn|exact Hn]).
  assert (W' : well_formed s').
  { unfold well_formed. change (map fst (r_indices s')) with (sizes s'). rewrite Ks. split; [exact Wn|].
    split; [unfold s'; cbn [rset_init r_coeffs]; apply map_pair_keys|].
    split; [unfold s'; cbn [rset_init r_data]; apply map_pair_keys|].
    intros n is cs ds H1 H2 H3.
    assert (Hn : In n (sizes s)) by (rewrite <- Ks; unfold sizes; apply in_map_iff; exists (n, is); split; [reflexivity|exact H1]).
    apply vals_in in H1; [|change (map fst (r_indices s')) with (sizes s'); rewrite Ks; exact Wn].
    apply vals_in in H2; [|unfold s'; cbn [rset_init r_coeffs]; rewrite map_pair_keys; exact Wn].
    apply vals_in in H3; [|unfold s'; cbn [rset_init r_data]; rewrite map_pair_keys; exact Wn].
    rewrite Vi in H1 by exact Hn. rewrite Vc in H2 by exact Hn. rewrite Vd in H3 by exact Hn. subst is cs ds. rewrite !map_length.
    split; [reflexivity|]. split; [reflexivity|]. change (r_entries s') with (r_entries s).
    destruct (wf_size s n W Hn) as (L1 & L2 & L3 & L4).
    split; intros x Hx; apply in_map_iff in Hx as (k & <- & Hx); pose proof (Hk n k Hn Hx) as Hlt; unfold count in Hlt.
    - apply L3. apply nth_In. exact Hlt.
    - apply L4. apply nth_In. rewrite L1. exact Hlt. }
  split; [exact W'|]. split; [reflexivity|]. split; [reflexivity|].
  rewrite get_rxns_rows by exact W'. f_equal.
  change (rxn_at s') with (rxn_at s). unfold rows. rewrite Ks. unfold all_ni. rewrite !flat_map_map. apply flat_map_ext_in.
  intros n Hn. unfold size_rows. rewrite Vi, Vc, Vd by exact Hn. rewrite zip3_map, !map_map. apply map_ext_in. intros k Hin.
  rewrite row_ni_eq; [reflexivity|exact W|exact Hn|apply Hk; assumption].
Qed.

Lemma in_all_ni s kf n i : In (n, i) (all_ni s kf) <-> In n (sizes s) /\ In i (kf n).
Proof.
  unfold all_ni. rewrite in_flat_map. split.
  - intros (m & Hm & H). apply in_map_iff in H as (j & E & Hj). injection E as -> ->. split; assumption.
  - intros [H1 H2]. exists n. split; [exact H1|]. apply in_map. exact H2.
Qed.

Lemma all_ni_nodup s kf : NoDup (sizes s) -> (forall n, In n (sizes s) -> NoDup (kf n)) -> NoDup (all_ni s kf).
Proof.
  intros H1 H2. unfold all_ni. apply (NoDup_flat_map_key fst); [exact H1| |].
  - intros n Hn. apply NoDup_map_inj; [apply H2; exact Hn|]. intros x y _ _ E. injection E as ->. reflexivity.
  - intros n x _ Hx. apply in_map_iff in Hx as (i & <- & _). reflexivity.
Qed.

Lemma Forall2_Qeq_forallb a b : length a = length b -> (forallb (fun ab => Qeq_bool (fst ab) (snd ab)) (combine a b) = true <-> Forall2 Qeq a b).
Proof.
  revert b. induction a as [|x a IH]; intros [|y b] L; try discriminate; simpl; [split; constructor|].
  rewrite andb_true_iff, IH by (simpl in L; lia). rewrite Qeq_bool_iff. split; [intros [H1 H2]; constructor; assumption|].
  intros H. inversion H; subst. split; assumption.
Qed.

Lemma same_row_iff idx co (r : row) : length (fst (fst r)) = length (snd (fst r)) ->
  same_row idx co (fst r) = true <-> fst (fst r) = idx /\ Forall2 Qeq (snd (fst r)) co.
Proof.
  intros L. unfold same_row. rewrite !andb_true_iff, key_eqb_iff, Nat.eqb_eq. split.
  - intros [[H1 H2] H3]. split; [exact H1|]. apply Forall2_Qeq_forallb; assumption.
  - intros [H1 H2]. pose proof (Forall2_length _ _ _ H2) as H3. split; [split; assumption|]. apply Forall2_Qeq_forallb; assumption.
Qed.

Lemma entry_index_ok s e : In e (r_entries s) -> entry_index (r_entries s) e = Ok (pos_of (r_entries s) e).
Proof.
  intros H. unfold entry_index, pos_of. destruct (positions_head (fun x => if sentry_eq_dec x e then true else false) (r_entries s) 0 dummy) as (i & rest & E & _).
  - exists e. split; [exact H|]. destruct (sentry_eq_dec e e); [reflexivity|contradiction].
  - rewrite E. reflexivity.
Qed.

Lemma row_entries_pos s r : NoDup (r_entries s) -> good_row s r ->
  map (pos_of (r_entries s)) (x_entries (rxn_at s r)) = fst (fst r).
Proof.
  intros Nd [G _]. unfold rxn_at. cbn [x_entries]. rewrite map_map. rewrite <- (map_id (fst (fst r))) at 2. apply map_ext_in.
  intros i Hi. destruct (pos_of_spec (r_entries s) (nth i (r_entries s) dummy)) as [H1 H2]; [apply nth_In, G; exact Hi|].
  apply (nth_inj s Nd); [exact H1|apply G; exact Hi|exact H2].
Qed.

Lemma find_ensured_ok s a n i : well_formed s -> NoDup (r_entries s) -> In n (sizes s) -> i < count s n -> x_entries a <> [] ->
  same_rxn (rxn_at s (row_ni s (n, i))) a ->
  exists j, find_ensured s a = Ok (n, j) /\ j < count s n /\ same_rxn (rxn_at s (row_ni s (n, j))) a.
Proof.
  intros W Nd Hn Hi Hne [S1 S2]. destruct (wf_size s n W Hn) as (L1 & L2 & L3 & L4).
  assert (Gr : forall j, j < count s n -> good_row s (row_ni s (n, j)) /\ length (fst (fst (row_ni s (n, j)))) = n).
  { intros j Hj. rewrite row_ni_eq by assumption. unfold good_row. cbn [fst snd].
    destruct (L3 (nth j (vals n (r_indices s)) [])) as [A B]; [apply nth_In; exact Hj|].
    assert (length (nth j (vals n (r_coeffs s)) []) = n) by (apply L4, nth_In; rewrite L1; exact Hj).
    split; [split; [exact B|congruence]|exact A]. }
  destruct (Gr i Hi) as [G1 G2].
  assert (Ein : forall e, In e (x_entries a) -> In e (r_entries s)).
  { intros e He. rewrite <- S1 in He. unfold rxn_at in He. cbn [x_entries] in He. apply in_map_iff in He as (p & <- & Hp).
    apply nth_In. apply G1. exact Hp. }
  assert (Eidx : map (pos_of (r_entries s)) (x_entries a) = fst (fst (row_ni s (n, i)))).
  { rewrite <- S1. apply row_entries_pos; assumption. }
  unfold find_ensured. rewrite (mapM_ok _ (pos_of (r_entries s))) by (intros e He; apply entry_index_ok, Ein; exact He).
  cbn [bind]. rewrite Eidx.
  assert (Hnz : fst (fst (row_ni s (n, i))) <> []).
  { intros H. apply Hne. rewrite H in Eidx. destruct (x_entries a); [reflexivity|discriminate]. }
  assert (M : forall (B : Type) (l : list nat) (x y : B), l <> [] -> match l with [] => x | _ :: _ => y end = y)
    by (intros B l x y Hl; destruct l; [contradiction|reflexivity]).
  rewrite M by exact Hnz. clear M. set (idx := fst (fst (row_ni s (n, i)))) in *. rewrite G2.
  pose proof W as (_ & Wc & _ & _).
  rewrite dict_item_vals by exact Hn. cbn [bind]. rewrite dict_item_vals by (rewrite Wc; exact Hn). cbn [bind].
  assert (Hrow : forall j, j < count s n -> nth j (combine (vals n (r_indices s)) (vals n (r_coeffs s))) ([], []) = fst (row_ni s (n, j))).
  { intros j Hj. rewrite row_ni_eq by assumption. cbn [fst]. rewrite combine_nth by (symmetry; exact L1). reflexivity. }
  assert (Lc : length (combine (vals n (r_indices s)) (vals n (r_coeffs s))) = count s n) by (rewrite combine_length; unfold count; lia).
  destruct (positions_head (same_row idx (x_coeffs a)) (combine (vals n (r_indices s)) (vals n (r_coeffs s))) 0 ([], [])) as (j & rest & E1 & E2 & E3).
  - exists (fst (row_ni s (n, i))). split.
    + rewrite <- Hrow by exact Hi. apply nth_In. rewrite Lc. exact Hi.
    + apply same_row_iff; [destruct G1 as [_ G1]; symmetry; exact G1|]. split; [reflexivity|]. exact S2.
  - rewrite E1. cbn [plus]. rewrite Lc in E2. exists j. split; [reflexivity|]. split; [exact E2|].
    rewrite Hrow in E3 by exact E2. destruct (Gr j E2) as [Gj Lj].
    apply same_row_iff in E3; [|destruct Gj as [_ Gj]; symmetry; exact Gj]. destruct E3 as [E3 E4]. split; [|exact E4].
    rewrite <- S1. unfold rxn_at. cbn [x_entries]. rewrite E3. reflexivity.
Qed.
End Dup.
