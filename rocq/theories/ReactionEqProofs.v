(* C13, C14, C64: equality, hashing, separability. *)
From Coq Require Import Setoid Lqa Sorted.
From Verif Require Import Prelude NumQ UtilsModel SumQ ListFacts ReactionModel ReactionSpec ReactionBaseProofs ReactionOpsProofs.
Open Scope nat_scope.

Lemma isclose_comp' a a' b b' : (a == a')%Q -> (b == b')%Q -> isclose a b = isclose a' b'.
Proof.
  intros Ha Hb. apply eq_true_iff_eq. unfold isclose. rewrite !Qle_bool_iff, Ha, Hb. reflexivity.
Qed.

(* --- sorting --- *)
Definition qle (a b : Q) : Prop := (a <= b)%Q.

Lemma insertQ_perm a l : Permutation (insertQ a l) (a :: l).
Proof.
  induction l as [|b l IH]; [reflexivity|]. simpl. destruct (Qle_bool a b); [reflexivity|].
  rewrite IH. apply perm_swap.
Qed.
Lemma sortQ_perm l : Permutation (sortQ l) l.
Proof. induction l as [|a l IH]; [reflexivity|]. simpl. rewrite insertQ_perm. constructor. assumption. Qed.
Lemma insertQ_sorted a l : StronglySorted qle l -> StronglySorted qle (insertQ a l).
Proof.
  induction l as [|b l IH]; intros H; simpl.
  - constructor; constructor.
  - apply StronglySorted_inv in H as [H1 H2]. destruct (Qle_bool a b) eqn:E.
    + apply Qle_bool_iff in E. constructor; [constructor; assumption|]. constructor; [exact E|].
      eapply Forall_impl; [|exact H2]. intros c Hc. unfold qle in *. lra.
    + constructor; [apply IH; assumption|].
      assert (Hba : (b <= a)%Q). { destruct (Qlt_le_dec a b) as [Hlt|Hle]; [|exact Hle]. exfalso.
        apply Qlt_le_weak, Qle_bool_iff in Hlt. congruence. }
      rewrite insertQ_perm. constructor; assumption.
Qed.
Lemma sortQ_sorted l : StronglySorted qle (sortQ l).
Proof. induction l as [|a l IH]; [constructor|]. simpl. apply insertQ_sorted. assumption. Qed.
Lemma sortQ_length l : length (sortQ l) = length l.
Proof. apply Permutation_length, sortQ_perm. Qed.
Lemma in_sortQ a l : In a (sortQ l) <-> In a l.
Proof. split; apply Permutation_in; [apply sortQ_perm|symmetry; apply sortQ_perm]. Qed.

Lemma sorted_perm_canon l1 : forall l2, (forall a, In a l1 -> Qred a = a) -> (forall a, In a l2 -> Qred a = a) ->
  StronglySorted qle l1 -> StronglySorted qle l2 -> Permutation l1 l2 -> l1 = l2.
Proof.
  induction l1 as [|a l1 IH]; intros l2 C1 C2 S1 S2 P.
  - apply Permutation_nil in P. congruence.
  - destruct l2 as [|b l2]; [symmetry in P; apply Permutation_nil in P; discriminate|].
    apply StronglySorted_inv in S1 as [S1 F1]. apply StronglySorted_inv in S2 as [S2 F2].
    rewrite Forall_forall in F1, F2.
    assert (Hab : (a <= b)%Q).
    { assert (In b (a :: l1)) as [->|H] by (eapply Permutation_in; [symmetry; exact P|left; reflexivity]); [lra|apply F1; assumption]. }
    assert (Hba : (b <= a)%Q).
    { assert (In a (b :: l2)) as [->|H] by (eapply Permutation_in; [exact P|left; reflexivity]); [lra|apply F2; assumption]. }
    assert (E : a = b).
    { rewrite <- (C1 a), <- (C2 b) by (left; reflexivity). apply Qred_complete. lra. }
    subst b. f_equal. apply IH; auto.
    + intros x Hx. apply C1. right. assumption.
    + intros x Hx. apply C2. right. assumption.
    + eapply Permutation_cons_inv. exact P.
Qed.
Lemma sorted_map_red l : StronglySorted qle l -> StronglySorted qle (map Qred l).
Proof.
  induction 1 as [|a l H IH F]; simpl; constructor; [assumption|]. rewrite Forall_forall in *. intros b Hb.
  apply in_map_iff in Hb as (c & <- & Hc). unfold qle in *. rewrite !Qred_correct. auto.
Qed.
Lemma Forall2_map_red l1 : forall l2, map Qred l1 = map Qred l2 -> Forall2 Qeq l1 l2.
Proof.
  induction l1 as [|a l1 IH]; intros [|b l2] H; try discriminate; constructor; simpl in H; injection H as H1 H2.
  - rewrite <- (Qred_correct a), <- (Qred_correct b), H1. reflexivity.
  - auto.
Qed.
Lemma sorted_perm_eq l1 l2 : StronglySorted qle l1 -> StronglySorted qle l2 -> Permutation l1 l2 -> Forall2 Qeq l1 l2.
Proof.
  intros S1 S2 P. apply Forall2_map_red, sorted_perm_canon.
  - intros a Ha. apply in_map_iff in Ha as (b & <- & _). apply Qred_complete, Qred_correct.
  - intros a Ha. apply in_map_iff in Ha as (b & <- & _). apply Qred_complete, Qred_correct.
  - apply sorted_map_red; assumption.
  - apply sorted_map_red; assumption.
  - apply Permutation_map; assumption.
Qed.

Lemma allclose_Forall2 l1 : forall l2, length l1 = length l2 ->
  allclose l1 l2 = true <-> Forall2 (fun a b => isclose a b = true) l1 l2.
Proof.
  induction l1 as [|a l1 IH]; intros [|b l2] H; simpl in H; try discriminate; simpl.
  - split; [constructor|reflexivity].
  - rewrite andb_true_iff, IH by lia. split.
    + intros [H1 H2]. constructor; assumption.
    + intros F. inversion F; subst. auto.
Qed.

(* --- sets --- *)
Lemma same_set_iff a b : same_set a b = true <-> forall x, In x a <-> In x b.
Proof.
  unfold same_set. rewrite andb_true_iff, !forallb_forall. split.
  - intros [H1 H2] x. split; intros H; apply memb_iff; auto.
  - intros H. split; intros x Hx; apply memb_iff, H, Hx.
Qed.
Lemma same_set_length (a b : list nat) : NoDup a -> NoDup b -> (forall x, In x a <-> In x b) -> length a = length b.
Proof. intros H1 H2 H. apply Permutation_length, NoDup_Permutation; assumption. Qed.

Section Eq.
Variable C : chem.

Lemma reactants_nodup cs ks fl n : NoDup (reactants (basic_init C cs ks fl n)).
Proof. apply (dict_of_keys (filter (fun kv => Qlt_bool (snd kv) 0) (combine cs ks))). Qed.
Lemma products_nodup cs ks fl n : NoDup (products (basic_init C cs ks fl n)).
Proof. apply (dict_of_keys (filter (fun kv => Qlt_bool 0 (snd kv)) (combine cs ks))). Qed.

Lemma clean_lengths r : clean C r -> length (coeffs r) = length (reactants r) + length (products r).
Proof.
  intros (cs & ks & fl & n & -> & Hn & Hl & Hz). unfold reactants, products.
  rewrite reactant_coeffs_nodup, product_coeffs_nodup by assumption. rewrite !map_length. cbn [coeffs basic_init].
  clear fl n Hn. revert ks Hl Hz. induction cs as [|c cs IH]; intros [|k ks] Hl Hz; simpl in Hl; try discriminate; [reflexivity|].
  specialize (IH ks ltac:(lia) ltac:(intros q Hq; apply Hz; right; assumption)).
  specialize (Hz k (or_introl eq_refl)). cbn [combine filter snd length].
  destruct (Qlt_bool k 0) eqn:E1, (Qlt_bool 0 k) eqn:E2; cbn [length].
  - apply Qlt_bool_iff' in E1, E2. lra.
  - rewrite IH. reflexivity.
  - rewrite IH. lia.
  - apply Qlt_bool_false in E1, E2. exfalso. apply Hz. lra.
Qed.
Lemma clean_nodup r : clean C r -> NoDup (reactants r) /\ NoDup (products r).
Proof. intros (cs & ks & fl & n & -> & _). split; [apply reactants_nodup|apply products_nodup]. Qed.

(* __eq__ of clean reactions *)
Lemma basic_eq_clean r1 r2 : clean C r1 -> clean C r2 ->
  exists b, basic_eq C r1 r2 = Ok b /\
  (b = true <-> (forall e, In e (elements C r1) <-> In e (elements C r2))
    /\ Forall2 (fun a b => isclose a b = true) (sortQ (coeffs r1)) (sortQ (coeffs r2))
    /\ (forall c, In c (reactants r1) <-> In c (reactants r2))
    /\ (forall c, In c (products r1) <-> In c (products r2))).
Proof.
  intros H1 H2. unfold basic_eq, basic_eq_on.
  destruct (clean_nodup r1 H1) as [N1 N1']. destruct (clean_nodup r2 H2) as [N2 N2'].
  pose proof (clean_lengths r1 H1) as L1. pose proof (clean_lengths r2 H2) as L2.
  destruct (same_set (elements C r1) (elements C r2)) eqn:E1; cbn [negb].
  2:{ exists false. split; [reflexivity|]. split; [discriminate|]. intros [H _]. apply same_set_iff in H. congruence. }
  rewrite same_set_iff in E1.
  destruct (Nat.eqb_spec (length (products r1)) (length (products r2))) as [Ep|Ep]; cbn [negb].
  2:{ exists false. split; [reflexivity|]. split; [discriminate|]. intros (_ & _ & _ & H).
      exfalso. apply Ep. apply same_set_length; assumption. }
  destruct (Nat.eqb_spec (length (reactants r1)) (length (reactants r2))) as [Er|Er]; cbn [negb].
  2:{ exists false. split; [reflexivity|]. split; [discriminate|]. intros (_ & _ & H & _).
      exfalso. apply Er. apply same_set_length; assumption. }
  assert (Lc : length (sortQ (coeffs r1)) = length (sortQ (coeffs r2))) by (rewrite !sortQ_length; lia).
  unfold np_allclose. rewrite Lc, Nat.eqb_refl. cbn [bind].
  destruct (allclose (sortQ (coeffs r1)) (sortQ (coeffs r2))) eqn:Ea; cbn [negb].
  2:{ exists false. split; [reflexivity|]. split; [discriminate|]. intros (_ & H & _).
      apply allclose_Forall2 in H; [congruence|assumption]. }
  apply (proj1 (allclose_Forall2 _ _ Lc)) in Ea.
  destruct (same_set (reactants r1) (reactants r2)) eqn:E2; cbn [negb].
  2:{ exists false. split; [reflexivity|]. split; [discriminate|]. intros (_ & _ & H & _). apply same_set_iff in H. congruence. }
  eexists. split; [reflexivity|]. rewrite same_set_iff. rewrite same_set_iff in E2. tauto.
Qed.

Definition really_same r1 r2 : Prop :=
  (forall e, In e (elements C r1) <-> In e (elements C r2))
    /\ Forall2 Qeq (sortQ (coeffs r1)) (sortQ (coeffs r2))
    /\ (forall c, In c (reactants r1) <-> In c (reactants r2))
    /\ (forall c, In c (products r1) <-> In c (products r2)).

Lemma isclose_eq a b : (a == b)%Q -> isclose a b = true.
Proof.
  intros E. unfold isclose. apply Qle_bool_iff. assert (E0 : (a - b == 0)%Q) by lra. rewrite E0.
  change (Qabs 0) with 0%Q. pose proof (Qabs_nonneg b). lra.
Qed.

Lemma Forall2_in {A B} (P Q : A -> B -> Prop) l1 l2 :
  (forall a b, In a l1 -> In b l2 -> P a b -> Q a b) -> Forall2 P l1 l2 -> Forall2 Q l1 l2.
Proof.
  intros H F. induction F as [|a b l1 l2 F1 F IH]; constructor.
  - apply H; [left; reflexivity|left; reflexivity|assumption].
  - apply IH. intros x y Hx Hy. apply H; right; assumption.
Qed.

Lemma eq_apart r1 r2 : clean C r1 -> clean C r2 -> apart r1 r2 ->
  exists b, basic_eq C r1 r2 = Ok b /\ (b = true <-> really_same r1 r2).
Proof.
  intros H1 H2 Ha. destruct (basic_eq_clean r1 r2 H1 H2) as (b & E & Hb). exists b. split; [assumption|].
  rewrite Hb. unfold really_same.
  assert (G : Forall2 (fun a b => isclose a b = true) (sortQ (coeffs r1)) (sortQ (coeffs r2))
     <-> Forall2 Qeq (sortQ (coeffs r1)) (sortQ (coeffs r2))).
  { split; apply Forall2_in; intros x y Hx Hy Hxy; [|apply isclose_eq; assumption].
    apply Ha; [apply in_sortQ; assumption|apply in_sortQ; assumption|assumption]. }
  tauto.
Qed.

Lemma Forall2_sym_Q l1 l2 : Forall2 Qeq l1 l2 -> Forall2 Qeq l2 l1.
Proof. induction 1; constructor; [symmetry; assumption|assumption]. Qed.
Lemma Forall2_trans_Q l1 l2 : Forall2 Qeq l1 l2 -> forall l3, Forall2 Qeq l2 l3 -> Forall2 Qeq l1 l3.
Proof.
  induction 1 as [|a b l1 l2 H F IH]; intros l3 F3; inversion F3; subst; constructor; [etransitivity; eassumption|auto].
Qed.
Lemma Forall2_refl_Q l : Forall2 Qeq l l.
Proof. induction l; constructor; [reflexivity|assumption]. Qed.

Theorem eq_equivalence (S : brxn -> Prop) :
  (forall r, S r -> clean C r) -> (forall r1 r2, S r1 -> S r2 -> apart r1 r2) ->
  (forall r1 r2, S r1 -> S r2 -> exists b, basic_eq C r1 r2 = Ok b)
  /\ (forall r, S r -> basic_eq C r r = Ok true)
  /\ (forall r1 r2, S r1 -> S r2 -> basic_eq C r1 r2 = Ok true -> basic_eq C r2 r1 = Ok true)
  /\ (forall r1 r2 r3, S r1 -> S r2 -> S r3 ->
        basic_eq C r1 r2 = Ok true -> basic_eq C r2 r3 = Ok true -> basic_eq C r1 r3 = Ok true)
  /\ (forall r1 r2, S r1 -> S r2 -> basic_eq C r1 r2 = Ok true -> same_hash_key C r1 r2 = true).
Proof.
  intros Hc Ha.
  assert (K : forall r1 r2, S r1 -> S r2 -> (exists b, basic_eq C r1 r2 = Ok b) /\ (basic_eq C r1 r2 = Ok true <-> really_same r1 r2)).
  { intros r1 r2 H1 H2. destruct (eq_apart r1 r2 (Hc r1 H1) (Hc r2 H2) (Ha r1 r2 H1 H2)) as (b & -> & Hb).
    split; [exists b; reflexivity|]. rewrite <- Hb. split; congruence. }
  split; [intros r1 r2 H1 H2; apply K; assumption|].
  split.
  { intros r H. apply K; [assumption|assumption|]. repeat split; try tauto. apply Forall2_refl_Q. }
  split.
  { intros r1 r2 H1 H2 H. apply K; [assumption|assumption|]. apply K in H; [|assumption|assumption].
    destruct H as (A1 & A2 & A3 & A4). split; [intros e; symmetry; apply A1|]. split; [apply Forall2_sym_Q; assumption|]. split; intros c; symmetry; [apply A3|apply A4]. }
  split.
  { intros r1 r2 r3 H1 H2 H3 H H'. apply K; [assumption|assumption|]. apply K in H; [|assumption|assumption].
    apply K in H'; [|assumption|assumption].
    destruct H as (A1 & A2 & A3 & A4). destruct H' as (B1 & B2 & B3 & B4).
    split; [intros e; rewrite A1; apply B1|]. split; [eapply Forall2_trans_Q; eassumption|].
    split; [intros c; rewrite A3; apply B3|intros c; rewrite A4; apply B4]. }
  intros r1 r2 H1 H2 H. apply K in H; [|assumption|assumption]. destruct H as (A1 & A2 & _).
  unfold same_hash_key. rewrite !andb_true_iff. split; [split|].
  - apply same_set_iff. assumption.
  - apply Nat.eqb_eq. apply Forall2_length in A2. rewrite !sortQ_length in A2. assumption.
  - clear -A2. induction A2 as [|a b l1 l2 H F IH]; [reflexivity|]. simpl. rewrite IH, andb_true_r. apply Qeq_bool_iff. assumption.
Qed.

(* C13 *)
Lemma sorted_scale s l : (0 < s)%Q -> StronglySorted qle l -> StronglySorted qle (map (fun q => q * s)%Q l).
Proof.
  intros Hs. induction 1 as [|a l H IH F]; simpl; constructor; [assumption|]. rewrite Forall_forall in *. intros b Hb.
  apply in_map_iff in Hb as (c & <- & Hc). unfold qle in *. apply Qmult_le_compat_r; [apply F; assumption|lra].
Qed.

Theorem eq_proportional r1 r2 s : clean C r1 -> clean C r2 -> (0 < s)%Q -> proportional s r1 r2 ->
  basic_eq C r1 r2 = Ok true ->
  forall c k, In (c, k) (species r1) -> In (c, k * s)%Q (species r2) /\ isclose k (k * s) = true.
Proof.
  intros H1 H2 Hs Hp He c k Hin. split.
  - eapply Permutation_in; [symmetry; exact Hp|]. apply in_map_iff. exists (c, k). split; [reflexivity|assumption].
  - destruct (basic_eq_clean r1 r2 H1 H2) as (b & E & Hb). rewrite E in He. injection He as ->.
    destruct (proj1 Hb eq_refl) as (_ & F & _).
    assert (Ec : forall r, clean C r -> map snd (species r) = coeffs r).
    { intros r (cs & ks & fl & n & -> & _ & Hl & _). apply combine_snd. exact Hl. }
    assert (P : Permutation (coeffs r2) (map (fun q => q * s)%Q (coeffs r1))).
    { rewrite <- (Ec r1 H1), <- (Ec r2 H2). unfold proportional in Hp. rewrite (Permutation_map snd Hp), !map_map. reflexivity. }
    assert (F2 : Forall2 Qeq (map (fun q => q * s)%Q (sortQ (coeffs r1))) (sortQ (coeffs r2))).
    { apply sorted_perm_eq.
      - apply sorted_scale; [assumption|apply sortQ_sorted].
      - apply sortQ_sorted.
      - eapply perm_trans; [apply Permutation_map, sortQ_perm|]. eapply perm_trans; [symmetry; exact P|]. symmetry. apply sortQ_perm. }
    assert (Hk : In k (sortQ (coeffs r1))).
    { apply in_sortQ. rewrite <- (Ec r1 H1). apply (in_map snd _ (c, k)). assumption. }
    clear -F F2 Hk. revert F2. generalize (sortQ (coeffs r2)) (sortQ (coeffs r1)) F Hk. clear.
    intros l2 l1 F. induction F as [|a b l1 l2 H F IH]; intros Hk F2; [destruct Hk|].
    simpl in F2. inversion F2; subst. destruct Hk as [<-|Hk]; [|auto].
    rewrite <- H. apply isclose_comp'; [reflexivity|assumption].
Qed.

(* what equality does guarantee *)
Theorem eq_same_sides r1 r2 : clean C r1 -> clean C r2 -> basic_eq C r1 r2 = Ok true ->
  (forall c, In c (reactants r1) <-> In c (reactants r2)) /\ (forall c, In c (products r1) <-> In c (products r2)).
Proof.
  intros H1 H2 He. destruct (basic_eq_clean r1 r2 H1 H2) as (b & E & Hb). rewrite E in He. injection He as ->.
  destruct (proj1 Hb eq_refl) as (_ & _ & H3 & H4). auto.
Qed.

(* --- C64 --- *)
Lemma set_remove_all_ok ts : forall s, NoDup ts -> (forall t, In t ts -> In t s) ->
  set_remove_all ts s = Ok (filter (fun x => negb (memb Nat.eqb x ts)) s).
Proof.
  induction ts as [|t ts IH]; intros s Hn Hs; simpl.
  - f_equal. induction s as [|x s IHs]; [reflexivity|]. simpl. f_equal. apply IHs. intros t [].
  - apply NoDup_cons_iff in Hn as [Hn1 Hn2]. rewrite (proj2 (memb_iff t s)) by (apply Hs; left; reflexivity).
    rewrite IH; [|assumption|].
    + f_equal. clear. induction s as [|x s IH]; [reflexivity|]. cbn [filter].
      change (memb Nat.eqb x (t :: ts)) with (Nat.eqb x t || memb Nat.eqb x ts)%bool.
      destruct (Nat.eqb x t); cbn [orb negb filter]; [apply IH|]. rewrite IH. reflexivity.
    + intros t' Ht'. apply filter_In. split; [apply Hs; right; assumption|].
      apply negb_true_iff, Nat.eqb_neq. intros ->. contradiction.
Qed.

Theorem is_separable_spec cs ks fl n target :
  let r := basic_init C cs ks fl n in
  NoDup cs -> length cs = length ks ->
  (exists c, In c cs /\ red C c = red C target) ->
  (forall c k, In (c, k) (species r) -> red C c = red C target -> (0 < k)%Q) ->
  exists b, is_separable C (elements C r) r target = Ok b
  /\ (b = true <-> forall c, In c (products r) -> red C c <> red C target ->
        forall e, In e (elems C c) -> ~ In e (elems C target)).
Proof.
  intros r Hn Hl (c0 & Hc0 & Hr0) Hpos. unfold is_separable.
  change (comps r) with cs.
  set (ts := filter (fun c => Nat.eqb (red C c) (red C target)) cs).
  assert (Hts : forall c, In c ts <-> In c cs /\ red C c = red C target).
  { intros c. unfold ts. rewrite filter_In, Nat.eqb_eq. tauto. }
  assert (Hprod : forall c, In c (products r) <-> exists k, In (c, k) (combine cs ks) /\ (0 < k)%Q).
  { intros c. unfold products, r. rewrite product_coeffs_nodup by assumption. rewrite in_map_iff. split.
    - intros ([c' k] & <- & Hin). apply filter_In in Hin as [Hin Hk]. apply Qlt_bool_iff' in Hk. exists k. auto.
    - intros (k & Hin & Hk). exists (c, k). split; [reflexivity|]. apply filter_In. split; [assumption|].
      apply Qlt_bool_iff'. assumption. }
  assert (Htp : forall t, In t ts -> In t (products r)).
  { intros t Ht. apply Hts in Ht as [Ht1 Ht2]. apply Hprod.
    rewrite <- (combine_fst cs ks Hl) in Ht1. apply in_map_iff in Ht1 as ([c k] & Ec & Hin). simpl in Ec. subst c.
    exists k. split; [assumption|]. eapply Hpos; eassumption. }
  assert (Hne : ts <> []).
  { intros E. assert (Hin : In c0 ts) by (apply Hts; auto). rewrite E in Hin. destruct Hin. }
  assert (E : set_remove_all ts (products r) = Ok (filter (fun x => negb (memb Nat.eqb x ts)) (products r))).
  { apply set_remove_all_ok; [apply NoDup_filter; assumption|assumption]. }
  destruct ts as [|t0 ts0] eqn:Ets; [congruence|]. rewrite <- Ets in *. rewrite E. cbn [bind].
  eexists. split; [reflexivity|]. rewrite forallb_forall. split.
  - intros H c Hc Hr e He Ht. specialize (H c).
    assert (Hin : In c (filter (fun x => negb (memb Nat.eqb x ts)) (products r))).
    { apply filter_In. split; [assumption|]. apply negb_true_iff, memb_false. rewrite Hts. tauto. }
    specialize (H Hin). change (in_common_gases c) with false in H. cbn [orb] in H. rewrite forallb_forall in H. specialize (H e He).
    apply memb_iff, filter_In in H as [_ H]. apply negb_true_iff, memb_false in H. contradiction.
  - intros H c Hc. apply filter_In in Hc as [Hc Hcm]. apply negb_true_iff, memb_false in Hcm. rewrite Hts in Hcm.
    apply orb_true_iff. right. apply forallb_forall. intros e He. apply memb_iff, filter_In.
    assert (Hcs : In c cs). { apply Hprod in Hc as (k & Hin & _). apply in_combine_l in Hin. assumption. }
    split; [apply in_elements; exists c; split; assumption|].
    apply negb_true_iff, memb_false. apply (H c); [assumption| |assumption]. intros Hr. apply Hcm. auto.
Qed.

Theorem is_separable_missing els r target : 
  is_separable C els r target = Err ValueError <-> ~ exists c, In c (comps r) /\ red C c = red C target.
Proof.
  unfold is_separable. destruct (filter (fun c => Nat.eqb (red C c) (red C target)) (comps r)) as [|t ts] eqn:E.
  - split; [|reflexivity]. intros _ (c & Hc & Hr).
    assert (Hin : In c (filter (fun c => Nat.eqb (red C c) (red C target)) (comps r))).
    { apply filter_In. split; [assumption|]. apply Nat.eqb_eq. assumption. }
    rewrite E in Hin. destruct Hin.
  - split.
    + assert (G : forall ts s e, set_remove_all ts s = Err e -> e = KeyError).
      { clear. induction ts as [|t ts IH]; intros s e H; simpl in H; [discriminate|].
        destruct (memb Nat.eqb t s); [eapply IH; exact H|congruence]. }
      destruct (set_remove_all (t :: ts) (products r)) as [s|e] eqn:Es; cbn [bind]; [discriminate|].
      apply G in Es. subst e. discriminate.
    + intros H. exfalso. apply H. assert (Hin : In t (t :: ts)) by (left; reflexivity). rewrite <- E in Hin.
      apply filter_In in Hin as [H1 H2]. apply Nat.eqb_eq in H2. exists t. auto.
Qed.
End Eq.

Lemma computed_eq_iff C r1 r2 : computed_eq C r1 r2 = Ok true <->
  basic_eq C (c_base r1) (c_base r2) = Ok true
  /\ exists e1 e2, computed_energy_per_atom C r1 = Ok e1 /\ computed_energy_per_atom C r2 = Ok e2
     /\ (Qabs (e1 - e2) <= (1 # 100000000) + (1 # 100000) * Qabs e2)%Q.
Proof.
  unfold computed_eq. destruct (basic_eq C (c_base r1) (c_base r2)) as [[]|e]; cbn [bind].
  - destruct (computed_energy_per_atom C r1) as [e1|e]; cbn [bind]; [|split; [discriminate|intros (_ & a & b & H & _); discriminate]].
    destruct (computed_energy_per_atom C r2) as [e2|e]; cbn [bind]; [|split; [discriminate|intros (_ & a & b & _ & H & _); discriminate]].
    unfold isclose. split.
    + intros H. split; [reflexivity|]. exists e1, e2. split; [reflexivity|]. split; [reflexivity|]. apply Qle_bool_iff. congruence.
    + intros (_ & a & b & A & B & L). injection A as ->. injection B as ->. apply Qle_bool_iff in L. rewrite L. reflexivity.
  - split; [discriminate|]. intros [H _]. discriminate.
  - split; [discriminate|]. intros [H _]. discriminate.
Qed.
