(* The reaction read back equals the one printed (C92). *)
From Coq Require Import Ascii Qpower Lqa Lia Setoid Sorted.
From Verif Require Import Prelude NumQ ListFacts ReactionModel ReactionSpec ReactionBaseProofs ReactionEqProofs StrModel StrSpec StrNumProofs StrProofs.
Open Scope nat_scope.

(* --- sorting up to == --- *)
Lemma Qle_bool_wd a a' b b' : (a == a')%Q -> (b == b')%Q -> Qle_bool a b = Qle_bool a' b'.
Proof. intros A B. apply eq_true_iff_eq. rewrite !Qle_bool_iff, A, B. reflexivity. Qed.
Lemma insert_wd a a' l l' : (a == a')%Q -> Forall2 Qeq l l' -> Forall2 Qeq (insertQ a l) (insertQ a' l').
Proof.
  intros A F. induction F as [|b b' l l' B F IH]; [constructor; [exact A|constructor]|]. cbn. rewrite (Qle_bool_wd a a' b b' A B).
  destruct (Qle_bool a' b'); constructor; [exact A|constructor; assumption|exact B|exact IH].
Qed.
Lemma sort_wd l l' : Forall2 Qeq l l' -> Forall2 Qeq (sortQ l) (sortQ l').
Proof. intros F. induction F as [|a a' l l' A F IH]; [constructor|]. cbn. apply insert_wd; assumption. Qed.
Lemma Qeq_list_refl l : Forall2 Qeq l l.
Proof. induction l; constructor; [reflexivity|assumption]. Qed.
Lemma Qeq_list_trans l1 l2 l3 : Forall2 Qeq l1 l2 -> Forall2 Qeq l2 l3 -> Forall2 Qeq l1 l3.
Proof.
  intros F. revert l3. induction F as [|a b l1 l2 A F IH]; intros l3 G; inversion G; subst; [constructor|]. constructor; [rewrite A; assumption|apply IH; assumption].
Qed.
Lemma le_false a b : Qle_bool a b = false -> (b < a)%Q.
Proof. intros H. apply Qnot_le_lt. intros L. apply Qle_bool_iff in L. congruence. Qed.
Lemma insert_swap a b l : Forall2 Qeq (insertQ a (insertQ b l)) (insertQ b (insertQ a l)).
Proof.
  induction l as [|c l IH]; cbn.
  - destruct (Qle_bool a b) eqn:A, (Qle_bool b a) eqn:B.
    + apply Qle_bool_iff in A, B. constructor; [lra|]. constructor; [lra|constructor].
    + apply Qeq_list_refl.
    + apply Qeq_list_refl.
    + apply le_false in A, B. lra.
  - destruct (Qle_bool b c) eqn:B, (Qle_bool a c) eqn:A; cbn [insertQ].
    + destruct (Qle_bool a b) eqn:AB, (Qle_bool b a) eqn:BA.
      * apply Qle_bool_iff in AB, BA. constructor; [lra|]. constructor; [lra|apply Qeq_list_refl].
      * rewrite B. apply Qeq_list_refl.
      * rewrite A. apply Qeq_list_refl.
      * apply le_false in AB, BA. lra.
    + assert (E : Qle_bool a b = false). { destruct (Qle_bool a b) eqn:E; [|reflexivity]. apply Qle_bool_iff in E, B. apply le_false in A. lra. }
      rewrite E, A, B. apply Qeq_list_refl.
    + assert (E : Qle_bool b a = false). { destruct (Qle_bool b a) eqn:E; [|reflexivity]. apply Qle_bool_iff in E, A. apply le_false in B. lra. }
      rewrite E, A, B. apply Qeq_list_refl.
    + rewrite A, B. constructor; [reflexivity|exact IH].
Qed.
Lemma sort_perm l l' : Permutation l l' -> Forall2 Qeq (sortQ l) (sortQ l').
Proof.
  intros P. induction P as [|x l l' P IH|x y l|l1 l2 l3 P1 IH1 P2 IH2]; [constructor| | |].
  - cbn. apply insert_wd; [reflexivity|exact IH].
  - cbn. apply insert_swap.
  - eapply Qeq_list_trans; eassumption.
Qed.

Lemma partition_perm {A} (p q : A -> bool) l : (forall x, In x l -> q x = negb (p x)) -> Permutation (filter p l ++ filter q l) l.
Proof.
  induction l as [|x l IH]; intros H; [reflexivity|]. cbn. rewrite (H x (or_introl eq_refl)).
  specialize (IH (fun y Y => H y (or_intror Y))). destruct (p x); cbn; [constructor; exact IH|].
  rewrite <- Permutation_middle. constructor. exact IH.
Qed.
Lemma nodup_parts {A} (l l' : list A) : NoDup (l ++ l') -> NoDup l /\ NoDup l'.
Proof.
  induction l as [|x l IH]; intros H; [split; [constructor|exact H]|]. cbn in H. inversion H; subst. destruct (IH H3) as [A1 A2].
  split; [|exact A2]. constructor; [|exact A1]. intros I. apply H2, in_or_app. left. exact I.
Qed.
Lemma side_iff C cs ks fl n : NoDup cs -> length cs = length ks ->
  (forall c, In c (reactants (basic_init C cs ks fl n)) <-> exists k, In (c, k) (combine cs ks) /\ (k < 0)%Q)
  /\ (forall c, In c (products (basic_init C cs ks fl n)) <-> exists k, In (c, k) (combine cs ks) /\ (0 < k)%Q).
Proof.
  intros N L. unfold reactants, products. rewrite reactant_coeffs_nodup, product_coeffs_nodup by assumption.
  split; intros c; rewrite in_map_iff; split.
  - intros ([c' k] & <- & I). apply filter_In in I as [I T]. apply Qlt_bool_iff' in T. exists k. tauto.
  - intros (k & I & T). exists (c, k). split; [reflexivity|]. apply filter_In. split; [exact I|]. apply Qlt_bool_iff'. exact T.
  - intros ([c' k] & <- & I). apply filter_In in I as [I T]. apply Qlt_bool_iff' in T. exists k. tauto.
  - intros (k & I & T). exists (c, k). split; [reflexivity|]. apply filter_In. split; [exact I|]. apply Qlt_bool_iff'. exact T.
Qed.
Lemma elements_perm C r r' : Permutation (comps r) (comps r') -> forall e, In e (elements C r) <-> In e (elements C r').
Proof.
  intros P e. unfold elements. rewrite !nodup_In, !in_flat_map. split; intros (c & I & E); exists c; (split; [|exact E]).
  - apply (Permutation_in _ P). exact I.
  - apply (Permutation_in _ (Permutation_sym P)). exact I.
Qed.

(* Two lists of species with the same compositions in the same order and equal amounts. *)
Definition eqv (a b : nat * Q) : Prop := fst a = fst b /\ (snd a == snd b)%Q.
Lemma eqv_in l l' : Forall2 eqv l l' -> (forall c k, In (c, k) l -> exists k', In (c, k') l' /\ (k == k')%Q) /\ (forall c k, In (c, k) l' -> exists k', In (c, k') l /\ (k == k')%Q).
Proof.
  intros F. split; intros c k I.
  - destruct (Forall2_In_l _ _ _ _ F I) as ([c' k'] & I' & E1 & E2). cbn in *. subst c'. exists k'. tauto.
  - destruct (Forall2_In_r _ _ _ _ F I) as ([c' k'] & I' & E1 & E2). cbn in *. subst c'. exists k'. split; [exact I'|]. symmetry. exact E2.
Qed.

Theorem same_reaction C parse name r : clean C r ->
  (forall c, In c (comps r) -> spelled (name c) /\ parse (name c) = Ok c /\ red C c = c /\ (fac C c == 1)%Q) ->
  (forall k, In k (coeffs r) -> (1 # 1000000 < Qabs k)%Q /\ (Qabs k < 99995 # 10)%Q /\ short k) ->
  reactants r <> [] -> products r <> [] ->
  exists r', from_string C parse (to_string C name r) = Ok r' /\ clean C r' /\ basic_eq C r r' = Ok true /\ Permutation (comps r) (comps r')
  /\ (forall c k, In (c, k) (species r) -> exists k', In (c, k') (species r') /\ (k == k')%Q)
  /\ (forall c k, In (c, k) (species r') -> exists k', In (c, k') (species r) /\ (k == k')%Q).
Proof.
  intros CL HN HK R0 P0. assert (CL' := CL). destruct CL as (cs & ks & fl & n & -> & ND & LN & NZ). cbn [comps coeffs basic_init] in *.
  set (r := basic_init C cs ks fl n) in *.
  assert (EA : Forall2 eqv (combine cs ks) (amounts C r)).
  { unfold amounts. cbn [comps coeffs basic_init r]. assert (G : forall ck, In ck (combine cs ks) -> (fac C (fst ck) == 1)%Q).
    { intros [c k] I. apply in_combine_l in I. apply HN, I. }
    revert G. generalize (combine cs ks). induction l as [|x l IH]; intros G; [constructor|]. cbn. constructor; [|apply IH; intros; apply G; right; assumption].
    split; [reflexivity|]. cbn. rewrite (G x (or_introl eq_refl)). ring. }
  assert (KA : forall ca, In ca (amounts C r) -> In (fst ca) cs /\ (1 # 1000000 < Qabs (snd ca))%Q /\ (Qabs (snd ca) < 99995 # 10)%Q /\ short (snd ca)).
  { intros ca I. destruct (Forall2_In_r _ _ _ _ EA I) as ([c k] & I' & E1 & E2). cbn in E1, E2. rewrite <- E1. split; [apply in_combine_l in I'; exact I'|].
    apply in_combine_r in I'. destruct (HK k I') as (A & B & m & x & M & E). assert (EQ := Qabs_wd _ _ E2). split; [lra|]. split; [lra|].
    exists m, x. split; [exact M|]. rewrite <- E2. exact E. }
  assert (PM : Permutation (consumed_amounts C r ++ formed_amounts C r) (amounts C r)).
  { apply partition_perm. intros ca I. destruct (KA ca I) as (_ & A & _). destruct (Qlt_bool (snd ca) (- (1 # 1000000))) eqn:T.
    - apply Qlt_bool_iff' in T. destruct (Qlt_bool (1 # 1000000) (snd ca)) eqn:T'; [apply Qlt_bool_iff' in T'; lra|reflexivity].
    - apply Qlt_bool_false in T. cbn. apply Qlt_bool_iff'. destruct (Qlt_le_dec (snd ca) 0) as [N|N]; [rewrite Qabs_neg in A by lra; lra|rewrite Qabs_pos in A by lra; exact A]. }
  assert (FA : map fst (amounts C r) = cs).
  { unfold amounts. rewrite map_map. cbn [fst comps coeffs basic_init r]. apply combine_fst. exact LN. }
  assert (RM : forall l : list (nat * Q), (forall ca, In ca l -> In (fst ca) cs) -> map (fun ca => red C (fst ca)) l = map fst l).
  { intros l H. apply map_ext_in. intros ca I. apply HN, H, I. }
  assert (INL : forall ca, In ca (consumed_amounts C r ++ formed_amounts C r) -> In (fst ca) cs) by (intros ca I; apply KA, (Permutation_in _ PM), I).
  assert (PC : Permutation (map fst (consumed_amounts C r ++ formed_amounts C r)) cs) by (rewrite <- FA; apply Permutation_map, PM).
  assert (NDA : NoDup (map fst (consumed_amounts C r ++ formed_amounts C r))) by (apply (Permutation_NoDup (Permutation_sym PC)), ND).
  destruct (side_iff C cs ks fl n ND LN) as [SR SP]. fold r in SR, SP.
  destruct (round_trip C parse name r) as (ks' & E & V).
  - cbn [comps basic_init r]. intros c I. destruct (HN c I) as (A & B & D & _). rewrite D. tauto.
  - intros ca I. apply KA, I.
  - destruct (reactants r) as [|c l] eqn:RC; [congruence|]. destruct (proj1 (SR c) (or_introl eq_refl)) as (k & I & K).
    destruct (proj1 (eqv_in _ _ EA) c k I) as (k' & I' & K'). destruct (KA _ I') as (_ & T & _). cbn in T. assert (In (c, k') (consumed_amounts C r)); [|intros Z; rewrite Z in *; contradiction].
    apply filter_In. split; [exact I'|]. cbn. apply Qlt_bool_iff'. rewrite Qabs_neg in T by lra. lra.
  - destruct (products r) as [|c l] eqn:RC; [congruence|]. destruct (proj1 (SP c) (or_introl eq_refl)) as (k & I & K).
    destruct (proj1 (eqv_in _ _ EA) c k I) as (k' & I' & K'). destruct (KA _ I') as (_ & T & _). cbn in T. assert (In (c, k') (formed_amounts C r)); [|intros Z; rewrite Z in *; contradiction].
    apply filter_In. split; [exact I'|]. cbn. apply Qlt_bool_iff'. rewrite Qabs_pos in T by lra. lra.
  - rewrite RM by (intros ca I; apply INL, in_or_app; left; exact I). rewrite map_app in NDA. apply nodup_parts in NDA. tauto.
  - rewrite RM by (intros ca I; apply INL, in_or_app; right; exact I). rewrite map_app in NDA. apply nodup_parts in NDA. tauto.
  - rewrite (RM _ INL) in E. set (A := consumed_amounts C r ++ formed_amounts C r) in *.
    assert (VE : Forall2 eqv A (combine (map fst A) ks')).
    { clear - V INL KA PM. assert (G : forall ca, In ca A -> short (snd ca)) by (intros ca I; apply KA, (Permutation_in _ PM), I). clearbody A. clear INL KA PM.
      induction V as [|ca k l l' [_ X] V IH]; [constructor|]. cbn. constructor; [|apply IH; intros; apply G; right; assumption].
      split; [reflexivity|]. cbn. symmetry. apply X, G. left. reflexivity. }
    assert (LV : length (map fst A) = length ks') by (rewrite map_length; apply (Forall2_length _ _ _ V)).
    set (r' := basic_init C (map fst A) ks' None None) in *. exists r'. split; [exact E|].
    assert (S1 : forall c k, In (c, k) (combine cs ks) -> exists k', In (c, k') (combine (map fst A) ks') /\ (k == k')%Q).
    { intros c k I. destruct (proj1 (eqv_in _ _ EA) c k I) as (k1 & I1 & E1). apply (Permutation_in _ (Permutation_sym PM)) in I1.
      destruct (proj1 (eqv_in _ _ VE) c k1 I1) as (k2 & I2 & E2). exists k2. split; [exact I2|]. rewrite E1. exact E2. }
    assert (S2 : forall c k, In (c, k) (combine (map fst A) ks') -> exists k', In (c, k') (combine cs ks) /\ (k == k')%Q).
    { intros c k I. destruct (proj2 (eqv_in _ _ VE) c k I) as (k1 & I1 & E1). apply (Permutation_in _ PM) in I1.
      destruct (proj2 (eqv_in _ _ EA) c k1 I1) as (k2 & I2 & E2). exists k2. split; [exact I2|]. rewrite E1. exact E2. }
    assert (CR : clean C r').
    { exists (map fst A), ks', None, None. split; [reflexivity|]. split; [exact NDA|]. split; [exact LV|]. intros k I Z.
      destruct (In_nth _ _ 0%Q I) as (i & L & N). assert (IC : In (nth i (map fst A) 0, k) (combine (map fst A) ks')).
      { rewrite <- N, <- combine_nth by exact LV. apply nth_In. rewrite combine_length. lia. }
      destruct (S2 _ _ IC) as (k' & I' & E'). apply in_combine_r in I'. apply (NZ k' I'). rewrite <- E'. exact Z. }
    split; [exact CR|].
    assert (PCs : Permutation (comps r) (comps r')) by (symmetry; exact PC).
    split; [|split; [exact PCs|split; [exact S1|exact S2]]].
    destruct (basic_eq_clean C r r' CL' CR) as (b & EB & B). rewrite EB. f_equal. apply B. split; [apply elements_perm, PCs|].
    destruct (side_iff C (map fst A) ks' None None NDA LV) as [SR' SP']. fold r' in SR', SP'.
    split; [|split].
    + apply (Forall2_impl Qeq); [intros a b' Q0; apply isclose_eq; exact Q0|]. cbn [coeffs basic_init r r'].
      apply Qeq_list_trans with (sortQ (map snd (amounts C r))).
      * apply sort_wd. rewrite <- (combine_snd cs ks LN) at 1. clear - EA. induction EA as [|x y l l' [_ X] F IH]; constructor; assumption.
      * apply Qeq_list_trans with (sortQ (map snd A)); [apply sort_perm, Permutation_map, Permutation_sym, PM|].
        apply sort_wd. rewrite <- (combine_snd (map fst A) ks' LV). clear - VE. revert VE. generalize (combine (map fst A) ks'). induction 1 as [|x y l' l2 [_ X] F IH]; constructor; assumption.
    + intros c. rewrite SR, SR'. split; intros (k & I & K).
      * destruct (S1 c k I) as (k' & I' & E'). exists k'. split; [exact I'|lra].
      * destruct (S2 c k I) as (k' & I' & E'). exists k'. split; [exact I'|lra].
    + intros c. rewrite SP, SP'. split; intros (k & I & K).
      * destruct (S1 c k I) as (k' & I' & E'). exists k'. split; [exact I'|lra].
      * destruct (S2 c k I) as (k' & I' & E'). exists k'. split; [exact I'|lra].
Qed.
