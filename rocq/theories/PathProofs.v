(* Proofs about pathways (C40-C44, C73). *)
From Verif Require Import Prelude ListFacts NumQ SumQ UtilsModel UtilsSpec UtilsProofs ReactionModel ReactionBaseProofs ReactionOpsProofs RxnSetModel RxnSetSpec RxnSetBaseProofs RxnSetProofs RxnSetDupProofs
  RxnSetFilterProofs RxnSetParProofs RxnSetTempProofs EnumReactProofs PathModel PathSpec.
From Coq Require Import Lqa.
Open Scope nat_scope.

(* --- C42 --- *)
Section Species.
Context {R : Type}.
Variable rs ps : R -> list nat.

Lemma all_reactants_in (p : path R) c : In c (all_reactants rs p) <-> consumed rs p c.
Proof. unfold all_reactants, consumed. rewrite nodup_In, in_flat_map. reflexivity. Qed.
Lemma all_products_in (p : path R) c : In c (all_products ps p) <-> formed ps p c.
Proof. unfold all_products, formed. rewrite nodup_In, in_flat_map. reflexivity. Qed.
Lemma set_minus_in a b c : In c (set_minus a b) <-> In c a /\ ~ In c b.
Proof. unfold set_minus. rewrite filter_In, negb_true_iff, memb_false. reflexivity. Qed.
Lemma set_inter_in a b c : In c (set_inter a b) <-> In c a /\ In c b.
Proof. unfold set_inter. rewrite filter_In, memb_iff. reflexivity. Qed.

Lemma species_spec (p : path R) :
  (forall c, In c (path_reactants rs ps p) <-> consumed rs p c /\ ~ formed ps p c)
  /\ (forall c, In c (path_products rs ps p) <-> formed ps p c /\ ~ consumed rs p c)
  /\ (forall c, In c (intermediates rs ps p) <-> formed ps p c /\ consumed rs p c)
  /\ (forall c, In c (path_comps rs ps p) <-> formed ps p c \/ consumed rs p c)
  /\ Permutation (path_comps rs ps p) (path_reactants rs ps p ++ intermediates rs ps p ++ path_products rs ps p)
  /\ NoDup (path_comps rs ps p).
Proof.
  assert (A : forall c, In c (path_reactants rs ps p) <-> consumed rs p c /\ ~ formed ps p c)
    by (intros c; unfold path_reactants; rewrite set_minus_in, all_reactants_in, all_products_in; reflexivity).
  assert (B : forall c, In c (path_products rs ps p) <-> formed ps p c /\ ~ consumed rs p c)
    by (intros c; unfold path_products; rewrite set_minus_in, all_reactants_in, all_products_in; reflexivity).
  assert (D : forall c, In c (intermediates rs ps p) <-> formed ps p c /\ consumed rs p c)
    by (intros c; unfold intermediates; rewrite set_inter_in, all_reactants_in, all_products_in; reflexivity).
  assert (F : forall c, In c (path_comps rs ps p) <-> formed ps p c \/ consumed rs p c)
    by (intros c; unfold path_comps; rewrite nodup_In, in_app_iff, all_reactants_in, all_products_in; tauto).
  split; [exact A|]. split; [exact B|]. split; [exact D|]. split; [exact F|]. split; [|apply NoDup_nodup].
  assert (N : forall l, NoDup (nodup Nat.eq_dec l)) by (intros; apply NoDup_nodup).
  apply NoDup_Permutation; [apply N| |].
  - apply NoDup_app_intro; [apply NoDup_filter, N| |].
    + apply NoDup_app_intro; [apply NoDup_filter, N|apply NoDup_filter, N|]. intros c H1 H2. apply D in H1. apply B in H2. tauto.
    + intros c H1 H2. apply A in H1. apply in_app_iff in H2 as [H2|H2]; [apply D in H2|apply B in H2]; tauto.
  - intros c. rewrite F, !in_app_iff, A, B, D.
    assert (Dec : (consumed rs p c \/ ~ consumed rs p c) /\ (formed ps p c \/ ~ formed ps p c)).
    { rewrite <- all_reactants_in, <- all_products_in. split; [destruct (in_dec Nat.eq_dec c (all_reactants rs p)); tauto|destruct (in_dec Nat.eq_dec c (all_products ps p)); tauto]. }
    tauto.
Qed.

(* --- C44 --- *)
Variable cs : R -> list nat.
Variable req : R -> R -> bool.
Hypothesis Hreq : forall a b, req a b = true <-> a = b.

Lemma memb_req r l : memb req r l = true <-> In r l.
Proof.
  unfold memb. rewrite existsb_exists. split; [intros (x & Hx & E); apply Hreq in E; subst; exact Hx|intros H; exists r; split; [exact H|apply Hreq; reflexivity]].
Qed.
Lemma set_list_spec l seen : NoDup (set_list req l seen) /\ forall r, In r (set_list req l seen) <-> In r l /\ ~ In r seen.
Proof.
  revert seen. induction l as [|x l IH]; intros seen; [split; [constructor|simpl; tauto]|]. cbn [set_list]. destruct (memb req x seen) eqn:E.
  - destruct (IH seen) as [I1 I2]. split; [exact I1|]. intros r. rewrite I2. apply memb_req in E. simpl. split; [tauto|]. intros [[->|H] Hn]; [contradiction|tauto].
  - destruct (IH (x :: seen)) as [I1 I2]. split.
    + constructor; [rewrite I2; simpl; tauto|exact I1].
    + intros r. simpl. rewrite I2. simpl. assert (~ In x seen) by (intros H; apply memb_req in H; congruence).
      split; [intros [->|[H1 H2]]; tauto|]. intros [[->|H1] H2]; [left; reflexivity|]. destruct (req x r) eqn:Ex; [apply Hreq in Ex; left; exact Ex|].
      right. split; [exact H1|]. intros [->|Hs]; [|tauto]. assert (req r r = true) by (apply Hreq; reflexivity). congruence.
Qed.

Lemma overlaps_iff prec combo other i ri : NoDup combo -> nth_error combo i = Some ri ->
  overlaps rs ps prec combo other i = true <-> exists r' c, In r' combo /\ r' <> ri /\ In c (rs ri) /\ In c (ps r') /\ ~ In c prec.
Proof.
  intros Hn Hi. unfold overlaps. rewrite existsb_exists. split.
  - intros (j & Hj & H). rewrite Hi in H. apply andb_prop in H as [Hij H]. destruct (nth_error combo j) as [rj|] eqn:Ej; [|discriminate].
    unfold in_other_comp in H. cbn [negb] in H. rewrite andb_true_r, negb_true_iff, Nat.eqb_neq in H.
    destruct (set_inter _ _) as [|c l] eqn:E; [destruct (H eq_refl)|]. assert (Hc : In c (c :: l)) by (left; reflexivity). rewrite <- E in Hc.
    apply set_inter_in in Hc as [H1 H2]. apply set_minus_in in H1 as [H1 H3]. apply set_minus_in in H2 as [H2 _].
    exists rj, c. split; [apply (nth_error_In _ _ Ej)|]. split; [|tauto]. intros ->. apply negb_true_iff, Nat.eqb_neq in Hij. apply Hij.
    apply (NoDup_nth_error combo); [exact Hn|apply nth_error_Some; congruence|congruence].
  - intros (r' & c & H1 & H2 & H3 & H4 & H5). apply In_nth_error in H1 as [j Ej]. exists j. split; [apply in_seq; split; [lia|apply nth_error_Some; congruence]|].
    rewrite Hi, Ej. unfold in_other_comp. cbn [negb]. rewrite andb_true_r. apply andb_true_intro. split.
    + apply negb_true_iff, Nat.eqb_neq. intros ->. congruence.
    + apply negb_true_iff, Nat.eqb_neq. intros E. apply length_zero_iff_nil in E. assert (In c []) as []. rewrite <- E. apply set_inter_in. split; apply set_minus_in; tauto.
Qed.

Lemma path_subset_iff a b : PathModel.subset a b = true <-> forall x, In x a -> In x b.
Proof. unfold PathModel.subset. rewrite forallb_forall. split; intros H x Hx; apply memb_iff; auto. Qed.

Lemma contains_iff (p : path R) prec : contains_interdependent req rs ps cs p prec = true <-> circular rs ps prec p.
Proof.
  unfold contains_interdependent. set (ds := set_list req (p_rxns p) []).
  destruct (set_list_spec (p_rxns p) []) as [Nd Hin]. fold ds in Nd, Hin. assert (Hds : forall r, In r ds <-> In r (p_rxns p)) by (intros r; rewrite Hin; simpl; tauto). clear Hin.
  split.
  - destruct (Nat.eqb (length ds) 1); [discriminate|]. rewrite existsb_exists. intros (combo & Hc & H). apply in_limited_powerset in Hc as [Hs Hl].
    assert (Nc : NoDup combo) by (apply (subseq_NoDup _ _ Hs Nd)).
    destruct (existsb _ combo || _) eqn:E; [discriminate|]. apply orb_false_iff in E as [E1 E2]. apply Nat.eqb_neq in E2.
    exists combo. split; [exact Nc|]. split; [lia|]. split; [intros r Hr; apply Hds, (subseq_In _ _ _ Hs Hr)|]. split.
    + intros r Hr Hp. assert (existsb (fun r => PathModel.subset (rs r) prec) combo = true); [|congruence]. apply existsb_exists. exists r. split; [exact Hr|]. apply path_subset_iff. exact Hp.
    + intros r Hr. apply In_nth_error in Hr as [i Ei]. rewrite forallb_forall in H. specialize (H i). apply (overlaps_iff prec combo _ i r Nc Ei) in H as (r' & c & H).
      * exists r', c. tauto.
      * apply in_seq. split; [lia|]. apply nth_error_Some. congruence.
  - intros (group & N & L & I & H1 & H2).
    set (combo := filter (fun r => memb req r group) ds).
    assert (Hm : forall r, In r combo <-> In r group). { intros r. unfold combo. rewrite filter_In, memb_req, Hds. split; [tauto|]. intros H. split; [apply I, H|exact H]. }
    assert (Nc : NoDup combo) by (apply NoDup_filter, Nd).
    assert (P : Permutation combo group) by (apply NoDup_Permutation; assumption).
    assert (Lc : length combo = length group) by (apply Permutation_length, P).
    assert (Hs : subseq combo ds) by (unfold combo; apply (subseq_filter (fun r => memb req r group) combo ds), subseq_refl).
    pose proof (subseq_length _ _ Hs) as Ll. destruct (Nat.eqb_spec (length ds) 1) as [E|E]; [lia|].
    apply existsb_exists. exists combo. split; [apply in_limited_powerset; split; [exact Hs|lia]|].
    destruct (existsb _ combo || _) eqn:E1.
    + exfalso. apply orb_true_iff in E1 as [E1|E1]; [|apply Nat.eqb_eq in E1; lia]. apply existsb_exists in E1 as (r & Hr & E1). apply Hm in Hr. apply (H1 r Hr). apply path_subset_iff, E1.
    + apply forallb_forall. intros i Hi. apply in_seq in Hi. destruct (nth_error combo i) as [ri|] eqn:Ei; [|apply nth_error_None in Ei; lia].
      apply (overlaps_iff prec combo _ i ri Nc Ei). destruct (H2 ri) as (r' & c & G); [apply Hm, (nth_error_In _ _ Ei)|]. exists r', c. rewrite Hm. tauto.
Qed.

Lemma never_missed (p : path R) prec : interdependent rs ps cs prec p -> contains_interdependent req rs ps cs p prec = true.
Proof.
  intros (group & N & L & I & H1 & H2). apply contains_iff. exists group. split; [exact N|]. split; [exact L|]. split; [exact I|]. split; [exact H1|].
  intros r Hr. destruct (H2 r Hr) as (r' & c & G). exists r', c. tauto.
Qed.
End Species.

(* --- C41, C73 --- *)
Section Equality.
Context {R : Type}.
Variable req : R -> R -> bool.
Hypothesis Heqv : equivalence req.

Lemma near_iff a b : isclose a b = true <-> near a b.
Proof. unfold isclose, near. apply Qle_bool_iff. Qed.

Lemma allclose_iff l1 l2 : length l1 = length l2 -> (allclose l1 l2 = true <-> Forall2 near l1 l2).
Proof.
  revert l2. induction l1 as [|a l1 IH]; intros [|b l2] H; try discriminate; cbn [allclose]; [split; auto|].
  injection H as H. rewrite andb_true_iff, near_iff, (IH l2 H). split; [intros []; constructor; assumption|intros G; inversion G; auto].
Qed.

Lemma rxns_eq_iff l1 l2 : length l1 = length l2 -> (rxns_eq req l1 l2 = true <-> Forall2 (fun a b => req a b = true) l1 l2).
Proof.
  destruct Heqv as (_ & Hs & _). unfold rxns_eq. revert l2. induction l1 as [|a l1 IH]; intros [|b l2] H; try discriminate; cbn [combine forallb]; [split; auto|].
  injection H as H. rewrite andb_true_iff, (IH l2 H). cbn [fst snd]. split; [intros []; constructor; auto|intros G; inversion G; auto].
Qed.

Lemma path_eq_iff (p q : path R) : same_shape p q ->
  exists b, path_eq req p q = Ok b /\ (b = true <-> Forall2 (fun a b => req a b = true) (p_rxns p) (p_rxns q) /\ (p_coeffs p <> None -> Forall2 near (p_costs p) (p_costs q))).
Proof.
  intros (Hk & Hl & Hc). unfold path_eq. destruct (p_coeffs p) as [x|] eqn:Ep, (p_coeffs q) as [y|] eqn:Eq.
  - destruct (rxns_eq req (p_rxns p) (p_rxns q)) eqn:E.
    + unfold np_allclose. rewrite Hc, Nat.eqb_refl. eexists. split; [reflexivity|]. rewrite (allclose_iff _ _ Hc). apply (rxns_eq_iff _ _ Hl) in E. split; [auto|]. intros [_ H]. apply H. discriminate.
    + eexists. split; [reflexivity|]. split; [discriminate|]. intros [H _]. apply (rxns_eq_iff _ _ Hl) in H. congruence.
  - destruct Hk as [_ Hk]. specialize (Hk eq_refl). discriminate.
  - destruct Hk as [Hk _]. specialize (Hk eq_refl). discriminate.
  - eexists. split; [reflexivity|]. rewrite (rxns_eq_iff _ _ Hl). split; [intros H; split; [exact H|intros G; congruence]|tauto].
Qed.

(* The two classes *)
Lemma classes_differ (p q : path R) : p_coeffs p = None -> p_coeffs q <> None -> path_eq req p q = Ok false /\ path_eq req q p = Ok false.
Proof. intros Hp Hq. unfold path_eq. rewrite Hp. destruct (p_coeffs q); [split; reflexivity|contradiction]. Qed.

(* Different numbers of costs *)
Lemma costs_broadcast (p q : path R) : p_coeffs p <> None -> p_coeffs q <> None -> (forall a b, In (a, b) (combine (p_rxns q) (p_rxns p)) -> req a b = true) -> length (p_costs p) <> length (p_costs q) ->
  (forall c, p_costs p = [c] -> exists b, path_eq req p q = Ok b /\ (b = true <-> Forall (near c) (p_costs q)))
  /\ (forall c, p_costs q = [c] -> exists b, path_eq req p q = Ok b /\ (b = true <-> Forall (fun a => near a c) (p_costs p)))
  /\ (length (p_costs p) <> 1 -> length (p_costs q) <> 1 -> path_eq req p q = Err ValueError).
Proof.
  intros Hp Hq Hr Hl. assert (E : path_eq req p q = np_allclose (p_costs p) (p_costs q)).
  { unfold path_eq. destruct (p_coeffs p); [|contradiction]. destruct (p_coeffs q); [|contradiction]. unfold rxns_eq.
    replace (forallb _ _) with true; [reflexivity|]. symmetry. apply forallb_forall. intros [a b] I. exact (Hr a b I). }
  rewrite E. unfold np_allclose. apply Nat.eqb_neq in Hl. rewrite Hl. apply Nat.eqb_neq in Hl.
  assert (F : forall f (P : Q -> Prop) l, (forall a, f a = true <-> P a) -> (forallb f l = true <-> Forall P l)).
  { intros f P l Hf. rewrite forallb_forall, Forall_forall. split; intros H a I; apply Hf, H; exact I. }
  split; [|split].
  - intros c Ec. rewrite Ec in *. eexists. split; [reflexivity|]. apply F. intros a. apply near_iff.
  - intros c Ec. rewrite Ec in *. destruct (p_costs p) as [|a [|b l]]; [| exfalso; apply Hl; reflexivity|]; (eexists; split; [reflexivity|]; apply F; intros x; apply near_iff).
  - intros H1 H2. destruct (p_costs p) as [|a [|b l]], (p_costs q) as [|a' [|b' l']]; cbn in *; try reflexivity; lia.
Qed.

Lemma Forall2_sym {A} (P : A -> A -> Prop) l1 l2 : (forall a b, P a b -> P b a) -> Forall2 P l1 l2 -> Forall2 P l2 l1.
Proof. intros H. induction 1; constructor; auto. Qed.
Lemma Forall2_trans {A} (P : A -> A -> Prop) l1 l2 l3 : (forall a b c, P a b -> P b c -> P a c) -> Forall2 P l1 l2 -> Forall2 P l2 l3 -> Forall2 P l1 l3.
Proof. intros H H1. revert l3. induction H1; intros l3 H2; inversion H2; subst; constructor; eauto. Qed.

Lemma basic_equivalence (p q s : path R) : p_coeffs p = None -> same_shape p q -> same_shape q s ->
  (path_eq req p q = Ok true -> path_eq req q p = Ok true) /\ (path_eq req p q = Ok true -> path_eq req q s = Ok true -> path_eq req p s = Ok true).
Proof.
  intros Hp S1 S2. assert (S1' : same_shape q p) by (unfold same_shape in *; intuition congruence). assert (S3 : same_shape p s).
  { destruct S1 as (a & b & c), S2 as (a' & b' & c'). split; [tauto|]. split; congruence. }
  assert (Hq : p_coeffs q = None) by (apply S1; exact Hp).
  destruct (path_eq_iff p q S1) as (b1 & -> & H1), (path_eq_iff q p S1') as (b2 & -> & H2), (path_eq_iff q s S2) as (b3 & -> & H3), (path_eq_iff p s S3) as (b4 & -> & H4).
  destruct Heqv as (_ & Hs & Ht). rewrite Hp in *. rewrite Hq in *. split.
  - intros E. injection E as E. f_equal. apply H2. apply H1 in E as [E _]. split; [|intros G; congruence]. revert E. apply Forall2_sym. intros; apply Hs; assumption.
  - intros E E'. injection E as E. injection E' as E'. f_equal. apply H4. apply H1 in E as [E _]. apply H3 in E' as [E' _]. split; [|intros G; congruence]. revert E E'. apply Forall2_trans. intros; eapply Ht; eassumption.
Qed.

Lemma equal_hash (rhash : R -> nat) (p q : path R) : (forall a b, req a b = true -> rhash a = rhash b) -> same_shape p q -> p_coeffs p = p_coeffs q ->
  path_eq req p q = Ok true -> hash_key rhash p = hash_key rhash q.
Proof.
  intros Hh S Hc E. destruct (path_eq_iff p q S) as (b & Hb & Hi). rewrite E in Hb. injection Hb as <-. destruct Hi as [Hi _]. destruct (Hi eq_refl) as [H _].
  unfold hash_key. rewrite Hc. f_equal. clear -H Hh. induction H; simpl; [reflexivity|]. f_equal; auto.
Qed.
End Equality.

(* --- C43 --- *)
Definition scaled_path {R} (k : Q) (p : path R) : path R :=
  {| p_rxns := p_rxns p; p_costs := p_costs p; p_coeffs := match p_coeffs p with Some ms => Some (map (Qmult k) ms) | None => None end; p_balanced := p_balanced p |}.

Lemma dot_sum l1 l2 : length l1 = length l2 -> exists d, dot l1 l2 = Ok d /\ (d == Qsum (map (fun mc => fst mc * snd mc) (combine l1 l2)))%Q.
Proof.
  revert l2. induction l1 as [|a l1 IH]; intros [|b l2] H; try discriminate; [exists 0%Q; split; reflexivity|].
  injection H as H. destruct (IH l2 H) as (d & E & Ed). cbn [dot]. rewrite E. eexists. split; [reflexivity|]. cbn. rewrite Ed. reflexivity.
Qed.
Lemma Qsum_pos l : l <> [] -> Forall (fun m => (0 < m)%Q) l -> (0 < Qsum l)%Q.
Proof.
  intros Hn H. induction H as [|x l Hx Hl IH]; [congruence|]. simpl. destruct l as [|y l]; [simpl; lra|]. assert (0 < Qsum (y :: l))%Q by (apply IH; discriminate). lra.
Qed.
Lemma sum_bounds ms cs lo hi : length cs = length ms -> Forall (fun m => (0 < m)%Q) ms -> (forall c, In c cs -> (lo <= c <= hi)%Q) ->
  let d := Qsum (map (fun mc => fst mc * snd mc)%Q (combine ms cs)) in (lo * Qsum ms <= d /\ d <= hi * Qsum ms)%Q.
Proof.
  revert cs. induction ms as [|m ms IH]; intros [|c cs] Hl Hm Hc; try discriminate; cbv zeta; [simpl; lra|].
  injection Hl as Hl. inversion Hm as [|? ? M1 M2]; subst. destruct (IH cs Hl M2) as [I1 I2]; [intros x Hx; apply Hc; right; exact Hx|].
  assert (C0 : (lo <= c <= hi)%Q) by (apply Hc; left; reflexivity). cbn [combine map Qsum fold_right fst snd] in *. unfold Qsum in *. cbn [fold_right].
  assert (lo * m <= m * c /\ m * c <= hi * m)%Q by nra. nra.
Qed.
Lemma scaled_sum k ms : (Qsum (map (Qmult k) ms) == k * Qsum ms)%Q.
Proof. induction ms as [|m ms IH]; [cbn; ring|]. cbn [map Qsum fold_right] in *. unfold Qsum in *. cbn [fold_right]. rewrite IH. ring. Qed.
Lemma scaled_dot k ms cs : (Qsum (map (fun mc => fst mc * snd mc)%Q (combine (map (Qmult k) ms) cs)) == k * Qsum (map (fun mc => fst mc * snd mc)%Q (combine ms cs)))%Q.
Proof.
  revert cs. induction ms as [|m ms IH]; intros [|c cs]; try (cbn; ring). cbn [map combine]. change (Qsum (?a :: ?l)) with (a + Qsum l)%Q. rewrite IH. cbn [fst snd]. ring.
Qed.

Lemma average_spec {R} (p : path R) ms : p_coeffs p = Some ms -> ms <> [] -> length (p_costs p) = length ms -> Forall (fun m => (0 < m)%Q) ms ->
  exists a, average_cost p = Ok a
  /\ (a * Qsum ms == Qsum (map (fun mc => fst mc * snd mc) (combine ms (p_costs p))))%Q
  /\ (forall lo hi, (forall c, In c (p_costs p) -> (lo <= c <= hi)%Q) -> (lo <= a <= hi)%Q)
  /\ (forall k, (0 < k)%Q -> exists a', average_cost (scaled_path k p) = Ok a' /\ (a' == a)%Q).
Proof.
  intros Hc Hn Hl Hm. pose proof (Qsum_pos ms Hn Hm) as Hp. destruct (dot_sum ms (p_costs p)) as (d & Ed & Hd); [congruence|].
  assert (Z : Qeq_bool (Qsum ms) 0 = false). { destruct (Qeq_bool (Qsum ms) 0) eqn:E; [apply Qeq_bool_iff in E; lra|reflexivity]. }
  exists (d / Qsum ms)%Q. unfold average_cost. rewrite Hc, Ed. cbn [bind]. rewrite Z. split; [reflexivity|]. split; [|split].
  - rewrite <- Hd. field. lra.
  - intros lo hi H. destruct (sum_bounds ms (p_costs p) lo hi Hl Hm H) as [B1 B2]. rewrite <- Hd in B1, B2. split.
    + apply Qle_shift_div_l; [exact Hp|exact B1].
    + apply Qle_shift_div_r; [exact Hp|exact B2].
  - intros k Hk. unfold scaled_path. cbn [p_coeffs p_costs]. rewrite Hc. destruct (dot_sum (map (Qmult k) ms) (p_costs p)) as (d' & Ed' & Hd'); [rewrite map_length; congruence|].
    rewrite Ed'. cbn [bind]. assert (Z' : Qeq_bool (Qsum (map (Qmult k) ms)) 0 = false).
    { destruct (Qeq_bool (Qsum (map (Qmult k) ms)) 0) eqn:E; [|reflexivity]. apply Qeq_bool_iff in E. rewrite scaled_sum in E. nra. }
    rewrite Z'. eexists. split; [reflexivity|]. rewrite Hd', Hd, scaled_dot, scaled_sum. field. lra.
Qed.

(* --- C40, C75 --- *)
Lemma py_index_spec {R} (req : R -> R -> bool) x l : (exists y, In y l /\ req y x = true) ->
  exists i y, py_index req x l = Ok i /\ nth_error l i = Some y /\ req y x = true.
Proof.
  induction l as [|z l IH]; intros (y & Hy & E); [destruct Hy|]. cbn [py_index]. destruct (req z x) eqn:Ez; [exists 0, z; auto|].
  destruct IH as (i & w & I1 & I2 & I3). { destruct Hy as [->|Hy]; [congruence|]. exists y. auto. }
  exists (S i), w. rewrite I1. cbn [bind]. auto.
Qed.

Lemma pathset_spec req arrange (paths : list (path srxn)) : arranges arrange -> (forall r, req r r = true) ->
  let rxns := flat_map p_rxns paths in
  (forall x y, In x (all_entries rxns) -> In y (all_entries rxns) -> uid x = uid y -> x = y) ->
  (forall r, In r rxns -> length (x_coeffs r) = length (x_entries r)) ->
  (forall r, In r rxns -> x_mu r = None) \/ (exists el q, forall r, In r rxns -> x_mu r = Some [(el, q)]) ->
  exists ps out, from_paths req arrange paths = Ok ps /\ pathset_len ps = length paths /\ get_paths ps = Ok out
  /\ Forall2 (fun p p' => Forall2 (fun r r' => req r' r = true /\ In r' rxns) (p_rxns p) (p_rxns p') /\ p_costs p' = p_costs p /\ p_coeffs p' = p_coeffs p /\ p_balanced p' = false) paths out.
Proof.
  intros Ha Hr rxns Hu Hl Hmu. destruct (round_trip arrange rxns [] 0%Q Ha (or_introl eq_refl) Hu Hl Hmu) as (s & out & E1 & _ & E2 & P & _).
  unfold from_paths. fold rxns. rewrite E1. cbn [bind]. rewrite E2. cbn [bind].
  assert (Hidx : exists idx, mapM (fun p => mapM (fun r => py_index req r out) (p_rxns p)) paths = Ok idx
      /\ Forall2 (fun p is => Forall2 (fun r i => exists r', nth_error out i = Some r' /\ req r' r = true /\ In r' rxns) (p_rxns p) is) paths idx).
  { assert (G : forall ps, (forall p, In p ps -> In p paths) -> exists idx, mapM (fun p => mapM (fun r => py_index req r out) (p_rxns p)) ps = Ok idx
      /\ Forall2 (fun p is => Forall2 (fun r i => exists r', nth_error out i = Some r' /\ req r' r = true /\ In r' rxns) (p_rxns p) is) ps idx).
    { induction ps as [|p ps IH]; intros Hin; [exists []; split; [reflexivity|constructor]|]. destruct IH as (idx & I1 & I2); [intros q Hq; apply Hin; right; exact Hq|].
      assert (J : forall rl, (forall r, In r rl -> In r rxns) -> exists is, mapM (fun r => py_index req r out) rl = Ok is /\ Forall2 (fun r i => exists r', nth_error out i = Some r' /\ req r' r = true /\ In r' rxns) rl is).
      { induction rl as [|r rl IHr]; intros Hrl; [exists []; split; [reflexivity|constructor]|]. destruct IHr as (is & J1 & J2); [intros q Hq; apply Hrl; right; exact Hq|].
        assert (Ir : In r rxns) by (apply Hrl; left; reflexivity). destruct (py_index_spec req r out) as (i & y & K1 & K2 & K3).
        { exists r. split; [apply (Permutation_in _ (Permutation_sym P) Ir)|apply Hr]. }
        exists (i :: is). cbn [mapM]. rewrite K1, J1. split; [reflexivity|]. constructor; [|exact J2]. exists y. split; [exact K2|]. split; [exact K3|]. apply (Permutation_in _ P). apply (nth_error_In _ _ K2). }
      destruct (J (p_rxns p)) as (is & J1 & J2). { intros r H. unfold rxns. apply in_flat_map. exists p. split; [apply Hin; left; reflexivity|exact H]. }
      exists (is :: idx). cbn [mapM]. rewrite J1, I1. split; [reflexivity|]. constructor; assumption. }
    apply G. auto. }
  destruct Hidx as (idx & I1 & I2). rewrite I1. cbn [bind].
  exists {| s_rset := s; s_indices := idx; s_coeffs := map p_coeffs paths; s_costs := map p_costs paths |}. unfold get_paths, pathset_len. cbn [s_rset s_indices s_coeffs s_costs]. rewrite E2. cbn [bind].
  clear I1 Hu Hl Hmu E1 P.
  assert (Hget : exists res, mapM (fun t => let '(idx, co, cs) := t in bind (mapM (index out) idx) (fun rs => Ok {| p_rxns := rs; p_costs := cs; p_coeffs := co; p_balanced := false |})) (zip3 idx (map p_coeffs paths) (map p_costs paths)) = Ok res
    /\ Forall2 (fun p p' => Forall2 (fun r r' => req r' r = true /\ In r' rxns) (p_rxns p) (p_rxns p') /\ p_costs p' = p_costs p /\ p_coeffs p' = p_coeffs p /\ p_balanced p' = false) paths res).
  { clearbody rxns. induction I2 as [|p is ps idx H HF IH]; [exists []; split; [reflexivity|constructor]|]. destruct IH as (res & R1 & R2).
    assert (J : exists rs, mapM (index out) is = Ok rs /\ Forall2 (fun r r' => req r' r = true /\ In r' rxns) (p_rxns p) rs).
    { clear -H. induction H as [|r i rl is (r' & H1 & H2 & H3) HF IH]; [exists []; split; [reflexivity|constructor]|]. destruct IH as (rs & J1 & J2). exists (r' :: rs). cbn [mapM]. unfold index at 1. rewrite H1, J1. split; [reflexivity|]. constructor; auto. }
    destruct J as (rs & J1 & J2). exists ({| p_rxns := rs; p_costs := p_costs p; p_coeffs := p_coeffs p; p_balanced := false |} :: res).
    unfold zip3 in *. cbn [map combine mapM]. rewrite J1. cbn [bind]. rewrite R1. split; [reflexivity|]. constructor; [|exact R2]. cbn. auto. }
  destruct Hget as (res & G1 & G2). exists res. split; [reflexivity|]. split; [symmetry; apply (Forall2_length _ _ _ I2)|]. split; [exact G1|exact G2].
Qed.

(* --- C76 --- *)
Lemma comp_matrix_fails {R} (rs ps : R -> list nat) (p : path R) : (exists c, formed ps p c \/ consumed rs p c) -> get_comp_matrix rs ps p = Err AttributeError.
Proof.
  intros (c & Hc). destruct (species_spec rs ps p) as (_ & _ & _ & F & _). assert (Hin : In c (path_comps rs ps p)) by (apply F; exact Hc).
  unfold get_comp_matrix. destruct (p_rxns p) as [|r rl] eqn:E; [|destruct (path_comps rs ps p); [destruct Hin|reflexivity]].
  unfold formed, consumed in Hc. rewrite E in Hc. destruct Hc as [(r & [] & _)|(r & [] & _)].
Qed.

(* --- C74 --- *)
Lemma combine_seq (f : nat -> Q) ks cs s : length ks = length cs ->
  (sumQ (fun kc => fst kc * f (snd kc)) (combine ks cs) == sumQ (fun j => nth (j - s) ks 0 * f (nth (j - s) cs 0%nat)) (seq s (length cs)))%Q.
Proof.
  revert ks s. induction cs as [|c cs IH]; intros [|k ks] s H; try discriminate; [reflexivity|]. injection H as H.
  cbn [combine length seq]. rewrite !sumQ_cons. rewrite Nat.sub_diag. cbn [nth fst snd]. apply Qplus_comp; [reflexivity|].
  rewrite (IH ks (S s) H). apply sumQ_ext. intros j Hj. apply in_seq in Hj. replace (j - s) with (S (j - S s)) by lia. reflexivity.
Qed.
Lemma energy_seq C es ks n : length ks = length es ->
  exists e, energy C (RComputed (computed_init C es ks n)) = Ok e
  /\ (e == sumQ (fun j => nth j ks 0 * val C e_energy es (nth j (map (fun x => red C (e_comp x)) es) 0%nat)) (seq 0 (length es)))%Q.
Proof.
  intros H. cbn [energy]. unfold computed_energy, computed_init. cbn [c_entries c_base]. rewrite energy_built. eexists. split; [reflexivity|].
  rewrite (combine_seq (val C e_energy es) ks (map (fun x => red C (e_comp x)) es) 0) by (rewrite map_length; exact H). rewrite map_length. apply sumQ_ext. intros j _. rewrite Nat.sub_0_r. reflexivity.
Qed.

Lemma net_energy C es kss ms net n : (forall ks, In ks kss -> length ks = length es) -> length ms = length kss -> length net = length es ->
  (forall j, j < length es -> (nth j net 0 == weighted ms kss j)%Q) ->
  exists e Es, energy C (RComputed (computed_init C es net n)) = Ok e
  /\ mapM (energy C) (map (fun ks => RComputed (computed_init C es ks n)) kss) = Ok Es
  /\ (e == Qsum (map (fun mE => fst mE * snd mE) (combine ms Es)))%Q /\ length Es = length ms.
Proof.
  intros Hk Hm Hn Hw. destruct (energy_seq C es net n Hn) as (e & Ee & He). set (v := fun j => val C e_energy es (nth j (map (fun x => red C (e_comp x)) es) 0%nat)) in *.
  assert (He' : (e == sumQ (fun j => weighted ms kss j * v j) (seq 0 (length es)))%Q).
  { rewrite He. apply sumQ_ext. intros j Hj. apply in_seq in Hj. rewrite Hw by lia. reflexivity. }
  assert (G : exists Es, mapM (energy C) (map (fun ks => RComputed (computed_init C es ks n)) kss) = Ok Es
    /\ (sumQ (fun j => weighted ms kss j * v j) (seq 0 (length es)) == Qsum (map (fun mE => fst mE * snd mE) (combine ms Es)))%Q /\ length Es = length ms).
  { clear -Hk Hm. revert ms Hm. induction kss as [|ks kss IH]; intros [|m ms] Hm; try discriminate.
    - exists []. split; [reflexivity|]. split; [|reflexivity]. cbn. apply sumQ_all_zero. intros j _. unfold weighted. cbn. ring.
    - injection Hm as Hm. destruct (energy_seq C es ks n (Hk ks (or_introl eq_refl))) as (e1 & E1 & H1). fold v in H1.
      destruct (IH (fun x Hx => Hk x (or_intror Hx)) ms Hm) as (Es & J1 & J2 & J3).
      exists (e1 :: Es). cbn [map mapM]. rewrite E1, J1. split; [reflexivity|]. split; [|cbn; congruence].
      cbn [combine map]. change (Qsum (?a :: ?l)) with (a + Qsum l)%Q. rewrite <- J2. cbn [fst snd].
      rewrite H1, <- sumQ_scale_l, <- sumQ_add. apply sumQ_ext. intros j _. unfold weighted. cbn [combine map fst snd]. change (Qsum (?a :: ?l)) with (a + Qsum l)%Q. fold (v j). unfold v. ring. }
  destruct G as (Es & G1 & G2 & G3). exists e, Es. split; [exact Ee|]. split; [exact G1|]. split; [rewrite He'; exact G2|exact G3].
Qed.

Lemma unit_energy C es kss net n p : (forall ks, In ks kss -> length ks = length es) -> length net = length es ->
  (forall j, j < length es -> (nth j net 0 == weighted (repeat 1 (length kss)) kss j)%Q) ->
  p_rxns p = map (fun ks => RComputed (computed_init C es ks n)) kss ->
  exists e e', path_energy C p = Ok e /\ energy C (RComputed (computed_init C es net n)) = Ok e' /\ (e == e')%Q.
Proof.
  intros Hk Hn Hw Hp. destruct (net_energy C es kss (repeat 1%Q (length kss)) net n Hk (repeat_length _ _) Hn Hw) as (e & Es & E1 & E2 & E3 & E4).
  unfold path_energy. rewrite Hp, E2. cbn [bind]. eexists. eexists. split; [reflexivity|]. split; [exact E1|]. rewrite E3. rewrite repeat_length in E4. rewrite <- E4. clear.
  induction Es as [|x Es IH]; [reflexivity|]. cbn [length repeat combine map fst snd]. change (Qsum (?a :: ?l)) with (a + Qsum l)%Q. rewrite <- IH. ring.
Qed.

(* --- the coefficients of a reaction along the phases of a pathway, total cost --- *)
Lemma first_index c l : In c l -> exists i, list_index c l = Ok i /\ nth_error l i = Some c /\ (forall j, j < i -> nth_error l j <> Some c).
Proof.
  induction l as [|y l IH]; intros H; [destruct H|]. cbn. destruct (Nat.eqb_spec c y) as [->|N].
  - exists 0. split; [reflexivity|]. split; [reflexivity|]. intros j L. lia.
  - destruct H as [->|H]; [congruence|]. destruct (IH H) as (i & -> & E & F). exists (S i). split; [reflexivity|]. split; [exact E|].
    intros [|j] L; cbn; [congruence|]. apply F. lia.
Qed.
Lemma vector_spec (p : path brxn) r : length (coeffs r) = length (comps r) ->
  exists v, get_coeff_vector_for_rxn p r = Ok v
  /\ Forall2 (fun c k => (~ In c (comps r) /\ k = 0%Q)
       \/ (exists i, nth_error (comps r) i = Some c /\ (forall j, j < i -> nth_error (comps r) j <> Some c) /\ nth_error (coeffs r) i = Some k))
       (path_comps reactants products p) v.
Proof.
  intros L. unfold get_coeff_vector_for_rxn. induction (path_comps reactants products p) as [|c l (v & E & F)]; [exists []; split; [reflexivity|constructor]|].
  cbn [mapM]. destruct (memb Nat.eqb c (comps r)) eqn:M.
  - apply memb_iff in M. destruct (first_index c _ M) as (i & I & N & U). unfold get_coeff at 1. rewrite I. cbn [bind].
    assert (K : i < length (coeffs r)) by (rewrite L; apply nth_error_Some; congruence). destruct (nth_error (coeffs r) i) as [k|] eqn:EK; [|apply nth_error_None in EK; lia].
    unfold index. rewrite EK. cbn [bind]. rewrite E. exists (k :: v). split; [reflexivity|]. constructor; [right; exists i; tauto|exact F].
  - cbn [bind]. rewrite E. exists (0%Q :: v). split; [reflexivity|]. constructor; [left; split; [|reflexivity]|exact F].
    intros I. apply memb_iff in I. congruence.
Qed.
Lemma total_spec {R} (p : path R) : (p_costs p = [] -> (total_cost p == 0)%Q)
  /\ (forall c l, p_costs p = c :: l -> (total_cost p == c + total_cost {| p_rxns := p_rxns p; p_costs := l; p_coeffs := p_coeffs p; p_balanced := p_balanced p |})%Q)
  /\ (forall m a, p_coeffs p = Some (repeat m (length (p_costs p))) -> (0 < m)%Q -> average_cost p = Ok a -> (a * inject_Z (Z.of_nat (length (p_costs p))) == total_cost p)%Q).
Proof.
  unfold total_cost. split; [intros ->; reflexivity|]. split; [intros c l ->; reflexivity|]. intros m a E M.
  assert (S : forall l : list Q, (Qsum (repeat m (length l)) == m * inject_Z (Z.of_nat (length l)))%Q).
  { induction l as [|x l IH]; [cbn; ring|]. cbn [length repeat Qsum fold_right]. change (fold_right Qplus 0%Q (repeat m (length l))) with (Qsum (repeat m (length l))).
    rewrite IH, Nat2Z.inj_succ. unfold Z.succ. rewrite inject_Z_plus. change (inject_Z 1) with 1%Q. ring. }
  unfold average_cost. rewrite E. destruct (dot_sum (repeat m (length (p_costs p))) (p_costs p)) as (d & Ed & Hd); [rewrite repeat_length; reflexivity|].
  rewrite Ed. cbn [bind]. destruct (Qeq_bool _ _) eqn:Z; [discriminate|]. intros H. injection H as <-. apply Qeq_bool_neq in Z. rewrite S in Z. rewrite S.
  assert (D : (d == m * Qsum (p_costs p))%Q).
  { rewrite Hd. clear. induction (p_costs p) as [|x l IH]; [cbn; ring|]. cbn. unfold Qsum in *. cbn in IH. rewrite IH. ring. }
  rewrite D. field. split; intros Q0; apply Z; rewrite Q0; ring.
Qed.
