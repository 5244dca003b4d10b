(* Balancing with the exact rank, and the enumerator with it. *)
From Coq Require Import Setoid Lqa Field Permutation.
From Verif Require Import Prelude ListFacts NumQ UtilsModel UtilsSpec UtilsProofs SumQ ReactionModel ReactionSpec ReactionBaseProofs ReactionBalanceProofs
  EnumModel EnumSpec EnumLinkModel EnumLinkProofs EnumRealProofs EnumOrderProofs LinModel LinSpec LinProofs.
Open Scope nat_scope.

(* --- the rank --- *)
Lemma zero_combo m xs vs u : (forall v, In v vs -> length v = m) -> length u = m -> (dot (lincomb m (0%Q :: xs) (u :: vs)) (lincomb m (0%Q :: xs) (u :: vs)) == dot (lincomb m xs vs) (lincomb m xs vs))%Q.
Proof.
  intros H L. cbn [lincomb]. assert (Ll : length (lincomb m xs vs) = m) by (apply lincomb_length; exact H).
  rewrite dot_add by (rewrite scale_length; congruence). rewrite dot_scale.
  rewrite (dot_comm (lincomb m xs vs)). rewrite dot_add by (rewrite scale_length; congruence). rewrite dot_scale. ring.
Qed.
Lemma sub_lincomb m xs vs v : (forall v, In v vs -> length v = m) -> length v = m -> length xs = length vs ->
  forall w, (dot (lincomb m (1%Q :: map Qopp xs) (v :: vs)) w == dot (sub v (lincomb m xs vs)) w)%Q.
Proof.
  intros H L Lx w. cbn [lincomb]. rewrite dot_add by (rewrite scale_length, lincomb_length by exact H; exact L). rewrite dot_scale, dot_sub by (rewrite lincomb_length by exact H; exact L).
  rewrite !lincomb_dot by exact H. assert (E : (sumQ (fun xv => fst xv * dot (snd xv) w) (combine (map Qopp xs) vs) == (-1) * sumQ (fun xv => fst xv * dot (snd xv) w) (combine xs vs))%Q).
  { clear. revert vs. induction xs as [|x xs IH]; intros [|v vs]; cbn [map combine]; try (cbn [sumQ fold_right]; ring). rewrite !sumQ_cons, IH. cbn [fst snd]. ring. }
  rewrite E. ring.
Qed.
Lemma dependent_one m vs : (forall v, In v vs -> length v = m) -> span_rank m vs < length vs ->
  exists x b, length x = length vs /\ b < length vs /\ (nth b x 0 == 1)%Q /\ (dot (lincomb m x vs) (lincomb m x vs) == 0)%Q.
Proof.
  induction vs as [|v vs IH]; intros H R; [cbn in R; lia|]. assert (H' : forall v, In v vs -> length v = m) by (intros u Hu; apply H; right; exact Hu).
  assert (Lv : length v = m) by (apply H; left; reflexivity). cbn [span_rank length] in R. fold (rest m vs v) in R.
  destruct (Qeq_bool (dot (rest m vs v) (rest m vs v)) 0) eqn:E.
  - apply Qeq_bool_iff in E. exists (1%Q :: map Qopp (project m vs v)), 0. cbn [length nth]. rewrite map_length, project_length. split; [reflexivity|]. split; [lia|]. split; [reflexivity|].
    rewrite (sub_lincomb m _ vs v H' Lv (project_length m vs v)). fold (rest m vs v). apply dot_zero. exact E.
  - destruct (IH H' ltac:(lia)) as (x & b & Lx & Hb & Nb & Z). exists (0%Q :: x), (S b). cbn [length nth]. split; [lia|]. split; [lia|]. split; [exact Nb|].
    rewrite zero_combo by assumption. exact Z.
Qed.
Lemma dependent_two m vs : (forall v, In v vs -> length v = m) -> S (span_rank m vs) < length vs ->
  exists x a b, length x = length vs /\ a < length vs /\ b < length vs /\ (nth a x 0 == 0)%Q /\ (nth b x 0 == 1)%Q /\ (dot (lincomb m x vs) (lincomb m x vs) == 0)%Q.
Proof.
  destruct vs as [|v vs]; intros H R; [cbn in R; lia|]. assert (H' : forall v, In v vs -> length v = m) by (intros u Hu; apply H; right; exact Hu).
  assert (Lv : length v = m) by (apply H; left; reflexivity). cbn [span_rank length] in R.
  destruct (dependent_one m vs H') as (x & b & Lx & Hb & Nb & Z); [destruct (Qeq_bool _ _); lia|].
  exists (0%Q :: x), 0, (S b). cbn [length nth]. split; [lia|]. split; [lia|]. split; [lia|]. split; [reflexivity|]. split; [exact Nb|]. rewrite zero_combo by assumption. exact Z.
Qed.

Section Balance.
Variable C : chem.
Hypothesis W : wf_chem C.

Lemma null_conserves cs x : length x = length cs ->
  (dot (lincomb (length (element_rows C cs)) x (columns (element_rows C cs) (length cs))) (lincomb (length (element_rows C cs)) x (columns (element_rows C cs) (length cs))) == 0)%Q ->
  conserves C cs x.
Proof.
  intros L Z. set (sys := element_rows C cs) in *.
  assert (Hs : forall q, In q sys -> length (fst q) = length cs) by (intros q Hq; apply in_map_iff in Hq as (e & <- & _); apply map_length).
  pose proof (dot_zero _ Z (map (fun q => dot (fst q) x) sys)) as O. rewrite (columns_dot sys (length cs) Hs x L) in O.
  assert (P : (sumQ (fun q => sq (dot (fst q) x)) sys <= 0)%Q) by (apply Qle_lteq; right; exact O).
  pose proof (sum_sq_zero (fun q => dot (fst q) x) sys P) as Hx. cbv beta in Hx.
  split; [exact L|]. intros e. destruct (in_dec Nat.eq_dec e (all_elems C cs)) as [I|I].
  - rewrite net_dot. apply (Hx (map (fun c => amt C c e) cs, 0%Q)). unfold sys, element_rows. apply in_map_iff. exists e. split; [reflexivity|exact I].
  - apply (net_unlisted C W). rewrite combine_fst by (symmetry; exact L). intros H. apply I. unfold all_elems. apply nodup_In. exact H.
Qed.
Theorem exact_rank_bound rs ps v : only_combination C (rs ++ ps) v -> length rs + length ps <= S (exact_rank C rs ps).
Proof.
  intros ((Lv & Hv) & Hnz & Honly). unfold exact_rank. set (cs := rs ++ ps) in *. set (sys := element_rows C cs) in *.
  destruct (Nat.le_gt_cases (length rs + length ps) (S (span_rank (length sys) (columns sys (length cs))))) as [L|L]; [exact L|exfalso].
  assert (Lc : length (columns sys (length cs)) = length cs) by (unfold columns; rewrite map_length, seq_length; reflexivity).
  assert (Ln : length cs = length rs + length ps) by apply app_length.
  destruct (dependent_two (length sys) (columns sys (length cs))) as (x & a & b & Lx & Ha & Hb & Na & Nb & Z).
  - intros u Hu. unfold columns in Hu. apply in_map_iff in Hu as (j & <- & _). apply map_length.
  - eapply Nat.lt_le_trans; [exact L|]. rewrite <- Ln. apply Nat.eq_le_incl. symmetry. exact Lc.
  - destruct (Honly x) as [t M]; [apply null_conserves; [rewrite Lx; exact Lc|exact Z]|]. rewrite (multiple_nth _ _ _ M) in Na, Nb.
    assert (Hva : ~ (nth a v 0 == 0)%Q) by (apply Hnz, nth_in_nonzero; rewrite Lv; eapply Nat.lt_le_trans; [exact Ha|apply Nat.eq_le_incl; exact Lc]). apply Qmult_integral in Na as [T|T]; [|contradiction]. rewrite T in Nb. lra.
Qed.

Lemma exact_fits rs ps rank c : tried (length rs) (length ps) rank c -> best_fit C (rs ++ ps) (length rs) c (exact_solve C rs ps c).
Proof. intros H. apply exact_solve_fits. rewrite app_length. eapply tried_side. exact H. Qed.

(* BasicReaction.balance *)
Theorem determined_balance rs ps v solve rank : only_combination C (rs ++ ps) v -> 2 <= length rs + length ps -> length rs + length ps <= S rank ->
  (forall c, tried (length rs) (length ps) rank c -> best_fit C (rs ++ ps) (length rs) c (solve c)) ->
  exists r t, basic_balance C rs ps solve rank = Ok r /\ comps r = rs ++ ps /\ balanced r = true /\ ~ (t == 0)%Q /\ multiple t v (coeffs r)
  /\ (exists i, i < length (coeffs r) /\ (nth i (coeffs r) 0 == if length rs <=? i then 1 else -1)%Q)
  /\ (num_errors r = Some 0 <-> sides (length rs) v \/ sides (length rs) (map Qopp v)).
Proof.
  intros H H2 Hr Hfit. destruct (determined_coeffs C W rs ps v solve rank H H2 Hr Hfit) as (ks & m & t & E & Tn & M & One & _ & Z).
  unfold basic_balance. rewrite E. replace (Nat.eqb (length (rs ++ ps)) 1) with false by (symmetry; apply Nat.eqb_neq; rewrite app_length; lia).
  eexists _, t. split; [reflexivity|]. cbn [comps balanced coeffs num_errors basic_init]. split; [reflexivity|]. split; [reflexivity|]. split; [exact Tn|]. split; [exact M|]. split; [exact One|].
  rewrite <- Z. split; [intros G; injection G; auto|intros ->; reflexivity].
Qed.
Theorem exact_determined rs ps v : only_combination C (rs ++ ps) v -> 2 <= length rs + length ps ->
  exists r t, exact_balance C rs ps = Ok r /\ comps r = rs ++ ps /\ balanced r = true /\ ~ (t == 0)%Q /\ multiple t v (coeffs r)
  /\ (exists i, i < length (coeffs r) /\ (nth i (coeffs r) 0 == if length rs <=? i then 1 else -1)%Q)
  /\ (num_errors r = Some 0 <-> sides (length rs) v \/ sides (length rs) (map Qopp v)).
Proof. intros H H2. apply determined_balance; [exact H|exact H2|exact (exact_rank_bound rs ps v H)|]. intros c Hc. exact (exact_fits rs ps _ c Hc). Qed.

(* ComputedReaction.balance and reverse, as the enumerators see them *)
Lemma init_seen cs ks n : NoDup cs -> length cs = length ks -> (forall e, (net C (combine cs ks) e == 0)%Q) -> (exists i, i < length ks /\ ~ (nth i ks 0 == 0)%Q) ->
  balanced (basic_init C cs ks None n) = true /\ is_identity (basic_init C cs ks None n) = false.
Proof.
  intros Hn Hl Hz (i & Hi & Hk).
  assert (B : balanced (basic_init C cs ks None n) = true).
  { apply (flag_iff C W); [exact Hn|exact Hl|]. intros e. rewrite <- net_sides, Hz. vm_compute. discriminate. }
  split; [exact B|]. unfold is_identity, reactants, products. rewrite (reactant_coeffs_nodup C cs ks None n Hn Hl), (product_coeffs_nodup C cs ks None n Hn Hl).
  set (rr := map fst (filter _ _)) at 1. set (pp := map fst (filter _ _)).
  assert (U : forall c a b, In (c, a) (combine cs ks) -> In (c, b) (combine cs ks) -> a = b).
  { intros c a b Ha Hb. assert (N : NoDup (map fst (combine cs ks))) by (rewrite combine_fst by exact Hl; exact Hn). revert Ha Hb N. clear. generalize (combine cs ks). intros l. induction l as [|[c' k'] l IH]; intros Ha Hb N; [destruct Ha|].
    inversion N as [|? ? N1 N2]; subst. destruct Ha as [Ha|Ha], Hb as [Hb|Hb].
    - congruence.
    - injection Ha as -> ->. exfalso. apply N1. apply (in_map fst) in Hb. exact Hb.
    - injection Hb as -> ->. exfalso. apply N1. apply (in_map fst) in Ha. exact Ha.
    - apply IH; assumption. }
  assert (I : In (nth i cs 0, nth i ks 0%Q) (combine cs ks)) by (rewrite <- combine_nth by exact Hl; apply nth_In; rewrite combine_length; lia).
  destruct (ReactionModel.same_set rr pp) eqn:S; [exfalso|reflexivity]. unfold ReactionModel.same_set in S. apply andb_true_iff in S as [S1 S2]. rewrite forallb_forall in S1, S2.
  destruct (Q_dec (nth i ks 0%Q) 0%Q) as [[L|L]|L]; [| |contradiction].
  - assert (Ir : In (nth i cs 0) rr) by (unfold rr; apply in_map_iff; exists (nth i cs 0, nth i ks 0%Q); split; [reflexivity|]; apply filter_In; split; [exact I|apply Qlt_bool_iff'; exact L]).
    apply S1, memb_iff in Ir. unfold pp in Ir. apply in_map_iff in Ir as ([c k] & Ec & Ir). cbn [fst] in Ec. subst c. apply filter_In in Ir as [Ir Lk]. apply Qlt_bool_iff' in Lk. cbn [snd] in Lk.
    rewrite (U _ _ _ I Ir) in L. lra.
  - assert (Ir : In (nth i cs 0) pp) by (unfold pp; apply in_map_iff; exists (nth i cs 0, nth i ks 0%Q); split; [reflexivity|]; apply filter_In; split; [exact I|apply Qlt_bool_iff'; exact L]).
    apply S2, memb_iff in Ir. unfold rr in Ir. apply in_map_iff in Ir as ([c k] & Ec & Ir). cbn [fst] in Ec. subst c. apply filter_In in Ir as [Ir Lk]. apply Qlt_bool_iff' in Lk. cbn [snd] in Lk.
    rewrite (U _ _ _ I Ir) in L. lra.
Qed.

(* --- the enumerator --- *)
Variable ent : nat -> entry.
Notation form := (formula C ent).
Notation fwd := (forward_rxn C ent (entry_solve C ent) (entry_rank C ent)).
Notation bwd := (backward_rxn C ent (entry_solve C ent) (entry_rank C ent)).

Lemma entry_solve_length r p c : length (entry_solve C ent r p c) = length r + length p.
Proof. unfold entry_solve. rewrite exact_solve_length, !map_length. reflexivity. Qed.

Definition fine (x : erxn) : Prop := er_identity x = false /\ er_balanced x = true /\ er_errors x = Some 0 /\ er_constraints x = 1.
Lemma found r p v : r <> [] -> p <> [] -> NoDup (map form (r ++ p)) -> only_combination C (map form (r ++ p)) v ->
  sides (length r) v \/ sides (length r) (map Qopp v) -> fine (fwd r p) /\ fine (bwd r p).
Proof.
  intros Hr Hp Hn Hv Hs. assert (L2 : 2 <= length r + length p) by (destruct r; [contradiction|]; destruct p; [contradiction|]; cbn [length]; lia).
  rewrite map_app in Hn, Hv. set (rc := map form r) in *. set (pc := map form p) in *.
  assert (Lr : length rc = length r) by apply map_length. assert (Lp : length pc = length p) by apply map_length.
  pose proof (exact_rank_bound rc pc v Hv) as Rk.
  destruct (determined_coeffs C W rc pc v (entry_solve C ent r p) (entry_rank C ent r p) Hv ltac:(lia) Rk) as (ks & m & t & E & Tn & M & (i & Hi & One) & _ & Z).
  { intros c Hc. apply exact_fits in Hc. exact Hc. }
  rewrite Lr in Z. apply Z in Hs. subst m. pose proof Hv as ((Lv & Nv) & _ & _). rewrite app_length in Lv.
  assert (Lk : length (rc ++ pc) = length ks) by (rewrite <- (Forall2_length _ _ _ M), app_length; lia).
  assert (Nk : forall e, (net C (combine (rc ++ pc) ks) e == 0)%Q) by (intros e; rewrite (net_multiple C _ _ _ (rc ++ pc) e M), Nv; ring).
  assert (K1 : ~ (nth i ks 0 == 0)%Q) by (rewrite One; destruct (_ <=? _); lra).
  assert (Ec : map (fun e => red C (e_comp e)) (map ent r ++ map ent p) = rc ++ pc) by (rewrite map_app, !map_map; reflexivity).
  assert (Nc : num_constraints (length r) (length p) (entry_rank C ent r p) = 1).
  { unfold num_constraints. destruct (Nat.leb_spec 2 (length r + length p - entry_rank C ent r p)) as [G|G]; [|reflexivity]. unfold entry_rank in *. fold rc pc in G. lia. }
  assert (Er : map (fun e => red C (e_comp e)) (map ent r) = rc) by apply map_map. assert (Ep : map (fun e => red C (e_comp e)) (map ent p) = pc) by apply map_map.
  unfold forward_rxn, backward_rxn, real_balance, computed_balance. rewrite Er, Ep, E.
  replace (Nat.eqb (length (map ent r) + length (map ent p)) 1) with false by (symmetry; apply Nat.eqb_neq; rewrite !map_length; lia).
  unfold fine, seen_by_react, computed_reverse, computed_init. cbn [er_identity er_balanced er_errors er_constraints c_base c_entries coeffs num_errors basic_init].
  rewrite Ec, Nc. change (basic_init C (rc ++ pc) ks None (Some 0)) with (basic_init C (rc ++ pc) ks None (Some 0)).
  destruct (init_seen (rc ++ pc) ks (Some 0) Hn Lk Nk) as [B I]; [exists i; split; [exact Hi|exact K1]|].
  set (ks' := map (fun q => (-1) * q)%Q ks). assert (M' : multiple (-1) ks ks') by apply multiple_map.
  destruct (init_seen (rc ++ pc) ks' (Some 0) Hn) as [B' I'].
  - unfold ks'. rewrite map_length. exact Lk.
  - intros e. rewrite (net_multiple C _ _ _ (rc ++ pc) e M'), Nk. ring.
  - exists i. split; [unfold ks'; rewrite map_length; exact Hi|]. rewrite (multiple_nth _ _ _ M' i). intros G. apply K1. lra.
  - split; (split; [assumption|split; [assumption|split; reflexivity]]).
Qed.

Lemma net_swap a b x y e : length a = length x -> length b = length y -> (net C (combine (a ++ b) (x ++ y)) e == net C (combine (b ++ a) (y ++ x)) e)%Q.
Proof. intros La Lb. rewrite !combine_app by assumption. unfold net. rewrite !sumQ_app. ring. Qed.
Lemma multiple_app t a b x y : multiple t a x -> multiple t b y -> multiple t (a ++ b) (x ++ y).
Proof. intros H1 H2. apply Forall2_app; assumption. Qed.
Lemma only_swap a b x y : length a = length x -> length b = length y -> only_combination C (a ++ b) (x ++ y) -> only_combination C (b ++ a) (y ++ x).
Proof.
  intros La Lb ((L & Hz) & Hn & Ho). split; [|split].
  - split; [rewrite !app_length in *; lia|]. intros e. rewrite <- net_swap by assumption. apply Hz.
  - intros k Hk. apply Hn. apply in_app_iff. apply in_app_iff in Hk. tauto.
  - intros w (Lw & Hw). rewrite app_length in Lw. remember (firstn (length b) w) as wb eqn:Ewb. remember (skipn (length b) w) as wa eqn:Ewa.
    assert (Lwb : length wb = length b) by (subst wb; rewrite firstn_length; lia).
    assert (Lwa : length wa = length a) by (subst wa; rewrite skipn_length; lia).
    assert (Ew : w = wb ++ wa) by (subst wa wb; symmetry; apply firstn_skipn). clear Ewa Ewb. subst w.
    destruct (Ho (wa ++ wb)) as [t M].
    + split; [rewrite !app_length; lia|]. intros e. rewrite net_swap by (symmetry; assumption). apply Hw.
    + exists t. apply Forall2_app_inv_l in M as (l1 & l2 & M1 & M2 & El). assert (l1 = wa /\ l2 = wb) as [-> ->].
      { pose proof (Forall2_length _ _ _ M1) as G. assert (G2 : length l1 = length wa) by lia. clear -El G2. revert wa G2 El. induction l1 as [|z l1 IH]; intros [|z' wa] G El; try discriminate; [auto|].
        cbn in El. injection El as -> El. destruct (IH wa ltac:(injection G; auto) El) as [-> ->]. auto. }
      apply multiple_app; assumption.
Qed.
Lemma sides_app a b : sides (length a) (a ++ b) <-> (forall k, In k a -> (k < 0)%Q) /\ (forall k, In k b -> (0 < k)%Q).
Proof.
  split.
  - intros H. split; intros k Hk; apply In_nth_error in Hk as (i & Hi).
    + assert (Li : i < length a) by (apply nth_error_Some; congruence). apply (H i k); [rewrite nth_error_app1; assumption|exact Li].
    + apply (H (length a + i) k); [|lia]. rewrite nth_error_app2 by lia. rewrite <- Hi. f_equal. lia.
  - intros [Ha Hb] i k Hk. split; intros L.
    + rewrite nth_error_app1 in Hk by exact L. apply Ha. apply nth_error_In in Hk. exact Hk.
    + rewrite nth_error_app2 in Hk by exact L. apply Hb. apply nth_error_In in Hk. exact Hk.
Qed.
Lemma determined_swap r p : determined C form r p -> NoDup (map form (p ++ r)) /\ exists v, only_combination C (map form (p ++ r)) v /\ sides (length p) (map Qopp v).
Proof.
  intros (Hn & v & Hv & Hs). split.
  - rewrite map_app in *. eapply Permutation_NoDup; [apply Permutation_app_comm|exact Hn].
  - pose proof Hv as ((Lv & _) & _). rewrite map_app, app_length, !map_length in Lv. rewrite <- (firstn_skipn (length r) v) in Hv, Hs. set (vr := firstn (length r) v) in *. set (vp := skipn (length r) v) in *.
    assert (Lr : length vr = length r) by (unfold vr; rewrite firstn_length; lia). assert (Lp : length vp = length p) by (unfold vp; rewrite skipn_length; lia).
    exists (vp ++ vr). rewrite map_app in *. split; [apply only_swap; [rewrite map_length; congruence|rewrite map_length; congruence|exact Hv]|].
    rewrite <- Lr in Hs. apply sides_app in Hs as [H1 H2]. rewrite <- Lp, map_app, <- (map_length Qopp vp). apply sides_app. split; intros k Hk; apply in_map_iff in Hk as (k' & <- & Hk); [apply H2 in Hk|apply H1 in Hk]; lra.
Qed.

Lemma two_of {A} (l : list A) a b : In a l -> In b l -> a <> b -> subseq [a; b] l \/ subseq [b; a] l.
Proof.
  assert (G : forall (l : list A) x, In x l -> subseq [x] l).
  { clear. induction l as [|y l IH]; intros x Hx; [destruct Hx|]. destruct Hx as [->|Hx]; [apply subseq_take; clear; induction l; constructor; assumption|apply subseq_skip, IH; exact Hx]. }
  induction l as [|y l IH]; intros Ha Hb Hab; [destruct Ha|]. destruct Ha as [->|Ha], Hb as [->|Hb].
  - congruence.
  - left. apply subseq_take, G. exact Hb.
  - right. apply subseq_take, G. exact Ha.
  - destruct (IH Ha Hb Hab); [left|right]; apply subseq_skip; assumption.
Qed.
Lemma option_met_same f given op x y : EnumSpec.same_set x y -> option_met f given op x -> option_met f given op y.
Proof.
  intros S [H|H]; [left; exact H|right]. destruct f; [intros e He; apply H; apply S; exact He|]. destruct H as (e & H1 & H2). exists e. split; [apply S; exact H1|exact H2].
Qed.

Hypothesis Hbig : forall c e, In e (ReactionModel.elems C c) -> (1 # 100 < amt C (red C c) e)%Q.
Hypothesis Hid : forall i, e_id (ent i) = i.
Lemma determined_disjoint r p : determined C form r p -> disjoint r p.
Proof.
  intros (Hnd & _). rewrite map_app in Hnd. intros x Hx Hy. apply (in_map form) in Hx, Hy. revert Hx Hy Hnd. generalize (form x) (map form r) (map form p). clear. intros y a b Ha Hb.
  induction a as [|z a IH]; intros N; [destruct Ha|]. cbn in N. inversion N; subst. destruct Ha as [->|Ha]; [apply H1, in_app_iff; right; exact Hb|apply IH; assumption].
Qed.
(* among all reactions of a kind, whichever way round the pair is looked at *)
Lemma determined_among o pre tar op kind out r p : 1 <= o_constraints o -> all_reactions o pre tar op fwd bwd kind out ->
  r <> [] -> p <> [] -> determined C form r p -> option_met (o_pfunc o) pre op r -> option_met (o_tfunc o) tar op p ->
  kind r p \/ ((forall x, (exists e, In e p /\ In x (ReactionModel.elems C (e_comp (ent e)))) <-> (exists e, In e r /\ In x (ReactionModel.elems C (e_comp (ent e))))) -> kind p r) ->
  exists x, In x out /\ EnumSpec.same_set (er_reactants x) r /\ EnumSpec.same_set (er_products x) p /\ er_balanced x = true /\ er_errors x = Some 0 /\ er_identity x = false.
Proof.
  intros Hc (pairs & outs & _ & Hpairs & Hpick & Hperm) Nr Np Hd Hop Hot Hk.
  pose proof (real_good_balance C W Hbig ent Hid (entry_solve C ent) (entry_rank C ent) entry_solve_length) as Good.
  assert (Picked : forall a b x, In (a, b) pairs -> x = fwd a b \/ x = bwd a b -> sound_rxn o x /\ wanted o pre tar op x -> In x out).
  { intros a b x Hin Hx HP. destruct (Forall2_In_l _ _ _ _ Hpick Hin) as (rs & Hrs & Hp). cbn [fst snd] in Hp. apply (Permutation_in x (Permutation_sym Hperm)). apply in_concat. exists rs. split; [exact Hrs|].
    assert (G : forall l l' (P : erxn -> Prop), picks P l l' -> In x l -> P x -> In x l').
    { clear. intros l l' P H. induction H; intros Hx Px; [destruct Hx| |].
      - destruct Hx as [->|Hx]; [left; reflexivity|right; apply IHpicks; assumption].
      - destruct Hx as [->|Hx]; [contradiction|apply IHpicks; assumption]. }
    apply (G _ _ _ Hp); [destruct Hx as [->| ->]; cbn; auto|exact HP]. }
  destruct Hk as [Hk|Hk].
  - destruct Hd as (Hnd & v & Hv & Hs). destruct (found r p v Nr Np Hnd Hv (or_introl Hs)) as [(F1 & F2 & F3 & F4) _]. destruct (Good r p Nr Np) as (_ & _ & _ & G). destruct (G F3) as (G1 & G2 & _).
    exists (fwd r p). split; [|repeat (split; [assumption|]); exact F1]. apply (Picked r p); [apply Hpairs; exact Hk|left; reflexivity|].
    split; [split; [exact F1|split; [intros _; exact F2|split; [exact F3|rewrite F4; exact Hc]]]|].
    split; [eapply option_met_same; [|exact Hop]|eapply option_met_same; [|exact Hot]]; intros x; symmetry; [apply G1|apply G2].
  - destruct (determined_swap r p Hd) as (Hnd & v & Hv & Hs). destruct (found p r v Np Nr Hnd Hv (or_intror Hs)) as [(F1' & F2' & F3' & _) (F1 & F2 & F3 & F4)].
    destruct (Good p r Np Nr) as (B1 & B2 & _ & G). destruct (G F3') as (G1 & G2 & G3).
    exists (bwd p r). rewrite B1, B2. split; [|repeat (split; [assumption|]); exact F1]. apply (Picked p r); [apply Hpairs, Hk; exact G3|right; reflexivity|].
    split; [split; [exact F1|split; [intros _; exact F2|split; [exact F3|rewrite F4; exact Hc]]]|]. unfold wanted. rewrite B1, B2.
    split; [eapply option_met_same; [|exact Hop]|eapply option_met_same; [|exact Hot]]; intros x; symmetry; [apply G2|apply G1].
Qed.

Theorem determined_enumerated {D} (diagram : list nat -> D) o entries pre tar wait :
  NoDup entries -> (forall e, In e entries -> ReactionModel.elems C (e_comp (ent e)) <> []) -> o_changed o = true ->
  1 <= o_chunk o -> 1 <= o_jobs o -> 1 <= o_constraints o -> valid_schedule wait ->
  exists out, enumerate_rxns (fun i => ReactionModel.elems C (e_comp (ent i))) basic_iterable basic_iter_length (basic_react fwd bwd) diagram o entries pre tar [] [] wait = Ok out
  /\ forall r p, subseq r entries -> subseq p entries -> 1 <= length r <= o_n o -> 1 <= length p <= o_n o -> determined C form r p ->
       system_ok (fun i => ReactionModel.elems C (e_comp (ent i))) o [] r -> option_met (o_pfunc o) pre [] r -> option_met (o_tfunc o) tar [] p ->
       exists x, In x out /\ EnumSpec.same_set (er_reactants x) r /\ EnumSpec.same_set (er_products x) p /\ er_balanced x = true /\ er_errors x = Some 0 /\ er_identity x = false.
Proof.
  intros Hn Hel Hch H1 H2 Hc Hw.
  destruct (basic_real_complete C ent (entry_solve C ent) (entry_rank C ent) diagram o entries pre tar wait W Hbig Hid entry_solve_length Hn Hel Hch H1 H2 Hw) as (out & E & HA).
  exists out. split; [exact E|]. intros r p Sr Sp Lr Lp Hd Hsys Hop Hot.
  assert (Nr : r <> []) by (intros ->; cbn in Lr; lia). assert (Np : p <> []) by (intros ->; cbn in Lp; lia).
  pose proof (determined_disjoint r p Hd) as Dj.
  assert (Diff : r <> p). { intros ->. destruct p as [|x p]; [contradiction|]. apply (Dj x); left; reflexivity. }
  apply (determined_among o pre tar [] _ out r p Hc HA Nr Np Hd Hop Hot).
  destruct (two_of (limited_powerset entries (o_n o)) r p) as [Sub|Sub]; [apply in_limited_powerset; split; assumption|apply in_limited_powerset; split; assumption|exact Diff| |]; apply basic_pair_iff in Sub; try exact Hn.
  - left. split; [exact Sub|]. split; assumption.
  - right. intros G3. split; [exact Sub|]. split; [intros x Hx Hy; exact (Dj x Hy Hx)|]. destruct Hsys as (k & (K1 & K2) & K3). exists k. split; [split; [exact K1|]|exact K3].
    intros x. rewrite K2, <- G3. reflexivity.
Qed.
End Balance.
