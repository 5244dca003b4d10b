(* Proofs about the competition job on reactions. *)
From Coq Require Import Lqa Sorted.
From Verif Require Import Prelude NumQ SumQ ListFacts UtilsModel UtilsSpec ReactionModel ReactionSpec ReactionBaseProofs ReactionOpsProofs
  HullModel HullSpec HullCheck CatalanProofs HullDecompProofs HullChainProofs HullEnergyProofs HullSignProofs IrhModel IrhSpec IrhProofs
  RxnSetSpec JobsModel JobsSpec JobsProofs CompModel CompSpec.
From Verif Require RxnSetBaseProofs.
Open Scope nat_scope.

Lemma Forall2_filter {A B} (P : A -> B -> Prop) (f : A -> bool) l m : Forall2 P l m ->
  exists m', subseq m' m /\ Forall2 P (filter f l) m' /\ (forall b, In b m' <-> exists a, In (a, b) (combine l m) /\ f a = true)
  /\ forall a b, In (a, b) (combine (filter f l) m') <-> In (a, b) (combine l m) /\ f a = true.
Proof.
  induction 1 as [|a b l m Hab F IH]; [exists []; split; [constructor|]; split; [constructor|]; split; [intros b; split; [intros []|intros (a & [] & _)]|cbn; tauto]|].
  destruct IH as (m' & S & F' & Hin & Hc). cbn [filter]. destruct (f a) eqn:E.
  - exists (b :: m'). split; [constructor; exact S|]. split; [constructor; assumption|]. split.
    + intros b'. cbn [combine]. split.
      * intros [<-|H]; [exists a; split; [left; reflexivity|exact E]|]. apply Hin in H as (x & Hx & Ex). exists x. split; [right; exact Hx|exact Ex].
      * intros (x & [Ex|Hx] & Ef); [injection Ex as <- <-; left; reflexivity|]. right. apply Hin. exists x. tauto.
    + intros x y. cbn [combine]. split.
      * intros [Ex|H]; [injection Ex as <- <-; split; [left; reflexivity|exact E]|]. apply Hc in H. split; [right|]; apply H.
      * intros [[Ex|H] Ef]; [left; exact Ex|]. right. apply Hc. tauto.
  - exists m'. split; [constructor; exact S|]. split; [exact F'|]. split.
    + intros b'. rewrite Hin. cbn [combine]. split; intros (x & Hx & Ex); exists x; (split; [|exact Ex]); [right; exact Hx|].
      destruct Hx as [Hx|Hx]; [injection Hx as <- <-; congruence|exact Hx].
    + intros x y. rewrite Hc. cbn [combine]. split; [intros [H1 H2]; split; [right|]; assumption|].
      intros [[Hx|Hx] H2]; [injection Hx as <- <-; congruence|tauto].
Qed.
Lemma Forall2_combine {A B} (P : A -> B -> Prop) l m a b : Forall2 P l m -> In (a, b) (combine l m) -> P a b.
Proof. induction 1 as [|x y l m Hxy F IH]; [intros []|]. intros [E|H]; [injection E as <- <-; exact Hxy|exact (IH H)]. Qed.
Lemma Forall2_partner {A B} (P : A -> B -> Prop) l m b : Forall2 P l m -> In b m -> exists a, In (a, b) (combine l m).
Proof. induction 1 as [|x y l m Hxy F IH]; [intros []|]. intros [<-|H]; [exists x; left; reflexivity|]. destruct (IH H) as [a Ha]. exists a. right. exact Ha. Qed.
Lemma Forall2_partner_l {A B} (P : A -> B -> Prop) l m a : Forall2 P l m -> In a l -> exists b, In (a, b) (combine l m).
Proof. induction 1 as [|x y l m Hxy F IH]; [intros []|]. intros [<-|H]; [exists y; left; reflexivity|]. destruct (IH H) as [b Hb]. exists b. right. exact Hb. Qed.

Lemma sorted_pairs l : StronglySorted xlt l -> forall i j p q, i < j -> nth_error l i = Some p -> nth_error l j = Some q -> (fst p < fst q)%Q.
Proof.
  induction 1 as [|z m S IH Hz]; intros i j p q Hij Hp Hq; [destruct i; discriminate|]. destruct j as [|j]; [lia|]. destruct i as [|i].
  - injection Hp as <-. rewrite Forall_forall in Hz. apply Hz. apply nth_error_In with j. exact Hq.
  - apply (IH i j p q); [lia|exact Hp|exact Hq].
Qed.

(* --- the secondary competition along the hull --- *)
Section Secondary.
Variable h : hull.
Variable chain : list nat.
Hypothesis Hok : correct_hull (coords h) (qhull h) chain.

Lemma side_points u w : (0 <= u)%Q -> (u < w)%Q -> (w <= 1)%Q -> exact_coordinate (coords h) chain u -> exact_coordinate (coords h) chain w ->
  exists l, follows_hull (coords h) chain u w l /\ get_coords_in_range h u w = Ok l /\ 2 <= length l.
Proof.
  intros Hu Huw Hw Eu Ew. destruct (range_spec h chain Hok u w Hu (Qlt_le_weak _ _ Huw) Hw Eu Ew) as (yu & yw & _ & _ & _ & Nu & _ & Nw & Hl).
  set (l := range_pts h chain u yu w yw) in Hl. assert (El : l = pre_pts u yu ++ [(u, yu)] ++ inner h chain u w ++ [(w, yw)] ++ post_pts w yw).
  { unfold l, range_pts. destruct (Qeq_bool w u) eqn:E; [apply Qeq_bool_iff in E; lra|reflexivity]. }
  exists l. split; [|split; [exact Hl|rewrite El, !app_length; cbn; lia]].
  exists yu, yw, (pre_pts u yu), (inner h chain u w), (post_pts w yw). split; [exact Nu|]. split; [exact Nw|]. split; [exact El|].
  split; [reflexivity|]. split; [reflexivity|]. split.
  - intros c. split; [intros H; exact (in_inner h chain Hok u w c H)|]. intros ((i & Hi & Hc) & H1 & H2). unfold inner. apply filter_In. split.
    + apply in_map_iff. exists i. split; [|exact Hi]. unfold pt_of. apply nth_error_nth. exact Hc.
    + unfold between. apply andb_true_iff. split; apply Qlt_bool_iff'; assumption.
  - exact (sorted_pairs _ (inner_sorted h chain Hok u w)).
Qed.
Lemma points_mean u w l : get_coords_in_range h u w = Ok l -> 2 <= length l ->
  exists e n v, get_decomposition_energy h u w = Ok e /\ num_paths h u w = Ok n /\ (1 <= n)%Z /\ mean_release l v /\ (v == e / inject_Z n)%Q.
Proof.
  intros Hl Hlen. destruct (decomposition_energy_spec l (trees (length l - 2)) Hlen (trees_all _)) as (e & He & Ee).
  set (n := Z.of_nat (length (trees (length l - 2)))).
  assert (Hn : (1 <= n)%Z).
  { exact (cat_pos (length l - 2)). }
  assert (Hnq : ~ (inject_Z n == 0)%Q) by (unfold Qeq; cbn; lia).
  exists e, n, (e / inject_Z n)%Q. split; [|split; [|split; [exact Hn|split; [|reflexivity]]]].
  - unfold get_decomposition_energy. rewrite Hl. cbn [bind]. exact He.
  - unfold num_paths. rewrite Hl. cbn [bind]. replace (Z.of_nat (length l) - 2)%Z with (Z.of_nat (length l - 2)) by lia.
    apply count_is_number_of_trees, trees_all.
  - split; [exists (trees (length l - 2)); apply trees_all|]. intros ts Hts. destruct (decomposition_energy_spec l ts Hlen Hts) as (e' & He' & Ee').
    rewrite He in He'. injection He' as <-. unfold pts in Ee'. rewrite <- Ee'.
    replace (length ts) with (length (trees (length l - 2))) by (apply Permutation_length, (all_trees_perm (length l - 2)); [apply trees_all|exact Hts]).
    fold n. field. exact Hnq.
Qed.
(* the two sides of x together *)
Lemma sides_mean x L R : get_coords_in_range h 0 x = Ok L -> get_coords_in_range h x 1 = Ok R -> 2 <= length L -> 2 <= length R ->
  exists s vl vr, get_secondary_competition h x true false = Ok s /\ mean_release L vl /\ mean_release R vr /\ (s == - (vl + vr))%Q.
Proof.
  intros CL CR LL LR. destruct (points_mean 0 x L CL LL) as (el & nl & vl & HL & NL & PL & ML & VL). destruct (points_mean x 1 R CR LR) as (er & nr & vr & HR & NR & PR & MR & VR).
  unfold get_secondary_competition. rewrite HL, NL, HR, NR. eexists. exists vl, vr. split; [reflexivity|].
  split; [exact ML|]. split; [exact MR|]. unfold combine_sides.
  destruct (Z.eqb_spec nl 0) as [Z|_]; [lia|]. destruct (Z.eqb_spec nr 0) as [Z|_]; [lia|].
  rewrite VL, VR, inject_Z_mult.
  assert (Ql : ~ (inject_Z nl == 0)%Q) by (unfold Qeq; cbn; lia). assert (Qr : ~ (inject_Z nr == 0)%Q) by (unfold Qeq; cbn; lia).
  field. split; assumption.
Qed.

Lemma secondary_mean x : (0 < x < 1)%Q -> exact_coordinate (coords h) chain 0 -> exact_coordinate (coords h) chain x -> exact_coordinate (coords h) chain 1 ->
  exists s L R vl vr, get_secondary_competition h x true false = Ok s
  /\ follows_hull (coords h) chain 0 x L /\ follows_hull (coords h) chain x 1 R /\ mean_release L vl /\ mean_release R vr /\ (s == - (vl + vr))%Q.
Proof.
  intros [Hx0 Hx1] E0 Ex E1. destruct (side_points 0 x ltac:(lra) Hx0 ltac:(lra) E0 Ex) as (L & FL & CL & LL). destruct (side_points x 1 ltac:(lra) Hx1 ltac:(lra) Ex E1) as (R & FR & CR & LR).
  destruct (sides_mean x L R CL CR LL LR) as (s & vl & vr & H & ML & MR & E). exists s, L, R, vl, vr. repeat (split; [assumption|]). exact E.
Qed.
End Secondary.

(* --- reactions as the job sees them --- *)
Section Reactions.
Variable C : chem.
Hypothesis W : wf_chem C.

Lemma filtered_keys (f : Q -> bool) (b : list (nat * Q)) c :
  In c (map fst (dict_of (filter (fun kv => f (snd kv)) b))) <-> exists k, In (c, k) b /\ f k = true.
Proof.
  rewrite (proj1 (proj2 (dict_of_keys _))), in_map_iff. split.
  - intros ([c' k] & <- & H). apply filter_In in H as [H1 H2]. exists k. tauto.
  - intros (k & H1 & H2). exists (c, k). split; [reflexivity|]. apply filter_In. tauto.
Qed.
Lemma reactants_iff r c : proper C r -> (In c (reactants (base_of r)) <-> consumes r c).
Proof.
  intros Hp. destruct (proper_parts C W r Hp) as (es & ks & n & _ & _ & Hb & _).
  unfold consumes, species. rewrite Hb. cbn [comps coeffs basic_init]. unfold reactants. cbn [reactant_coeffs basic_init].
  rewrite (filtered_keys (fun k => Qlt_bool k 0)). split; intros (k & H1 & H2); exists k; (split; [exact H1|]); apply Qlt_bool_iff'; exact H2.
Qed.
Lemma products_iff r c : proper C r -> (In c (products (base_of r)) <-> produces r c).
Proof.
  intros Hp. destruct (proper_parts C W r Hp) as (es & ks & n & _ & _ & Hb & _).
  unfold produces, species. rewrite Hb. cbn [comps coeffs basic_init]. unfold products. cbn [product_coeffs basic_init].
  rewrite (filtered_keys (fun k => Qlt_bool 0 k)). split; intros (k & H1 & H2); exists k; (split; [exact H1|]); apply Qlt_bool_iff'; exact H2.
Qed.
Lemma reactants_nodup r : proper C r -> NoDup (reactants (base_of r)).
Proof.
  intros Hp. destruct (proper_parts C W r Hp) as (es & ks & n & _ & _ & Hb & _). rewrite Hb. unfold reactants. cbn [reactant_coeffs basic_init].
  apply dict_of_keys.
Qed.
Lemma map_same {A} (f : A -> A) l : (forall x, In x l -> f x = x) -> map f l = l.
Proof. intros H. induction l as [|x l IH]; [reflexivity|]. cbn. rewrite (H x (or_introl eq_refl)), IH; [reflexivity|]. intros y Hy. apply H. right. exact Hy. Qed.
Lemma reactants_reduced r : proper C r -> map (red C) (reactants (base_of r)) = reactants (base_of r).
Proof.
  intros Hp. destruct (proper_parts C W r Hp) as (es & ks & n & _ & _ & _ & _ & Hred & _). apply map_same. intros c Hc.
  apply reactants_iff in Hc as (k & Hk & _); [|exact Hp]. exact (Hred c k Hk).
Qed.
Lemma products_reduced r : proper C r -> map (red C) (products (base_of r)) = products (base_of r).
Proof.
  intros Hp. destruct (proper_parts C W r Hp) as (es & ks & n & _ & _ & _ & _ & Hred & _). apply map_same. intros c Hc.
  apply products_iff in Hc as (k & Hk & _); [|exact Hp]. exact (Hred c k Hk).
Qed.

Lemma takes_pos r c : genuine C r -> consumes r c -> (0 < takes C r c)%Q.
Proof.
  intros (Hp & [k0 ->] & He & _) (k & Hin & Hk). unfold takes. cbn [potentials].
  assert (A : (0 < atoms_left C [] c)%Q).
  { unfold atoms_left. specialize (He c k Hin). destruct (elems C c) as [|e l] eqn:E; [congruence|].
    assert (P : forall x, In x (e :: l) -> (0 < amt C c x)%Q) by (intros x Hx; apply (wf_pos C W); rewrite E; exact Hx).
    rewrite (sumQ_ext _ (amt C c)) by (intros x _; reflexivity).
    assert (N : (0 <= sumQ (amt C c) l)%Q) by (apply sumQ_nonneg; intros x Hx; apply Qlt_le_weak, P; right; exact Hx).
    pose proof (P e (or_introl eq_refl)). change (0 < amt C c e + sumQ (amt C c) l)%Q. lra. }
  set (l := species (base_of (RComputed k0))) in *. clearbody l. clear He Hp. induction l as [|[c' k'] l IH]; [destruct Hin|].
  set (f := fun ck : nat * Q => _) in *. assert (N : (0 <= sumQ f l)%Q).
  { apply sumQ_nonneg. intros [x y] _. unfold f. cbn [fst snd]. destruct (Nat.eqb_spec x c) as [->|]; cbn [andb]; [|apply Qle_refl].
    destruct (Qlt_bool y 0) eqn:E; [|apply Qle_refl]. apply Qlt_bool_iff' in E. apply Qmult_le_0_compat; lra. }
  assert (F : (0 <= f (c', k'))%Q).
  { unfold f. cbn [fst snd]. destruct (Nat.eqb_spec c' c) as [->|]; cbn [andb]; [|apply Qle_refl].
    destruct (Qlt_bool k' 0) eqn:E; [|apply Qle_refl]. apply Qlt_bool_iff' in E. apply Qmult_le_0_compat; lra. }
  destruct Hin as [E|Hin].
  - injection E as -> ->. assert (P : (0 < f (c, k))%Q).
    { unfold f. cbn [fst snd]. rewrite Nat.eqb_refl. cbn [andb]. rewrite (proj2 (Qlt_bool_iff' k 0) Hk). apply Qmult_lt_0_compat; lra. }
    change (0 < f (c, k) + sumQ f l)%Q. lra.
  - specialize (IH Hin). change (0 < f (c', k') + sumQ f l)%Q. lra.
Qed.
End Reactions.

(* --- the job --- *)
Section Job.
Variable C : chem.
Hypothesis W : wf_chem C.
Variables round4 round12 : Q -> Q.
Hypothesis R12 : rounds12 round12.
Hypothesis R12eq : forall a b, (a == b)%Q -> (round12 a == round12 b)%Q.
Variable argsort : list Q -> list nat.
Hypothesis Hsort : sorts argsort.
Variable convex_hull : list coord -> result (list nat).
Variable lsq : list nat -> list nat -> list nat -> list Q.
Hypothesis Hlsq : forall c, lsq [c] [c] [1] = [-1; 1]%Q.
Variable rank : list nat -> list nat -> nat.
Variable req : rxn -> rxn -> bool.
Variable arrange : list nat -> list nat.
Variable rs : list rxn.
Hypothesis Hrs : forall r, In r rs -> genuine C r.

Definition seen (j : jrxn) (r : rxn) : Prop :=
  nth_error rs (j_id j) = Some r /\ energy_per_atom C r = Ok (j_energy j)
  /\ j_reactants j = reactants (base_of r) /\ j_products j = products (base_of r).

Lemma genuine_energy r : genuine C r -> exists e, energy_per_atom C r = Ok e.
Proof.
  intros G. pose proof G as (Hp & _ & _ & c & Hc). apply (energy_ok C W r c c Hp). pose proof (takes_pos C W r c G Hc). lra.
Qed.

Lemma views_ok : exists js, views C rs = Ok js /\ Forall2 seen js rs.
Proof.
  assert (G : forall l k, (forall i r, nth_error l i = Some r -> nth_error rs (k + i) = Some r) ->
    exists js, mapM (fun ir => view C (fst ir) (snd ir)) (combine (seq k (length l)) l) = Ok js /\ Forall2 seen js l).
  { induction l as [|r l IH]; intros k H; [exists []; split; [reflexivity|constructor]|].
    destruct (IH (S k)) as (js & E & F); [intros i x Hx; rewrite Nat.add_succ_l, <- Nat.add_succ_r; apply H; exact Hx|].
    assert (Hr : nth_error rs k = Some r) by (rewrite <- (Nat.add_0_r k); apply H; reflexivity).
    pose proof (Hrs r (nth_error_In _ _ Hr)) as Gr. destruct (genuine_energy r Gr) as [e He].
    cbn [length seq combine mapM fst snd]. unfold view at 1. rewrite He. cbn [bind]. rewrite E. eexists. split; [reflexivity|].
    constructor; [|exact F]. unfold seen. cbn [j_id j_energy j_reactants j_products].
    rewrite (reactants_reduced C W r (proj1 Gr)), (products_reduced C W r (proj1 Gr)). tauto. }
  apply (G rs 0). intros i r H. exact H.
Qed.

Lemma hull_scores_exact js j r a b : Forall2 seen js rs -> In (j, r) (combine js rs) -> j_reactants j = [a; b] ->
  exists cs x p, a <> b /\ (forall c, consumes r c <-> c = a \/ c = b)
  /\ (exists e m, energy_per_atom C r = Ok e /\ lowest_elsewhere C rs r a b m /\ (p == e - m)%Q)
  /\ phase_points C rs r a b cs /\ (Qabs (x - mixing_ratio C a b r) <= 1 # 2000000000000)%Q /\ (0 <= x <= 1)%Q
  /\ hull_scores C round12 argsort convex_hull lsq rank req rs a b (by_reactants [a; b] js) j
     = bind (convex_hull cs) (fun vs => bind (get_secondary_competition {| coords := cs; qhull := vs |} x true false) (fun s => Ok (p, s))).
Proof.
  intros F Hin Hab. pose proof (Forall2_combine _ _ _ _ _ F Hin) as (Hidx & Hen & Hre & Hpr).
  assert (Hr : In r rs) by (apply in_combine_r in Hin; exact Hin). pose proof (Hrs r Hr) as Gr. pose proof (proj1 Gr) as Pr.
  assert (Hc : forall c, consumes r c <-> c = a \/ c = b).
  { intros c. rewrite <- (reactants_iff C W r c Pr), <- Hre, Hab. cbn. intuition congruence. }
  assert (Hne : a <> b).
  { pose proof (reactants_nodup C W r Pr) as N. rewrite <- Hre, Hab in N. apply NoDup_cons_iff in N as [N _]. cbn in N. intuition congruence. }
  destruct (Forall2_filter seen (fun r0 => forallb (fun f => memb Nat.eqb f [a; b]) (j_reactants r0)) js rs F) as (others & Sub & Fo & Ho & Hco).
  fold (by_reactants [a; b] js) in Fo, Hco.
  assert (Hot : forall r', In r' others <-> In r' rs /\ competes r' r).
  { intros r'. rewrite Ho. split.
    - intros (j' & H1 & H2). pose proof (in_combine_r _ _ _ _ H1) as Hr'. split; [exact Hr'|]. intros c Hcc.
      destruct (Forall2_combine _ _ _ _ _ F H1) as (_ & _ & E1 & _). rewrite forallb_forall in H2. apply Hc.
      rewrite <- (reactants_iff C W r' c (proj1 (Hrs r' Hr'))), <- E1 in Hcc. apply H2, memb_iff in Hcc. cbn in Hcc. intuition congruence.
    - intros [Hr' Hcomp]. destruct (Forall2_partner _ _ _ _ F Hr') as [j' Hj']. exists j'. split; [exact Hj'|].
      destruct (Forall2_combine _ _ _ _ _ F Hj') as (_ & _ & E1 & _). apply forallb_forall. intros f Hf. apply memb_iff.
      rewrite E1, (reactants_iff C W r' f (proj1 (Hrs r' Hr'))) in Hf. apply Hcomp, Hc in Hf. cbn. intuition congruence. }
  unfold hull_scores.
  assert (Em : mapM (fun x => index rs (j_id x)) (by_reactants [a; b] js) = Ok others).
  { apply RxnSetBaseProofs.mapM_Forall2. eapply Forall2_impl; [|exact Fo]. intros j' r' (H & _). unfold index. rewrite H. reflexivity. }
  rewrite Em. cbn [bind]. unfold index. rewrite Hidx. cbn [bind].
  assert (Hro : In r others) by (apply Hot; split; [exact Hr|intros c Hcc; exact Hcc]).
  assert (Ered : forall c, consumes r c -> red C c = c).
  { intros c (k & Hk & _). destruct (proper_parts C W r Pr) as (es & ks & n & _ & _ & _ & _ & Hred & _). exact (Hred c k Hk). }
  assert (Ca : consumes r a) by (apply Hc; left; reflexivity). assert (Cb : consumes r b) by (apply Hc; right; reflexivity).
  assert (Hel : forall c, consumes r c -> elems C c <> []) by (intros c (k & Hk & _); exact (proj1 (proj2 (proj2 Gr)) c k Hk)).
  assert (HH : forall r', In r' others -> proper C r' /\ (0 < takes C r' (red C a) + takes C r' (red C b))%Q).
  { intros r' Hr'. apply Hot in Hr' as [Hr' Hcomp]. pose proof (Hrs r' Hr') as G'. split; [apply G'|]. rewrite (Ered a Ca), (Ered b Cb).
    destruct G' as (P' & Hk & He & c & Hcc). pose proof (takes_pos C W r' c (conj P' (conj Hk (conj He (ex_intro _ c Hcc)))) Hcc) as T.
    pose proof (takes_nonneg C W r' a). pose proof (takes_nonneg C W r' b). apply Hcomp, Hc in Hcc as [->| ->]; lra. }
  destruct (build_exact C W round12 R12 argsort Hsort convex_hull lsq rank Hlsq a b others HH) as (pts & e1 & e2 & R & cs & Fp & _ & _ & Hlen & Hperm & Hsorted & Eb).
  { rewrite (Ered a Ca), (Ered b Cb). exact Hne. }
  { rewrite (Ered a Ca). apply Hel, Ca. }
  { rewrite (Ered b Cb). apply Hel, Cb. }
  { exists r. rewrite (Ered a Ca). split; [exact Hro|exact Ca]. }
  { exists r. rewrite (Ered b Cb). split; [exact Hro|exact Cb]. }
  rewrite Eb. unfold exact_point in Fp. rewrite (Ered a Ca), (Ered b Cb) in Fp |- *. clear Eb.
  destruct (Forall2_partner_l _ _ _ _ Fp Hro) as [q Hq]. destruct (Forall2_combine _ _ _ _ _ Fp Hq) as [(Hx1 & Hx01 & Hy) Ex].
  assert (P : Permutation cs (pts ++ [(0, 0); (1, 0)]%Q)).
  { pose proof (Permutation_map snd Hperm) as P. rewrite combine_snd in P by exact Hlen. rewrite map_app, combine_snd in P by (apply (Forall2_length _ _ _ Fp)). exact P. }
  assert (Hcs : forall z, In z cs <-> In z pts \/ z = (0, 0)%Q \/ z = (1, 0)%Q).
  { intros z. split; [intros H; apply (Permutation_in _ P) in H; apply in_app_iff in H; cbn in H; intuition congruence|].
    intros H. apply (Permutation_in _ (Permutation_sym P)), in_app_iff. cbn. intuition congruence. }
  assert (Ey : j_energy j = snd q) by congruence.
  destruct (primary_spec {| coords := cs; qhull := [] |} (j_energy j) (fst q) (sorted_by_x_iff _ Hsorted)) as (s0 & m & Es & Ems & (z & Hz & Hzx & Ez) & Hmin).
  { exists q. split; [apply Hcs; left; apply in_combine_r in Hq; exact Hq|reflexivity]. }
  { destruct (Qeq_dec (fst q) 0) as [E0|E0].
    - exists (1, 0)%Q. split; [apply Hcs; tauto|]. cbn [fst]. rewrite E0. discriminate.
    - exists (0, 0)%Q. split; [apply Hcs; tauto|]. cbn [fst]. intros H. apply E0. symmetry. exact H. }
  cbn [coords] in *.
  exists cs, (fst q), s0. split; [exact Hne|]. split; [exact Hc|]. split; [|split; [|split; [exact Hx1|split; [exact Hx01|]]]].
  - exists (j_energy j), m. split; [exact Hen|]. split; [|exact Ems]. split; [|split].
    + apply Hcs in Hz as [Hz|[->| ->]]; [|left; rewrite <- Ez; reflexivity..]. right.
      destruct (Forall2_partner _ _ _ _ Fp Hz) as [r' Hr']. destruct (Forall2_combine _ _ _ _ _ Fp Hr') as [(_ & _ & Hy') Ex'].
      pose proof (in_combine_l _ _ _ _ Hr') as Hro'. pose proof (proj1 (Hot r') Hro') as [I1 I2]. exists r'. split; [exact I1|]. split; [exact I2|]. split; [|rewrite Hy', Ez; reflexivity].
      intros Heq. apply Hzx. destruct (HH r' Hro') as [P1 T1]. destruct (HH r Hro) as [P2 T2]. rewrite (Ered a Ca), (Ered b Cb) in T1, T2.
      destruct (coordinate_exact C W round12 r' a b P1 T1) as (q1 & C1 & D1). destruct (coordinate_exact C W round12 r a b P2 T2) as (q2 & C2 & D2).
      rewrite Ex' in C1. rewrite Ex in C2. injection C1 as ->. injection C2 as ->. apply R12eq. rewrite D1, D2. exact Heq.
    + destruct (Qeq_dec (fst q) 0) as [E0|E0].
      * apply (Hmin (1, 0)%Q); [apply Hcs; tauto|]. cbn [fst]. rewrite E0. discriminate.
      * apply (Hmin (0, 0)%Q); [apply Hcs; tauto|]. cbn [fst]. intros H. apply E0. symmetry. exact H.
    + intros r' e I1 I2 Hd He. assert (Hro' : In r' others) by (apply Hot; tauto). destruct (Forall2_partner_l _ _ _ _ Fp Hro') as [q' Hq'].
      destruct (Forall2_combine _ _ _ _ _ Fp Hq') as [(Hx' & _ & Hy') _]. rewrite He in Hy'. injection Hy' as ->.
      apply Hmin; [apply Hcs; left; apply in_combine_r in Hq'; exact Hq'|]. intros Heq.
      apply Qabs_Qle_condition in Hx1, Hx'. apply Qlt_not_le in Hd. apply Hd. apply Qabs_Qle_condition. split; lra.
  - exists others, pts. split; [exact Sub|]. split; [exact Hot|]. split; [eapply Forall2_impl; [|exact Fp]; intros r' q' [H _]; exact H|]. split; [exact P|exact Hsorted].
  - destruct (convex_hull cs) as [vs|er]; [|reflexivity]. cbn [bind]. unfold calculate, primary, secondary. cbn [i_c1 i_c2 i_hull].
    rewrite Hen. cbn [bind]. rewrite Ex. cbn [bind].
    assert (Es' : get_primary_competition {| coords := cs; qhull := vs |} (j_energy j) (fst q) = Ok s0) by exact Es. rewrite Es'. cbn [bind].
    destruct (get_secondary_competition _ (fst q) true false) as [s1|]; reflexivity.
Qed.

Lemma hull_scores_spec js j r a b p s : Forall2 seen js rs -> In (j, r) (combine js rs) -> j_reactants j = [a; b] ->
  hull_scores C round12 argsort convex_hull lsq rank req rs a b (by_reactants [a; b] js) j = Ok (p, s) -> pair_scored C convex_hull rs r p s.
Proof.
  intros F Hin Hab E. destruct (hull_scores_exact js j r a b F Hin Hab) as (cs & x & p0 & Hne & Hc & Hp & Hph & Hx1 & Hx01 & Ee). rewrite Ee in E.
  destruct (convex_hull cs) as [vs|] eqn:Ehull; [|discriminate]. cbn [bind] in E.
  destruct (get_secondary_competition {| coords := cs; qhull := vs |} x true false) as [s1|] eqn:E2; [|discriminate]. cbn [bind] in E. injection E as -> ->.
  exists a, b. split; [exact Hne|]. split; [exact Hc|]. split; [exact Hp|]. exists cs, vs, x. split; [exact Hph|]. split; [exact Ehull|]. split; [exact Hx1|]. split; [exact Hx01|].
  intros chain Hch X0 Xx X1 H01. destruct (secondary_mean {| coords := cs; qhull := vs |} chain Hch x H01 X0 Xx X1) as (s2 & L & R' & vl & vr & E3 & FL & FR & ML & MR & V).
  rewrite E2 in E3. injection E3 as <-. exists L, R', vl, vr. tauto.
Qed.

Lemma hull_scores_fails js j r a b er : Forall2 seen js rs -> In (j, r) (combine js rs) -> j_reactants j = [a; b] ->
  hull_scores C round12 argsort convex_hull lsq rank req rs a b (by_reactants [a; b] js) j = Err er -> pair_unscored C convex_hull rs r.
Proof.
  intros F Hin Hab E. destruct (hull_scores_exact js j r a b F Hin Hab) as (cs & x & p0 & Hne & Hc & Hp & Hph & Hx1 & Hx01 & Ee). rewrite Ee in E.
  exists a, b. split; [exact Hne|]. split; [exact Hc|]. exists cs, x. split; [exact Hph|]. split; [exact Hx1|]. split; [exact Hx01|].
  intros vs chain Ehull Hch X0 Xx X1 H01. rewrite Ehull in E. cbn [bind] in E.
  destruct (secondary_mean {| coords := cs; qhull := vs |} chain Hch x H01 X0 Xx X1) as (s2 & L & R' & vl & vr & E3 & _). rewrite E3 in E. discriminate.
Qed.

Lemma single_spec js j r x : Forall2 seen js rs -> In (j, r) (combine js rs) -> length (j_reactants j) = 1 ->
  decorate (same_rxn req rs) round4 (hull_scores C round12 argsort convex_hull lsq rank req rs) arrange js None j = Ok x ->
  fst x = j /\ single_scored C round4 req rs r (fst (snd x)) (snd (snd x)).
Proof.
  intros F Hin H1 E. pose proof (Forall2_combine _ _ _ _ _ F Hin) as (Hidx & Hen & Hre & Hpr).
  assert (Hr : In r rs) by (apply in_combine_r in Hin; exact Hin). pose proof (Hrs r Hr) as Gr. pose proof (proj1 Gr) as Pr.
  destruct (decorate_single (same_rxn req rs) round4 (hull_scores C round12 argsort convex_hull lsq rank req rs) arrange js None j H1) as (v & p & s & D & (L1 & L2 & L3) & B1 & B2 & S & _).
  rewrite D in E. injection E as <-. cbn [fst snd]. split; [reflexivity|].
  destruct (j_reactants j) as [|a [|b l]] eqn:Ea; try discriminate. exists a. split.
  - intros c. rewrite <- (reactants_iff C W r c Pr), <- Hre. cbn. intuition congruence.
  - assert (Hoth : forall e, other_energy (same_rxn req rs) js None j e <-> exists r', In r' rs /\ competes r' r /\ req r' r = false /\ energy_per_atom C r' = Ok e).
    { intros e. split.
      - intros (j' & Hj' & Hav & Hsame & He). destruct (Forall2_partner_l _ _ _ _ F Hj') as [r' Hr']. destruct (Forall2_combine _ _ _ _ _ F Hr') as (Hidx' & Hen' & Hre' & _).
        pose proof (in_combine_r _ _ _ _ Hr') as I. exists r'. split; [exact I|]. split; [|split].
        + intros c Hcc. rewrite <- (reactants_iff C W r' c (proj1 (Hrs r' I))), <- Hre' in Hcc. apply Hav in Hcc as [Hcc|Hcc]; [|discriminate].
          rewrite <- (reactants_iff C W r c Pr), <- Hre, <- Ea. exact Hcc.
        + unfold same_rxn, index in Hsame. rewrite Hidx, Hidx' in Hsame. exact Hsame.
        + rewrite Hen', He. reflexivity.
      - intros (r' & I & Hcomp & Hsame & He). destruct (Forall2_partner _ _ _ _ F I) as [j' Hj']. destruct (Forall2_combine _ _ _ _ _ F Hj') as (Hidx' & Hen' & Hre' & _).
        exists j'. split; [apply in_combine_l in Hj'; exact Hj'|]. split; [|split].
        + intros c Hcc. left. rewrite Ea, Hre, (reactants_iff C W r c Pr). apply Hcomp. rewrite <- (reactants_iff C W r' c (proj1 (Hrs r' I))), <- Hre'. exact Hcc.
        + unfold same_rxn, index. rewrite Hidx, Hidx'. exact Hsame.
        + congruence. }
    exists (j_energy j), v, p, s. split; [exact Hen|]. split; [|split; [reflexivity|split; [reflexivity|split; [split; assumption|exact S]]]].
    split; [|split; [exact L2|]].
    + destruct L1 as [L1|L1]; [right; apply Hoth; exact L1|left; exact L1].
    + intros r' e I Hcomp Hsame He. apply L3, Hoth. exists r'. tauto.
Qed.

Lemma decorate_keeps (same : jrxn -> jrxn -> bool) interface all open j x : decorate same round4 interface arrange all open j = Ok x -> fst x = j.
Proof.
  assert (G : forall comp pre, decorate_one same round4 interface j comp pre = Ok x -> fst x = j).
  { intros comp pre. unfold decorate_one. destruct (Nat.eqb (length pre) 1).
    - destruct (score_single same round4 j comp); [|discriminate]. intros E. injection E as <-. reflexivity.
    - destruct (index pre 0); [|discriminate]. cbn [bind]. destruct (index pre 1); [|discriminate]. cbn [bind].
      destruct (interface _ _ comp j); [|discriminate]. intros E. injection E as <-. reflexivity. }
  unfold decorate. destruct (3 <=? length (j_reactants j)); [destruct open; [|discriminate]|]; apply G.
Qed.

Let interface := hull_scores C round12 argsort convex_hull lsq rank req rs.
Let job wait chunk_size cpus memory target :=
  competition_job C round4 round12 argsort convex_hull lsq rank req arrange wait chunk_size cpus memory target rs None.
Let scores js := decorate (same_rxn req rs) round4 interface arrange js None.

(* The job, step by step. *)
Lemma job_runs wait chunk_size cpus memory target : valid_schedule wait -> 1 <= chunk_size -> (forall n, n <= length rs -> fits n cpus memory) ->
  exists js targets, Forall2 seen js rs /\ subseq targets rs /\ (forall r, In r targets <-> In r rs /\ produces r target)
  /\ Forall2 (fun j r => In (j, r) (combine js rs)) (by_product target js) targets
  /\ (targets = [] -> job wait chunk_size cpus memory target = Err ValueError)
  /\ (targets <> [] -> match mapM (scores js) (by_product target js) with
      | Err _ => exists e, job wait chunk_size cpus memory target = Err e
      | Ok xs => exists out, job wait chunk_size cpus memory target = Ok out /\ Permutation (map fst out) targets
                 /\ forall r ps, In (r, ps) out -> exists j, In (j, r) (combine js rs) /\ scores js j = Ok (j, ps)
      end).
Proof.
  intros Hw Hc Hf. destruct views_ok as (js & Ev & F). 
  destruct (Forall2_filter seen (fun r => memb Nat.eqb target (j_products r)) js rs F) as (targets & Sub & Ft & Ht & Hct). fold (by_product target js) in Ft, Hct.
  exists js, targets. split; [exact F|]. split; [exact Sub|].
  assert (HT : forall r, In r targets <-> In r rs /\ produces r target).
  { intros r. rewrite Ht. split.
    - intros (j & Hj & Hm). pose proof (in_combine_r _ _ _ _ Hj) as I. split; [exact I|]. destruct (Forall2_combine _ _ _ _ _ F Hj) as (_ & _ & _ & Hp).
      apply memb_iff in Hm. rewrite Hp, (products_iff C W r target (proj1 (Hrs r I))) in Hm. exact Hm.
    - intros [I Hm]. destruct (Forall2_partner _ _ _ _ F I) as [j Hj]. exists j. split; [exact Hj|]. destruct (Forall2_combine _ _ _ _ _ F Hj) as (_ & _ & _ & Hp).
      apply memb_iff. rewrite Hp, (products_iff C W r target (proj1 (Hrs r I))). exact Hm. }
  split; [exact HT|].
  assert (Fc : Forall2 (fun j r => In (j, r) (combine js rs)) (by_product target js) targets).
  { assert (G : forall l m, Forall2 seen l m -> (forall a b, In (a, b) (combine l m) -> In (a, b) (combine js rs)) -> Forall2 (fun j r => In (j, r) (combine js rs)) l m).
    { intros l m. induction 1 as [|a b l m Hab F' IH]; intros H; constructor; [apply H; left; reflexivity|]. apply IH. intros a' b' H'. apply H. right. exact H'. }
    apply (G _ _ Ft). intros a b H. apply Hct in H. apply H. }
  split; [exact Fc|].
  assert (Hlen : length js = length rs) by (apply (Forall2_length _ _ _ F)).
  destruct (make_exact (same_rxn req rs) round4 interface arrange wait chunk_size cpus memory target js None Hw Hc (or_introl eq_refl)) as [M1 M2]; [rewrite Hlen; exact Hf|].
  fold scores in M2. split.
  - intros ->. inversion Ft as [E0|]. unfold job, competition_job. rewrite Ev. cbn [bind]. fold interface. rewrite M1 by (symmetry; exact E0). reflexivity.
  - intros Hne. assert (Hne' : by_product target js <> []) by (intros E0; rewrite E0 in Ft; inversion Ft; congruence). specialize (M2 Hne').
    unfold job, competition_job. rewrite Ev. cbn [bind]. fold interface. set (mk := make _ _ interface _ _ _ _ _ _ _ _) in *.
    fold (scores js) in M2.
    destruct (mapM (scores js) (by_product target js)) as [xs|] eqn:Ex; [|destruct mk as [|er]; [destruct M2|exists er; reflexivity]].
    destruct mk as [o|]; [|destruct M2]. cbn [agree] in M2. cbn [bind]. apply RxnSetBaseProofs.mapM_Forall2 in Ex.
    assert (Ho : forall x, In x o -> In (fst x) (by_product target js) /\ scores js (fst x) = Ok x).
    { intros x Hx. apply (Permutation_in _ M2) in Hx. destruct (Forall2_In_r _ _ _ _ Ex Hx) as (j & Hj & Ej). rewrite (decorate_keeps _ _ _ _ _ _ Ej). tauto. }
    destruct targets as [|r0 targets0] eqn:Etar; [congruence|]. rewrite <- Etar in *. clear Etar.
    set (lk := fun j : jrxn => nth (j_id j) rs r0).
    assert (Hlk : forall j r, In (j, r) (combine js rs) -> index rs (j_id j) = Ok r /\ lk j = r).
    { intros j r Hj. destruct (Forall2_combine _ _ _ _ _ F Hj) as (H & _). unfold index, lk. rewrite H. split; [reflexivity|apply nth_error_nth; exact H]. }
    assert (Hmap : mapM (fun x : scored => bind (index rs (j_id (fst x))) (fun r => Ok (r, snd x))) o = Ok (map (fun x : scored => (lk (fst x), snd x)) o)).
    { apply RxnSetBaseProofs.mapM_ok. intros x Hx. destruct (Ho x Hx) as [Hb _]. destruct (Forall2_In_l _ _ _ _ Fc Hb) as (r & _ & Hj). destruct (Hlk _ _ Hj) as [-> ->]. reflexivity. }
    rewrite Hmap. eexists. split; [reflexivity|]. split.
    + rewrite map_map. cbn [fst]. assert (P : Permutation (map (fun x : scored => lk (fst x)) o) (map (fun x : scored => lk (fst x)) xs)) by (apply Permutation_map; exact M2).
      rewrite P. assert (E : map (fun x : scored => lk (fst x)) xs = targets).
      { clear -Ex Fc Hlk. set (B := by_product target js) in *. clearbody B. revert targets Fc. induction Ex as [|j x l m Hx F IH]; intros t Fc; inversion Fc as [|? r ? t' Hj Fc']; subst; [reflexivity|].
        cbn [map]. rewrite (decorate_keeps _ _ _ _ _ _ Hx). destruct (Hlk _ _ Hj) as [_ ->]. f_equal. apply IH. exact Fc'. }
      rewrite E. apply Permutation_refl.
    + intros r ps Hin. apply in_map_iff in Hin as ([j ps'] & E & Hx). cbn [fst snd] in E. injection E as <- <-. destruct (Ho _ Hx) as [Hb Es]. cbn [fst] in Hb, Es.
      destruct (Forall2_In_l _ _ _ _ Fc Hb) as (r & _ & Hj). exists j. split; [|exact Es]. destruct (Hlk _ _ Hj) as [_ ->]. exact Hj.
Qed.

Theorem job_scores wait chunk_size cpus memory target out : valid_schedule wait -> 1 <= chunk_size -> (forall n, n <= length rs -> fits n cpus memory) ->
  job wait chunk_size cpus memory target = Ok out ->
  (exists targets, subseq targets rs /\ targets <> [] /\ (forall r, In r targets <-> In r rs /\ produces r target) /\ Permutation (map fst out) targets)
  /\ forall r p s, In (r, (p, s)) out -> single_scored C round4 req rs r p s \/ pair_scored C convex_hull rs r p s.
Proof.
  intros Hw Hc Hf E. destruct (job_runs wait chunk_size cpus memory target Hw Hc Hf) as (js & targets & F & Sub & HT & Fc & J1 & J2). rewrite E in J1, J2.
  assert (Hne : targets <> []) by (intros H; specialize (J1 H); discriminate). specialize (J2 Hne).
  destruct (mapM (scores js) (by_product target js)) as [xs|]; [|destruct J2 as [er J2]; discriminate].
  destruct J2 as (out' & Eo & Hperm & Hsc). injection Eo as <-. split; [exists targets; tauto|]. intros r p s Hin. destruct (Hsc r (p, s) Hin) as (j & Hj & Ej).
  destruct (Forall2_combine _ _ _ _ _ F Hj) as (_ & _ & Hre & _). pose proof (in_combine_r _ _ _ _ Hj) as Hr.
  destruct (j_reactants j) as [|a [|b [|c l]]] eqn:Ea.
  - exfalso. destruct (Hrs r Hr) as (Hp & _ & _ & c & Hcc). rewrite <- (reactants_iff C W r c Hp), <- Hre in Hcc. destruct Hcc.
  - left. apply (single_spec js j r (j, (p, s)) F Hj); [rewrite Ea; reflexivity|exact Ej].
  - right. unfold scores in Ej. rewrite (decorate_pair _ _ _ _ _ _ a b Ea) in Ej. destruct (interface a b (by_reactants [a; b] js) j) as [ps|] eqn:Ei; [|discriminate].
    cbn [bind] in Ej. injection Ej as ->. exact (hull_scores_spec js j r a b p s F Hj Ea Ei).
  - unfold scores in Ej. rewrite decorate_closed in Ej by (rewrite Ea; cbn; lia). discriminate.
Qed.

(* If it fails, there is nothing to score, or some target reaction cannot be scored. *)
Theorem job_failure wait chunk_size cpus memory target er : valid_schedule wait -> 1 <= chunk_size -> (forall n, n <= length rs -> fits n cpus memory) ->
  job wait chunk_size cpus memory target = Err er ->
  (er = ValueError /\ forall r, In r rs -> ~ produces r target)
  \/ exists r, In r rs /\ produces r target /\ (three_reactants r \/ pair_unscored C convex_hull rs r).
Proof.
  intros Hw Hc Hf E. destruct (job_runs wait chunk_size cpus memory target Hw Hc Hf) as (js & targets & F & Sub & HT & Fc & J1 & J2). rewrite E in J1, J2.
  destruct targets as [|r0 ts] eqn:Et.
  - left. specialize (J1 eq_refl). injection J1 as ->. split; [reflexivity|]. intros r I P. apply (proj2 (HT r)). tauto.
  - right. rewrite <- Et in *. specialize (J2 ltac:(rewrite Et; discriminate)). clear Et.
    destruct (mapM (scores js) (by_product target js)) as [xs|er'] eqn:Ex; [destruct J2 as (o & J2 & _); discriminate|].
    destruct (RxnSetBaseProofs.mapM_err _ _ _ Ex) as (j & Hj & Ej). destruct (Forall2_In_l _ _ _ _ Fc Hj) as (r & Hr & Hjr). apply HT in Hr as [Hr Hpr].
    exists r. split; [exact Hr|]. split; [exact Hpr|]. destruct (Forall2_combine _ _ _ _ _ F Hjr) as (_ & _ & Hre & _).
    pose proof (reactants_nodup C W r (proj1 (Hrs r Hr))) as N. rewrite <- Hre in N.
    destruct (j_reactants j) as [|a [|b [|c l]]] eqn:Ea.
    + exfalso. destruct (Hrs r Hr) as (Hp & _ & _ & c & Hcc). rewrite <- (reactants_iff C W r c Hp), <- Hre in Hcc. destruct Hcc.
    + exfalso. unfold scores in Ej. destruct (decorate_single (same_rxn req rs) round4 interface arrange js None j ltac:(rewrite Ea; reflexivity)) as (v & p & s & D & _).
      rewrite D in Ej. discriminate.
    + right. unfold scores in Ej. rewrite (decorate_pair _ _ _ _ _ _ a b Ea) in Ej. destruct (interface a b (by_reactants [a; b] js) j) as [ps|] eqn:Ei; [discriminate|].
      exact (hull_scores_fails js j r a b _ F Hjr Ea Ei).
    + left. exists a, b, c. assert (G : forall x, In x (a :: b :: c :: l) -> consumes r x) by (intros x Hx; rewrite <- (reactants_iff C W r x (proj1 (Hrs r Hr))), <- Hre; exact Hx).
      split; [|split; [apply G; cbn; tauto|split; apply G; cbn; tauto]].
      apply NoDup_cons_iff in N as [N1 N]. apply NoDup_cons_iff in N as [N2 _]. cbn in N1, N2. intuition congruence.
Qed.

(* A target reaction of three or more reactants stops the job. *)
Theorem job_stops wait chunk_size cpus memory target r : valid_schedule wait -> 1 <= chunk_size -> (forall n, n <= length rs -> fits n cpus memory) ->
  In r rs -> produces r target -> three_reactants r -> exists er, job wait chunk_size cpus memory target = Err er.
Proof.
  intros Hw Hc Hf I P (a & b & c & Hd & Ha & Hb & Hcc). destruct (job wait chunk_size cpus memory target) as [out|er] eqn:E; [|exists er; reflexivity]. exfalso.
  destruct (job_scores wait chunk_size cpus memory target out Hw Hc Hf E) as ((ts & _ & _ & HT & Hperm) & Hs).
  assert (Hin : In r ts) by (apply HT; tauto). apply (Permutation_in _ (Permutation_sym Hperm)), in_map_iff in Hin as ([r' [p s]] & E' & Hin). cbn [fst] in E'. subst r'.
  destruct (Hs r p s Hin) as [(z & Hz & _)|(z & z' & _ & Hz & _)]; rewrite Hz in Ha, Hb, Hcc; intuition congruence.
Qed.
End Job.
