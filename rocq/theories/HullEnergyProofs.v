From Coq Require Import Setoid Morphisms Lqa Sorted.
From Verif Require Import Prelude NumQ SumQ ListFacts UtilsModel UtilsProofs HullModel HullSpec ParetoProofs
  CatalanProofs HullDecompProofs HullChainProofs.
Open Scope Q_scope.

(* --- sorting coordinates --- *)
Definition xle (c d : coord) : Prop := fst c <= fst d.
Definition xlt (c d : coord) : Prop := fst c < fst d.

Lemma insert_by_x_perm c l : Permutation (insert_by_x c l) (c :: l).
Proof.
  induction l as [|d l IH]; simpl; [reflexivity|]. destruct (Qlt_bool (fst d) (fst c)); [|reflexivity].
  rewrite IH. apply perm_swap.
Qed.
Lemma sort_by_x_perm l : Permutation (sort_by_x l) l.
Proof. induction l; simpl; [reflexivity|]. rewrite insert_by_x_perm. constructor. assumption. Qed.

Lemma insert_by_x_sorted c l : StronglySorted xle l -> StronglySorted xle (insert_by_x c l).
Proof.
  induction 1 as [|d l Hl IH Hd]; simpl; [repeat constructor|].
  destruct (Qlt_bool (fst d) (fst c)) eqn:E.
  - apply Qlt_bool_iff in E. constructor; [assumption|].
    apply (Permutation_Forall (Permutation_sym (insert_by_x_perm c l))).
    constructor; [unfold xle; lra|assumption].
  - apply Qlt_bool_false_iff in E. constructor; [constructor; assumption|].
    constructor; [exact E|]. eapply Forall_impl; [|exact Hd]. unfold xle. intros; lra.
Qed.
Lemma sort_by_x_sorted l : StronglySorted xle (sort_by_x l).
Proof. induction l; simpl; [constructor|]. apply insert_by_x_sorted. assumption. Qed.

Lemma strict_sorted_perm_eq l1 l2 :
  StronglySorted xle l1 -> StronglySorted xlt l2 -> Permutation l1 l2 -> l1 = l2.
Proof.
  intros H1; revert l2. induction H1 as [|a l1 H1 IH Ha]; intros l2 H2 HP.
  - apply Permutation_nil in HP. congruence.
  - destruct l2 as [|b l2]; [apply Permutation_sym, Permutation_nil in HP; discriminate|].
    inversion H2 as [|? ? Hs Hb]; subst.
    assert (a = b).
    { assert (Hba : In b (a :: l1)) by (eapply Permutation_in; [apply Permutation_sym, HP|left; reflexivity]).
      assert (Hab : In a (b :: l2)) by (eapply Permutation_in; [apply HP|left; reflexivity]).
      destruct Hba as [|Hba]; [assumption|]. destruct Hab as [|Hab]; [congruence|].
      rewrite Forall_forall in Ha, Hb. specialize (Ha b Hba). specialize (Hb a Hab).
      unfold xle, xlt in *. exfalso. lra. }
    subst b. f_equal. apply IH; [assumption|]. eapply Permutation_cons_inv, HP.
Qed.

Lemma sort_by_x_strict l l' : Permutation l l' -> StronglySorted xlt l' -> sort_by_x l = l'.
Proof.
  intros HP Hs. apply strict_sorted_perm_eq; [apply sort_by_x_sorted | assumption |].
  rewrite sort_by_x_perm. assumption.
Qed.

Lemma insert_front c l : Forall (xle c) l -> insert_by_x c l = c :: l.
Proof.
  destruct l as [|d l]; [reflexivity|]. intros H. inversion H as [|? ? Hd _]; subst. simpl.
  rewrite (proj2 (Qlt_bool_false_iff _ _) Hd). reflexivity.
Qed.

Lemma insert_app c l1 l2 : Forall (xle c) l2 -> insert_by_x c (l1 ++ l2) = insert_by_x c l1 ++ l2.
Proof.
  intros H. induction l1 as [|d l1 IH]; simpl; [apply insert_front; assumption|].
  destruct (Qlt_bool (fst d) (fst c)); [rewrite IH|]; reflexivity.
Qed.

Lemma sort_app l1 l2 : (forall c d, In c l1 -> In d l2 -> xle c d) -> StronglySorted xle l2 ->
  sort_by_x (l1 ++ l2) = sort_by_x l1 ++ l2.
Proof.
  intros H H2. induction l1 as [|c l1 IH].
  - simpl. induction H2 as [|d l2 H2 IH Hd]; [reflexivity|]. simpl. rewrite IH.
    + apply insert_front. assumption.
    + intros c e [].
  - cbn [app sort_by_x fold_right]. fold (sort_by_x (l1 ++ l2)). fold (sort_by_x l1).
    rewrite IH by (intros; apply H; [right|]; assumption). apply insert_app.
    apply Forall_forall. intros d Hd. apply H; [left; reflexivity|assumption].
Qed.

Lemma Permutation_filter' {A} (f : A -> bool) l1 l2 : Permutation l1 l2 -> Permutation (filter f l1) (filter f l2).
Proof.
  induction 1; simpl; try reflexivity.
  - destruct (f x); [constructor|]; assumption.
  - destruct (f x), (f y); try reflexivity. apply perm_swap.
  - etransitivity; eassumption.
Qed.

Lemma filter_ext_in' {A} (f g : A -> bool) l : (forall a, In a l -> f a = g a) -> filter f l = filter g l.
Proof. apply filter_ext_in. Qed.

Lemma StronglySorted_app_intro {A} (R : A -> A -> Prop) l1 l2 :
  StronglySorted R l1 -> StronglySorted R l2 -> (forall a b, In a l1 -> In b l2 -> R a b) ->
  StronglySorted R (l1 ++ l2).
Proof.
  induction 1 as [|a l1 H IH Ha]; simpl; intros H2 Hc; [assumption|].
  constructor; [apply IH; auto|]. apply Forall_app. split; [assumption|].
  apply Forall_forall. intros b Hb. apply Hc; [left; reflexivity|assumption].
Qed.

Lemma StronglySorted_nth_rel {A} (R : A -> A -> Prop) l : StronglySorted R l ->
  forall i j a b, (i < j)%nat -> nth_error l i = Some a -> nth_error l j = Some b -> R a b.
Proof.
  induction 1 as [|c l H IH Hc]; intros i j a b Hij Ha Hb; [destruct i; discriminate|].
  destruct j as [|j]; [lia|]. simpl in Hb. destruct i as [|i].
  - simpl in Ha. injection Ha as <-. rewrite Forall_forall in Hc. apply Hc. eapply nth_error_In; exact Hb.
  - simpl in Ha. apply (IH i j); auto. lia.
Qed.

(* --- heights under a supporting line --- *)
Lemma height_nonpos (u v p q r : coord) :
  fst p <= fst q <= fst r -> line_through u v (fst q) == snd q ->
  line_through u v (fst p) <= snd p -> line_through u v (fst r) <= snd r -> height p q r <= 0.
Proof.
  intros Hx Hq Hp Hr. unfold height. rewrite <- Hq.
  destruct (Qeq_dec (fst r) (fst p)) as [E|E].
  - assert (Ez : fst q - fst p == 0) by lra. rewrite Ez.
    setoid_replace (0 / (fst r - fst p) * (snd r - snd p)) with 0 by (unfold Qdiv; ring).
    setoid_replace (line_through u v (fst q)) with (line_through u v (fst p)); [lra|].
    unfold line_through. setoid_replace (fst q) with (fst p) by lra. reflexivity.
  - assert (Hlt : 0 < fst r - fst p) by (destruct (Qlt_le_dec 0 (fst r - fst p)); [assumption|exfalso; apply E; lra]).
    set (t := (fst q - fst p) / (fst r - fst p)).
    assert (Ht0 : 0 <= t) by (unfold t; apply Qle_shift_div_l; [assumption|lra]).
    assert (Ht1 : t <= 1) by (unfold t; apply Qle_shift_div_r; [assumption|lra]).
    assert (Hl : line_through u v (fst q) == (1 - t) * line_through u v (fst p) + t * line_through u v (fst r)).
    { rewrite <- line_affine. unfold line_through.
      setoid_replace ((1 - t) * fst p + t * fst r) with (fst q); [reflexivity|].
      unfold t. field. lra. }
    rewrite Hl. nra.
Qed.

Section Hull.
Variable h : hull.
Variable chain : list nat.
Hypothesis Hok : correct_hull (coords h) (qhull h) chain.
Let cs := coords h.

Definition on_hull (c : coord) : Prop := exists p q, supports cs p q /\ line_through p q (fst c) == snd c.
Definition above (c : coord) : Prop := forall p q, supports cs p q -> line_through p q (fst c) <= snd c.

Lemma in_above c : In c cs -> above c.
Proof. intros Hc p q [_ Hs]. apply Hs. assumption. Qed.

Lemma chain_on_hull i p : In i chain -> nth_error cs i = Some p -> on_hull p.
Proof.
  intros Hi Hp.
  destruct (linked_support cs chain i p (chain_linked h chain Hok) (chain_length h chain Hok) Hi Hp)
    as (q & r & Hs & Hl). exists q, r. split; assumption.
Qed.

Lemma line_comp p q x x' : x == x' -> line_through p q x == line_through p q x'.
Proof. intros E. unfold line_through. rewrite E. reflexivity. Qed.

Lemma hull_unique c d : fst c == fst d -> on_hull c -> above c -> on_hull d -> above d -> snd c == snd d.
Proof.
  intros E (p & q & Hs & Hl) Ha (p' & q' & Hs' & Hl') Ha'. apply Qle_antisym.
  - rewrite <- Hl, (line_comp p q _ _ E). apply Ha'. assumption.
  - rewrite <- Hl', <- (line_comp p' q' _ _ E). apply Ha. assumption.
Qed.

Lemma combination_above ws x y p q : combination cs ws x y -> supports cs p q -> line_through p q x <= y.
Proof.
  intros (Hin & Hw & Hx & Hy) [Hlt Hs].
  assert (G : line_through p q 0 * fold_right (fun cw s => snd cw + s) 0 ws
     + (snd q - snd p) / (fst q - fst p) * fold_right (fun cw s => snd cw * fst (fst cw) + s) 0 ws
     <= fold_right (fun (cw : coord * Q) s => snd cw * snd (fst cw) + s) 0 ws).
  { clear Hw Hx Hy. induction ws as [|[c w] ws IH]; [simpl; lra|].
    cbn [fold_right fst snd].
    specialize (IH (fun c' w' H => Hin c' w' (or_intror H))).
    destruct (Hin c w (or_introl eq_refl)) as [Hc Hwn].
    specialize (Hs c Hc).
    assert (Hl : line_through p q (fst c) == line_through p q 0 + (snd q - snd p) / (fst q - fst p) * fst c)
      by (unfold line_through, Qdiv; ring).
    rewrite Hl in Hs. nra. }
  rewrite Hw, Hx, Hy in G.
  setoid_replace (line_through p q x) with (line_through p q 0 * 1 + (snd q - snd p) / (fst q - fst p) * x); [exact G|].
  unfold line_through, Qdiv. ring.
Qed.

(* --- property of the returned reactions --- *)
Lemma reactions_weights x : 0 <= x <= 1 ->
  exists res x', get_reactions_by_coordinate h x = Ok res
  /\ (length res <= 2)%nat
  /\ (forall i w, In (i, w) res -> In i chain /\ 0 <= w)
  /\ Qsum (map snd res) == 1
  /\ Qsum (map (fun iw => snd iw * fst (nth (fst iw) cs (0, 0))) res) == x'
  /\ isclose x x' = true.
Proof.
  intros Hx. destruct (get_reactions_at h chain Hok x Hx) as (res & Hres & [Hat|Hat]).
  - destruct Hat as (i & p & -> & Hi & Hp & Hc). exists [(i, 1)], (fst p).
    split; [assumption|]. split; [simpl; lia|]. split.
    { intros j w [E|[]]. injection E as <- <-. split; [assumption|lra]. }
    split; [simpl; ring|]. split; [|assumption].
    cbn [map fst snd Qsum fold_right]. unfold cs. rewrite (nth_error_nth _ _ (0,0) Hp). ring.
  - destruct Hat as (u & v & p & q & Hu & Hv & Hp & Hq & [Hlt Hs] & Hxx & ->).
    eexists _, x. split; [exact Hres|]. split; [simpl; lia|]. split.
    { intros j w [E|[E|[]]]; injection E as <- <-; (split; [assumption|]);
        (apply Qle_shift_div_l; lra). }
    split; [cbn [map fst snd Qsum fold_right]; field; lra|].
    split; [|apply isclose_refl; reflexivity].
    cbn [map fst snd Qsum fold_right]. unfold cs.
    rewrite (nth_error_nth _ _ (0,0) Hp), (nth_error_nth _ _ (0,0) Hq). field. lra.
Qed.

Lemma hull_energy_spec x : 0 <= x <= 1 -> exact_coordinate cs chain x ->
  exists e, get_hull_energy h x = Ok e /\ on_hull (x, e) /\ envelope cs x e.
Proof.
  intros Hx Hex. unfold get_hull_energy.
  destruct (get_reactions_at h chain Hok x Hx) as (res & Hres & [Hat|Hat]).
  - destruct Hat as (i & p & -> & Hi & Hp & Hc). rewrite Hres. cbn [weighted_energy].
    rewrite Hp. destruct p as [px py]. pose proof (Hex i _ Hi Hp Hc) as Exp. cbn [fst] in Exp.
    eexists. split; [reflexivity|].
    assert (Ey : 1 * py + 0 == py) by ring.
    assert (Hon : on_hull (x, 1 * py + 0)).
    { destruct (chain_on_hull i _ Hi Hp) as (q & r & Hs & Hl). exists q, r. split; [assumption|].
      cbn [fst snd] in *. rewrite (line_comp q r _ _ Exp), Hl. symmetry. exact Ey. }
    split; [assumption|]. split.
    + exists [((px, py), 1)]. split; [|split; [|split]].
      * intros c w [E|[]]. injection E as <- <-. split; [|lra]. unfold cs. eapply nth_error_In; exact Hp.
      * simpl. ring.
      * simpl. rewrite Exp. ring.
      * simpl. ring.
    + intros ws y' Hcomb. destruct Hon as (q & r & Hs & Hl). cbn [fst snd] in Hl. rewrite <- Hl.
      eapply combination_above; eassumption.
  - destruct Hat as (u & v & p & q & Hu & Hv & Hp & Hq & Hs & Hxx & ->). rewrite Hres.
    cbn [weighted_energy]. rewrite Hp, Hq. destruct p as [px py], q as [qx qy].
    cbn [fst snd] in *. pose proof (proj1 Hs) as Hlt. cbn [fst] in Hlt.
    eexists. split; [reflexivity|].
    set (e := (qx - x) / (qx - px) * py + ((x - px) / (qx - px) * qy + 0)).
    assert (Hl : line_through (px, py) (qx, qy) x == e)
      by (unfold e, line_through; cbn [fst snd]; field; lra).
    assert (Hon : on_hull (x, e)) by (exists (px, py), (qx, qy); split; assumption).
    split; [assumption|]. split.
    + exists [((px, py), (qx - x) / (qx - px)); ((qx, qy), (x - px) / (qx - px))]. split; [|split; [|split]].
      * intros c w [E|[E|[]]]; injection E as <- <-; (split; [unfold cs; eapply nth_error_In; eassumption|]);
          (apply Qle_shift_div_l; lra).
      * cbn [fold_right fst snd]. field. lra.
      * cbn [fold_right fst snd]. field. lra.
      * unfold e. cbn [fold_right fst snd]. field. lra.
    + intros ws y' Hcomb. rewrite <- Hl. eapply combination_above; eassumption.
Qed.

Lemma envelope_above x e : envelope cs x e -> above (x, e).
Proof. intros [(ws & Hc) _] p q Hs. eapply combination_above; eassumption. Qed.

Lemma energy_above_hull_spec i c : nth_error cs i = Some c -> 0 <= fst c <= 1 ->
  exact_coordinate cs chain (fst c) ->
  exists d, get_energy_above_hull h i = Ok d /\ 0 <= d /\ (In i chain -> d == 0).
Proof.
  intros Hi Hx Hex. destruct (hull_energy_spec (fst c) Hx Hex) as (e & He & Hon & Henv).
  unfold get_energy_above_hull. fold cs. rewrite Hi. destruct c as [x y]. cbn [fst] in *. rewrite He.
  eexists. split; [reflexivity|].
  destruct Hon as (p & q & Hs & Hl). cbn [fst snd] in Hl. split.
  - pose proof (in_above (x, y) (nth_error_In _ _ Hi) p q Hs) as Ha. cbn [fst snd] in Ha. lra.
  - intros Hin. assert (E : y == e); [|lra].
    apply (hull_unique (x, y) (x, e)); [reflexivity| | | |].
    + eapply chain_on_hull; eassumption.
    + apply in_above. eapply nth_error_In; exact Hi.
    + exists p, q. split; assumption.
    + apply envelope_above. assumption.
Qed.

(* --- the points in a range --- *)
Definition pt_of (i : nat) : coord := nth i (coords h) (0, 0).
Definition between (a b : Q) (c : coord) : bool := Qlt_bool a (fst c) && Qlt_bool (fst c) b.
Definition inner (a b : Q) : list coord := filter (between a b) (map pt_of chain).

Lemma pt_of_chain i : In i chain -> nth_error cs i = Some (pt_of i).
Proof.
  intros Hi. destruct (linked_nth _ _ _ (chain_linked h chain Hok) Hi) as (p & Hp).
  unfold pt_of, cs. rewrite (nth_error_nth _ _ (0,0) Hp). assumption.
Qed.

Lemma chain_pts_sorted : StronglySorted xlt (map pt_of chain).
Proof.
  assert (G : forall l, linked cs l -> StronglySorted xlt (map pt_of l)).
  { intros l Hl. induction l as [|a l IH]; [constructor|].
    assert (Ha : exists p, nth_error cs a = Some p) by (apply (linked_nth cs (a :: l)); [assumption|left; reflexivity]).
    destruct Ha as (p & Ha). cbn [map]. constructor.
    - destruct l as [|b l]; [constructor|]. apply IH. inversion Hl; assumption.
    - pose proof (linked_x h l a p Hl Ha) as HF. apply Forall_map. eapply Forall_impl; [|exact HF].
      intros i (q & Hq & Hlt). unfold xlt, pt_of. unfold cs in Ha.
      rewrite (nth_error_nth _ _ (0,0) Ha), (nth_error_nth _ _ (0,0) Hq). assumption. }
  apply G, (chain_linked h chain Hok).
Qed.

Lemma inner_sorted a b : StronglySorted xlt (inner a b).
Proof. apply StronglySorted_filter, chain_pts_sorted. Qed.

Lemma in_inner a b c : In c (inner a b) ->
  (exists i, In i chain /\ nth_error cs i = Some c) /\ a < fst c < b.
Proof.
  unfold inner. rewrite filter_In. intros [Hin Hb]. apply in_map_iff in Hin as (i & <- & Hi).
  apply andb_true_iff in Hb as [H1%Qlt_bool_iff H2%Qlt_bool_iff].
  split; [|split; assumption]. exists i. split; [assumption|]. apply pt_of_chain. assumption.
Qed.

Definition pre_pts (a ya : Q) : list coord := if isclose a 0 && negb (isclose ya 0) then [(0, 0)] else [].
Definition post_pts (b yb : Q) : list coord := if isclose b 1 && negb (isclose yb 0) then [(1, 0)] else [].
Definition range_pts (a ya b yb : Q) : list coord :=
  pre_pts a ya ++ [(a, ya)] ++ inner a b ++ (if Qeq_bool b a then [] else [(b, yb)]) ++ post_pts b yb.

Lemma chain_zero : exists i p, In i chain /\ nth_error cs i = Some p /\ fst p == 0.
Proof.
  destruct Hok as [_ _ [_ (a & r & p & Hc & Hp & H0) _] _ _ _]. exists a, p. rewrite Hc.
  split; [left; reflexivity|]. split; assumption.
Qed.
Lemma chain_one : exists i p, In i chain /\ nth_error cs i = Some p /\ fst p == 1.
Proof.
  destruct Hok as [_ _ [_ _ (a & r & p & Hc & Hp & H0)] _ _ _]. exists a, p. rewrite Hc.
  split; [apply in_or_app; right; left; reflexivity|]. split; assumption.
Qed.

Lemma exact_zero x : exact_coordinate cs chain x -> isclose x 0 = true -> x == 0.
Proof.
  intros Hex Hc. destruct chain_zero as (i & p & Hi & Hp & E).
  rewrite <- E. apply (Hex i p Hi Hp). rewrite <- Hc. apply isclose_comp; [reflexivity|assumption].
Qed.
Lemma exact_one x : exact_coordinate cs chain x -> isclose x 1 = true -> x == 1.
Proof.
  intros Hex Hc. destruct chain_one as (i & p & Hi & Hp & E).
  rewrite <- E. apply (Hex i p Hi Hp). rewrite <- Hc. apply isclose_comp; [reflexivity|assumption].
Qed.

Lemma in_pre a ya c : In c (pre_pts a ya) -> c = (0, 0).
Proof. unfold pre_pts. destruct (_ && _); simpl; [intros [<-|[]]; reflexivity|intros []]. Qed.
Lemma in_post b yb c : In c (post_pts b yb) -> c = (1, 0).
Proof. unfold post_pts. destruct (_ && _); simpl; [intros [<-|[]]; reflexivity|intros []]. Qed.

Lemma range_spec a b : 0 <= a -> a <= b -> b <= 1 -> exact_coordinate cs chain a -> exact_coordinate cs chain b ->
  exists ya yb, get_hull_energy h a = Ok ya /\ get_hull_energy h b = Ok yb
  /\ on_hull (a, ya) /\ envelope cs a ya /\ on_hull (b, yb) /\ envelope cs b yb
  /\ get_coords_in_range h a b = Ok (range_pts a ya b yb).
Proof.
  intros Ha Hab Hb Hea Heb.
  destruct (hull_energy_spec a) as (ya & Hya & Hona & Henva); [lra|assumption|].
  destruct (hull_energy_spec b) as (yb & Hyb & Honb & Henvb); [lra|assumption|].
  exists ya, yb. repeat (split; [assumption|]).
  unfold get_coords_in_range. rewrite (proj2 (Qle_bool_iff a b) Hab), Hya, Hyb.
  f_equal. unfold range_pts. fold (pre_pts a ya). fold (post_pts b yb).
  set (post := (if Qeq_bool b a then [] else [(b, yb)]) ++ post_pts b yb).
  set (code := filter _ _).
  assert (HP : Permutation code (inner a b)).
  { unfold code, inner. etransitivity;
      [|apply Permutation_filter', Permutation_map, (hull_vertices_perm h chain Hok)].
    change (fun i : nat => nth i (coords h) (0, 0)) with pt_of.
    rewrite (filter_ext_in' (fun c : coord => Qlt_bool (fst c) b && Qlt_bool a (fst c) && Qle_bool (snd c) 0) (between a b)); [reflexivity|].
    intros c Hc. apply in_map_iff in Hc as (i & <- & Hi).
    apply (in_hull_vertices h chain Hok) in Hi. pose proof (pt_of_chain i Hi) as Hp.
    pose proof (chain_vertex_nonpos h chain Hok i _ Hi Hp (chain_x h chain Hok i _ Hi Hp)) as Hn.
    rewrite (proj2 (Qle_bool_iff _ _) Hn), andb_true_r. unfold between. apply andb_comm. }
  assert (Hpost : forall d, In d post -> b <= fst d).
  { unfold post. intros d Hd. apply in_app_or in Hd as [Hd|Hd].
    - destruct (Qeq_bool b a); [destruct Hd|]. destruct Hd as [<-|[]]. apply Qle_refl.
    - apply in_post in Hd as ->. exact Hb. }
  assert (Hposts : StronglySorted xle post).
  { unfold post. apply StronglySorted_app_intro.
    - destruct (Qeq_bool b a); repeat constructor.
    - unfold post_pts. destruct (_ && _); repeat constructor.
    - intros c d Hc Hd. apply in_post in Hd as ->. destruct (Qeq_bool b a); [destruct Hc|].
      destruct Hc as [<-|[]]. exact Hb. }
  assert (Hmid : sort_by_x (code ++ post) = inner a b ++ post).
  { rewrite sort_app; [|intros c d Hc Hd|assumption].
    - rewrite (sort_by_x_strict code (inner a b) HP (inner_sorted a b)). reflexivity.
    - apply (Permutation_in c HP) in Hc. apply in_inner in Hc as [_ Hc]. specialize (Hpost d Hd). unfold xle. lra. }
  assert (Hall : forall d, In d (inner a b ++ post) -> a <= fst d).
  { intros d Hd. apply in_app_or in Hd as [Hd|Hd]; [apply in_inner in Hd as [_ Hd]; lra|]. specialize (Hpost d Hd). lra. }
  assert (Hcons : sort_by_x ([(a, ya)] ++ code ++ post) = (a, ya) :: inner a b ++ post).
  { cbn [app sort_by_x fold_right]. fold (sort_by_x (code ++ post)). rewrite Hmid. apply insert_front.
    apply Forall_forall. intros d Hd. unfold xle. cbn [fst]. apply Hall. assumption. }
  unfold pre_pts. destruct (_ && _).
  - cbn [app] in Hcons |- *.
    change (insert_by_x (0, 0) (sort_by_x ((a, ya) :: code ++ post)) = (0, 0) :: (a, ya) :: inner a b ++ post).
    rewrite Hcons. apply insert_front. constructor; [exact Ha|].
    apply Forall_forall. intros d Hd. specialize (Hall d Hd). unfold xle. cbn [fst]. lra.
  - cbn [app] in Hcons |- *. exact Hcons.
Qed.

Lemma range_props a b ya yb : 0 <= a -> a <= b -> b <= 1 ->
  exact_coordinate cs chain a -> exact_coordinate cs chain b ->
  on_hull (a, ya) -> envelope cs a ya -> on_hull (b, yb) -> envelope cs b yb ->
  heights_defined (range_pts a ya b yb) /\ convex_points (range_pts a ya b yb).
Proof.
  intros Ha Hab Hb Hea Heb Hona Henva Honb Henvb.
  set (M := [(a, ya)] ++ inner a b ++ (if Qeq_bool b a then [] else [(b, yb)])).
  assert (HM : range_pts a ya b yb = pre_pts a ya ++ M ++ post_pts b yb).
  { unfold range_pts, M. rewrite <- !app_assoc. reflexivity. }
  assert (HMs : StronglySorted xlt M).
  { unfold M. cbn [app]. constructor.
    - apply StronglySorted_app_intro; [apply inner_sorted| |].
      + destruct (Qeq_bool b a); repeat constructor.
      + intros c d Hc Hd. apply in_inner in Hc as [_ Hc]. destruct (Qeq_bool b a); [destruct Hd|].
        destruct Hd as [<-|[]]. unfold xlt. cbn [fst]. lra.
    - apply Forall_app. split.
      + apply Forall_forall. intros c Hc. apply in_inner in Hc as [_ Hc]. unfold xlt. cbn [fst]. lra.
      + destruct (Qeq_bool b a) eqn:E; constructor; [|constructor]. unfold xlt. cbn [fst].
        assert (~ b == a) by (intros G; apply Qeq_bool_iff in G; congruence). lra. }
  assert (HMx : forall c, In c M -> a <= fst c <= b).
  { unfold M. intros c Hc. cbn [app] in Hc. destruct Hc as [<-|Hc]; [cbn [fst]; lra|].
    apply in_app_or in Hc as [Hc|Hc]; [apply in_inner in Hc as [_ Hc]; lra|].
    destruct (Qeq_bool b a); [destruct Hc|]. destruct Hc as [<-|[]]. cbn [fst]. lra. }
  assert (HMo : forall c, In c M -> on_hull c /\ above c).
  { unfold M. intros c Hc. cbn [app] in Hc. destruct Hc as [<-|Hc].
    - split; [assumption|apply envelope_above; assumption].
    - apply in_app_or in Hc as [Hc|Hc].
      + apply in_inner in Hc as [(i & Hi & Hp) _]. split; [eapply chain_on_hull; eassumption|].
        apply in_above. eapply nth_error_In; exact Hp.
      + destruct (Qeq_bool b a); [destruct Hc|]. destruct Hc as [<-|[]].
        split; [assumption|apply envelope_above; assumption]. }
  assert (Hpre : pre_pts a ya = [] \/ (pre_pts a ya = [(0, 0)] /\ a == 0)).
  { unfold pre_pts. destruct (isclose a 0) eqn:E; [|left; reflexivity].
    destruct (isclose ya 0); [left; reflexivity|right]. split; [reflexivity|]. apply exact_zero; assumption. }
  assert (Hpost : post_pts b yb = [] \/ (post_pts b yb = [(1, 0)] /\ b == 1)).
  { unfold post_pts. destruct (isclose b 1) eqn:E; [|left; reflexivity].
    destruct (isclose yb 0); [left; reflexivity|right]. split; [reflexivity|]. apply exact_one; assumption. }
  assert (HMne : (1 <= length M)%nat) by (unfold M; simpl; lia).
  assert (HM1 : (length M = 1)%nat -> a == b).
  { unfold M. cbn [app length]. rewrite app_length. destruct (Qeq_bool b a) eqn:E.
    - intros _. apply Qeq_bool_iff in E. symmetry. assumption.
    - simpl. lia. }
  (* classify positions *)
  assert (Hcls : forall i c, nth_error (range_pts a ya b yb) i = Some c ->
     (i = 0%nat /\ c = (0, 0) /\ a == 0 /\ pre_pts a ya = [(0,0)])
     \/ (exists i', nth_error M i' = Some c /\ i = (length (pre_pts a ya) + i')%nat)
     \/ (i = (length (pre_pts a ya) + length M)%nat /\ c = (1, 0) /\ b == 1)).
  { intros i c Hc. rewrite HM in Hc.
    destruct (Nat.ltb_spec i (length (pre_pts a ya))) as [Hi|Hi].
    - rewrite nth_error_app1 in Hc by assumption. left.
      destruct Hpre as [E|[E E0]]; rewrite E in *; simpl in Hi; [lia|].
      assert (i = 0)%nat by lia. subst i. simpl in Hc. injection Hc as <-. auto.
    - rewrite nth_error_app2 in Hc by assumption. right.
      destruct (Nat.ltb_spec (i - length (pre_pts a ya)) (length M)) as [Hj|Hj].
      + rewrite nth_error_app1 in Hc by assumption. left. eexists. split; [exact Hc|lia].
      + rewrite nth_error_app2 in Hc by assumption. right.
        destruct Hpost as [E|[E E0]]; rewrite E in Hc.
        * destruct (_ - _)%nat; discriminate.
        * destruct (i - length (pre_pts a ya) - length M)%nat as [|k] eqn:Ek; [|destruct k; discriminate].
          simpl in Hc. injection Hc as <-. split; [lia|auto]. }
  assert (Hlp : (length (pre_pts a ya) <= 1)%nat) by (destruct Hpre as [E|[E _]]; rewrite E; simpl; lia).
  split.
  - intros i k p q Hik Hp Hq.
    apply Hcls in Hp. apply Hcls in Hq.
    destruct Hp as [(-> & -> & Ea & Epre)|[(i' & Hi' & ->)|(-> & -> & Eb)]];
    destruct Hq as [(-> & -> & Ea2 & Epre2)|[(k' & Hk' & ->)|(-> & -> & Eb2)]]; try lia.
    + (* pre, M *)
      rewrite Epre in Hik. simpl in Hik.
      assert (Hlt : xlt (a, ya) q).
      { apply (StronglySorted_nth_rel xlt M HMs 0 k'); [lia|reflexivity|assumption]. }
      unfold xlt in Hlt. cbn [fst] in *. lra.
    + cbn [fst]. lra.
    + apply (StronglySorted_nth_rel xlt M HMs i' k'); [lia|assumption|assumption].
    + cbn [fst].
      assert (Hl : (i' < length M)%nat) by (apply nth_error_Some; congruence).
      destruct (nth_error M (S i')) as [c|] eqn:Ec; [|apply nth_error_None in Ec; lia].
      assert (Hlt : xlt p c) by (apply (StronglySorted_nth_rel xlt M HMs i' (S i')); [lia|assumption|assumption]).
      pose proof (HMx c (nth_error_In _ _ Ec)). unfold xlt in Hlt. lra.
    + assert (Hl : (k' < length M)%nat) by (apply nth_error_Some; congruence). lia.
  - intros i j k p q r Hijk Hp Hq Hr.
    assert (Hx : forall c, In c (range_pts a ya b yb) -> above c).
    { rewrite HM. intros c Hc. apply in_app_or in Hc as [Hc|Hc].
      - apply in_pre in Hc as ->. apply in_above. apply (ch_left _ _ _ Hok).
      - apply in_app_or in Hc as [Hc|Hc]; [apply HMo; assumption|].
        apply in_post in Hc as ->. apply in_above. apply (ch_right _ _ _ Hok). }
    assert (Hs : StronglySorted xle (range_pts a ya b yb)).
    { rewrite HM. apply StronglySorted_app_intro.
      - destruct Hpre as [E|[E _]]; rewrite E; repeat constructor.
      - apply StronglySorted_app_intro.
        + clear -HMs. induction HMs as [|c l H IH Hc]; constructor; [assumption|].
          eapply Forall_impl; [|exact Hc]. unfold xlt, xle. intros; lra.
        + destruct Hpost as [E|[E _]]; rewrite E; repeat constructor.
        + intros c d Hc Hd. apply in_post in Hd as ->. specialize (HMx c Hc). unfold xle. cbn [fst]. lra.
      - intros c d Hc Hd. apply in_pre in Hc as ->. unfold xle. cbn [fst].
        apply in_app_or in Hd as [Hd|Hd]; [specialize (HMx d Hd); lra|].
        apply in_post in Hd as ->. cbn [fst]. lra. }
    assert (Hon : on_hull q).
    { destruct (Hcls j q Hq) as [(-> & _)|[(j' & Hj' & _)|(Ej & _)]]; [lia|apply HMo; eapply nth_error_In; exact Hj'|].
      destruct (Hcls k r Hr) as [(-> & _)|[(k' & Hk' & Ek)|(Ek & _)]]; [lia| |lia].
      assert (Hl : (k' < length M)%nat) by (apply nth_error_Some; congruence). lia. }
    destruct Hon as (u & v & Huv & Hl).
    apply (height_nonpos u v).
    + split; [apply (StronglySorted_nth_rel xle _ Hs i j)|apply (StronglySorted_nth_rel xle _ Hs j k)]; auto; lia.
    + assumption.
    + apply Hx; [eapply nth_error_In; exact Hp|assumption].
    + apply Hx; [eapply nth_error_In; exact Hr|assumption].
Qed.
End Hull.
