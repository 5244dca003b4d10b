From Coq Require Import Setoid Morphisms Lqa.
From Verif Require Import Prelude NumQ SumQ ListFacts UtilsModel UtilsProofs HullModel HullSpec ParetoProofs.
Open Scope Q_scope.

Lemma isclose_refl a b : a == b -> isclose a b = true.
Proof.
  intros H. unfold isclose. apply Qle_bool_iff. rewrite H.
  setoid_replace (b - b) with 0 by ring. pose proof (Qabs_nonneg b).
  change (Qabs 0) with 0. lra.
Qed.

Lemma isclose_comp a a' b b' : a == a' -> b == b' -> isclose a b = isclose a' b'.
Proof.
  intros Ha Hb. unfold isclose. apply Bool.eq_iff_eq_true. rewrite !Qle_bool_iff, Ha, Hb. reflexivity.
Qed.

Lemma Qlt_bool_comp a a' b b' : a == a' -> b == b' -> Qlt_bool a b = Qlt_bool a' b'.
Proof.
  intros Ha Hb. apply Bool.eq_iff_eq_true. rewrite !Qlt_bool_iff, Ha, Hb. reflexivity.
Qed.

(* --- sorting naturals --- *)
Lemma insert_nat_perm n l : Permutation (insert_nat n l) (n :: l).
Proof.
  induction l as [|m l IH]; simpl; [reflexivity|]. destruct (n <=? m)%nat; [reflexivity|].
  rewrite IH. apply perm_swap.
Qed.
Lemma sort_nat_perm l : Permutation (sort_nat l) l.
Proof. induction l; simpl; [reflexivity|]. rewrite insert_nat_perm. constructor. assumption. Qed.

From Coq Require Import Sorted.
Lemma insert_nat_sorted n l : StronglySorted le l -> StronglySorted le (insert_nat n l).
Proof.
  induction 1 as [|m l Hl IH Hm]; simpl; [repeat constructor|].
  destruct (Nat.leb_spec n m).
  - constructor; [constructor; assumption|]. constructor; [assumption|].
    eapply Forall_impl; [|exact Hm]. intros; lia.
  - constructor; [assumption|].
    apply (Permutation_Forall (Permutation_sym (insert_nat_perm n l))). constructor; [lia|assumption].
Qed.
Lemma sort_nat_sorted l : StronglySorted le (sort_nat l).
Proof. induction l; simpl; [constructor|]. apply insert_nat_sorted. assumption. Qed.

Lemma sorted_perm_eq l1 l2 : StronglySorted le l1 -> StronglySorted le l2 -> Permutation l1 l2 -> l1 = l2.
Proof.
  intros H1; revert l2. induction H1 as [|a l1 H1 IH Ha]; intros l2 H2 HP.
  - apply Permutation_nil in HP. congruence.
  - destruct l2 as [|b l2]; [apply Permutation_sym, Permutation_nil in HP; discriminate|].
    inversion H2 as [|? ? Hs Hb]; subst.
    assert (a = b).
    { assert (Hba : In b (a :: l1)) by (eapply Permutation_in; [apply Permutation_sym, HP|left; reflexivity]).
      assert (Hab : In a (b :: l2)) by (eapply Permutation_in; [apply HP|left; reflexivity]).
      destruct Hba as [|Hba]; [assumption|]. destruct Hab as [|Hab]; [congruence|].
      rewrite Forall_forall in Ha, Hb. specialize (Ha b Hba). specialize (Hb a Hab). lia. }
    subst b. f_equal. apply IH; [assumption|]. eapply Permutation_cons_inv, HP.
Qed.

(* --- the chain as a linked list of supporting edges --- *)
Definition supports (cs : list coord) (p q : coord) : Prop :=
  fst p < fst q /\ forall c, In c cs -> line_through p q (fst c) <= snd c.

Inductive linked (cs : list coord) : list nat -> Prop :=
| linked_one a p : nth_error cs a = Some p -> linked cs [a]
| linked_cons a b l p q : (a < b)%nat -> nth_error cs a = Some p -> nth_error cs b = Some q ->
    supports cs p q -> linked cs (b :: l) -> linked cs (a :: b :: l).

Lemma linked_of_edges cs chain a r p :
  chain = a :: r -> nth_error cs a = Some p ->
  (forall l1 a b l2, chain = l1 ++ a :: b :: l2 ->
    (a < b)%nat /\ exists p q, nth_error cs a = Some p /\ nth_error cs b = Some q
    /\ fst p < fst q /\ forall c, In c cs -> line_through p q (fst c) <= snd c) ->
  linked cs chain.
Proof.
  revert a r p. induction chain as [|a0 l IH]; intros a r p E Ha H; [discriminate|].
  injection E as -> ->. destruct r as [|b r]; [econstructor; eassumption|].
  destruct (H [] a b r eq_refl) as (Hlt & p' & q & Hp & Hq & Hx & Hs).
  econstructor; try eassumption; [split; assumption|].
  eapply IH; [reflexivity|eassumption|]. intros l1 a' b' l2 E. apply (H (a :: l1) a' b' l2). rewrite E. reflexivity.
Qed.

Lemma linked_sorted cs l : linked cs l -> StronglySorted lt l.
Proof.
  induction 1 as [|a b l p q Hab Ha Hb Hs Hl IH]; [repeat constructor|].
  constructor; [assumption|]. constructor; [assumption|].
  inversion IH as [|? ? ? Hf]; subst. eapply Forall_impl; [|exact Hf]. intros; simpl in *; lia.
Qed.

Lemma sorted_lt_le l : StronglySorted lt l -> StronglySorted le l.
Proof.
  induction 1 as [|a l H IH Ha]; constructor; [assumption|]. eapply Forall_impl; [|exact Ha]. intros; lia.
Qed.
Lemma sorted_lt_NoDup l : StronglySorted lt l -> NoDup l.
Proof.
  induction 1 as [|a l H IH Ha]; constructor; [|assumption].
  rewrite Forall_forall in Ha. intros Hin. specialize (Ha a Hin). lia.
Qed.

Lemma linked_nth cs l i : linked cs l -> In i l -> exists p, nth_error cs i = Some p.
Proof.
  induction 1 as [a p Ha|a b l p q Hab Ha Hb Hs Hl IH]; intros [<-|Hi]; eauto. destruct Hi.
Qed.

(* Every vertex of a chain with at least one edge lies on a supporting line. *)
Lemma linked_support cs l i p : linked cs l -> (2 <= length l)%nat -> In i l -> nth_error cs i = Some p ->
  exists q r, supports cs q r /\ line_through q r (fst p) == snd p.
Proof.
  induction 1 as [a p0 Ha|a b l p0 q Hab Ha Hb Hs Hl IH]; intros Hlen Hi Hp; [simpl in Hlen; lia|].
  destruct Hs as [Hx Hs].
  assert (Hb' : forall c, fst c == fst q -> snd c == snd q -> line_through p0 q (fst c) == snd c).
  { intros c H1 H2. unfold line_through. rewrite H1, H2. field. lra. }
  destruct Hi as [->|Hi].
  - rewrite Ha in Hp. injection Hp as ->. exists p, q. split; [split; assumption|].
    unfold line_through. field. lra.
  - destruct Hi as [->|Hi].
    + rewrite Hb in Hp. injection Hp as ->. exists p0, p. split; [split; assumption|]. apply Hb'; reflexivity.
    + apply IH; [|right; assumption|assumption]. destruct l; [destruct Hi|simpl; lia].
Qed.

Lemma line_affine p q x y t : line_through p q ((1 - t) * x + t * y)
   == (1 - t) * line_through p q x + t * line_through p q y.
Proof. unfold line_through. unfold Qdiv. ring. Qed.

Lemma min_at_spec cs x :
  match min_at cs x with
  | None => forall c, In c cs -> ~ fst c == x
  | Some m => (exists c, In c cs /\ fst c == x /\ snd c == m) /\ forall c, In c cs -> fst c == x -> m <= snd c
  end.
Proof.
  induction cs as [|c cs IH]; [simpl; tauto|].
  cbn [min_at fold_right]. fold (min_at cs x).
  destruct (Qeq_bool (fst c) x) eqn:E.
  - apply Qeq_bool_iff in E. destruct (min_at cs x) as [m|].
    + destruct IH as [(d & Hd & Hdx & Hdm) IH].
      destruct (Qle_bool (snd c) m) eqn:El.
      * apply Qle_bool_iff in El. split.
        -- exists c. split; [left; reflexivity|]. split; [assumption|reflexivity].
        -- intros e [<-|He] Hx; [apply Qle_refl|]. eapply Qle_trans; [exact El|]. apply IH; assumption.
      * assert (Hlt : m < snd c) by (apply Qnot_le_lt; intros G; apply Qle_bool_iff in G; congruence).
        split.
        -- exists d. split; [right; assumption|]. split; assumption.
        -- intros e [<-|He] Hx; [lra|]. apply IH; assumption.
    + split.
      * exists c. split; [left; reflexivity|]. split; [assumption|reflexivity].
      * intros e [<-|He] Hx; [apply Qle_refl|]. exfalso. apply (IH e He Hx).
  - assert (Hne : ~ fst c == x) by (intros G; apply Qeq_bool_iff in G; congruence).
    destruct (min_at cs x) as [m|].
    + destruct IH as [(d & Hd & Hdx & Hdm) IH]. split.
      * exists d. split; [right; assumption|]. split; assumption.
      * intros e [<-|He] Hx; [contradiction|]. apply IH; assumption.
    + intros e [<-|He]; [assumption|]. apply IH; assumption.
Qed.

Lemma by_coordinate_loop_cons cs x v1 v2 l : by_coordinate_loop cs x (v1 :: v2 :: l) =
  match nth_error cs v1, nth_error cs v2 with
  | Some (x1, _), Some (x2, _) =>
      if isclose x x1 then Ok [(v1, 1)]
      else if isclose x x2 then Ok [(v2, 1)]
      else if Qlt_bool x1 x && Qlt_bool x x2 then
        Ok [(v1, (x2 - x) / (x2 - x1)); (v2, (x - x1) / (x2 - x1))]
      else by_coordinate_loop cs x (v2 :: l)
  | _, _ => Err IndexError
  end.
Proof. reflexivity. Qed.

Section Hull.
Variable h : hull.
Variable chain : list nat.
Hypothesis Hok : correct_hull (coords h) (qhull h) chain.
Let cs := coords h.

Lemma chain_linked : linked cs chain.
Proof.
  destruct Hok as [_ _ [He (a & r & p & Hc & Hp & _) _] _ _ _]. eapply linked_of_edges; eassumption.
Qed.

Lemma chain_length : (2 <= length chain)%nat.
Proof.
  destruct Hok as [_ _ [_ (a & r & p & Hc & Hp & H0) (b & r' & q & Hc' & Hq & H1)] _ _ _].
  destruct r as [|c r]; [|subst chain; simpl; lia]. exfalso.
  rewrite Hc in Hc'. destruct r' as [|? [|? ?]]; try discriminate. injection Hc' as <-.
  rewrite Hp in Hq. injection Hq as <-. lra.
Qed.

Lemma chain_vertex_nonpos i p : In i chain -> nth_error cs i = Some p -> 0 <= fst p <= 1 -> snd p <= 0.
Proof.
  intros Hi Hp Hx.
  destruct (linked_support cs chain i p chain_linked chain_length Hi Hp) as (q & r & [Hqr Hs] & Hl).
  pose proof (Hs _ (ch_left _ _ _ Hok)) as H0. pose proof (Hs _ (ch_right _ _ _ Hok)) as H1.
  cbn [fst snd] in H0, H1. rewrite <- Hl.
  setoid_replace (line_through q r (fst p)) with
    ((1 - fst p) * line_through q r 0 + fst p * line_through q r 1).
  - nra.
  - rewrite <- line_affine. unfold line_through, Qdiv. ring.
Qed.

(* x coordinates along the chain. *)
Lemma linked_x l a p : linked cs (a :: l) -> nth_error cs a = Some p ->
  Forall (fun i => exists q, nth_error cs i = Some q /\ fst p < fst q) l.
Proof.
  revert a p. induction l as [|b l IH]; intros a p HL Ha; [constructor|].
  inversion HL as [|? ? ? p' q Hab Ha' Hb [Hx Hs] HL']; subst.
  rewrite Ha in Ha'. injection Ha' as <-. constructor; [eauto|].
  eapply Forall_impl; [|exact (IH b q HL' Hb)]. intros i (r & Hr & Hlt). exists r. split; [assumption|lra].
Qed.

Lemma linked_x_last l a p r b : linked cs (a :: l) -> a :: l = r ++ [b] -> nth_error cs b = Some p ->
  Forall (fun i => exists q, nth_error cs i = Some q /\ fst q <= fst p) (a :: l).
Proof.
  revert a r. induction l as [|c l IH]; intros a r HL E Hb.
  - destruct r as [|? [|? ?]]; try discriminate. injection E as ->. constructor; [|constructor].
    exists p. split; [assumption|apply Qle_refl].
  - destruct r as [|a' r]; [discriminate|]. injection E as -> E.
    inversion HL as [|? ? ? p' q Hab Ha' Hc [Hx Hs] HL']; subst.
    specialize (IH c r HL' E Hb). constructor; [|assumption].
    inversion IH as [|? ? (q' & Hq' & Hle) _]; subst. rewrite Hc in Hq'. injection Hq' as <-.
    exists p'. split; [assumption|lra].
Qed.

Lemma chain_x i p : In i chain -> nth_error cs i = Some p -> 0 <= fst p <= 1.
Proof.
  intros Hi Hp. pose proof chain_linked as HL.
  destruct Hok as [_ _ [_ (a & r & p0 & Hc & Hp0 & H0) (b & r' & q & Hc' & Hq & H1)] _ _ _].
  split.
  - rewrite Hc in HL, Hi. destruct Hi as [<-|Hi].
    + fold cs in Hp0. rewrite Hp in Hp0. injection Hp0 as ->. lra.
    + pose proof (linked_x _ _ _ HL Hp0) as HF. rewrite Forall_forall in HF.
      destruct (HF i Hi) as (q' & Hq' & Hlt). rewrite Hp in Hq'. injection Hq' as <-. lra.
  - rewrite Hc in HL, Hc', Hi. pose proof (linked_x_last _ _ _ _ _ HL Hc' Hq) as HF.
    rewrite Forall_forall in HF. destruct (HF i Hi) as (q' & Hq' & Hle). rewrite Hp in Hq'. injection Hq' as <-. lra.
Qed.

Lemma in_hull_vertices i : In i (hull_vertices h) <-> In i chain.
Proof.
  unfold hull_vertices. rewrite filter_In. split.
  - intros [Hi Hv]. destruct (in_dec Nat.eq_dec i chain) as [|Hn]; [assumption|].
    destruct (ch_upper _ _ _ Hok i Hi Hn) as (p & Hp & Hu). unfold is_hull_vertex in Hv. rewrite Hp in Hv.
    destruct p as [x y]. cbn [fst snd] in Hu.
    apply andb_true_iff in Hv as [Hy Hm]. apply Qle_bool_iff in Hy.
    destruct Hu as [Hu|(j & q & Hj & Hq & Hx & Hnc)]; [lra|].
    pose proof (min_at_spec (coords h) x) as HM. destruct (min_at (coords h) x) as [m|]; [|discriminate].
    destruct HM as [(c & Hc & Hcx & Hcm) HM].
    assert (Hmq : m == snd q).
    { apply Qle_antisym.
      - apply HM; [eapply nth_error_In; exact Hq|assumption].
      - destruct (linked_support cs chain j q chain_linked chain_length Hj Hq) as (u & v & [_ Hs] & Hl).
        rewrite <- Hl, <- Hcm. specialize (Hs c Hc).
        setoid_replace (line_through u v (fst q)) with (line_through u v (fst c)); [assumption|].
        unfold line_through. rewrite Hx, Hcx. reflexivity. }
    rewrite (isclose_comp m (snd q) y y Hmq (Qeq_refl y)) in Hm. congruence.
  - intros Hi. split; [apply (ch_chain _ _ _ Hok); assumption|].
    destruct (linked_nth _ _ _ chain_linked Hi) as (p & Hp). unfold is_hull_vertex.
    pose proof Hp as Hp0. unfold cs in Hp. rewrite Hp. destruct p as [x y].
    pose proof (chain_vertex_nonpos i (x, y) Hi Hp0 (chain_x i (x, y) Hi Hp0)) as Hy. cbn [snd] in Hy.
    apply andb_true_iff. split; [apply Qle_bool_iff; assumption|].
    pose proof (min_at_spec (coords h) x) as HM. destruct (min_at (coords h) x) as [m|].
    + destruct HM as [(c & Hc & Hcx & Hcm) HM]. apply isclose_refl. apply Qle_antisym.
      * apply (HM (x, y)); [eapply nth_error_In; exact Hp|reflexivity].
      * destruct (linked_support cs chain i (x, y) chain_linked chain_length Hi Hp0) as (u & v & [_ Hs] & Hl).
        cbn [fst snd] in Hl. rewrite <- Hl, <- Hcm. specialize (Hs c Hc).
        setoid_replace (line_through u v x) with (line_through u v (fst c)); [assumption|].
        unfold line_through. rewrite Hcx. reflexivity.
    + exfalso. apply (HM (x, y)); [eapply nth_error_In; exact Hp|reflexivity].
Qed.

Lemma NoDup_hull_vertices : NoDup (hull_vertices h).
Proof. apply NoDup_filter, (ch_nodup _ _ _ Hok). Qed.

Lemma chain_sorted : StronglySorted lt chain.
Proof. apply (linked_sorted cs), chain_linked. Qed.

Lemma hull_vertices_perm : Permutation (hull_vertices h) chain.
Proof.
  apply NoDup_Permutation; [apply NoDup_hull_vertices | apply sorted_lt_NoDup, chain_sorted | apply in_hull_vertices].
Qed.

Lemma sorted_vertices : sort_nat (hull_vertices h) = chain.
Proof.
  apply sorted_perm_eq; [apply sort_nat_sorted | apply sorted_lt_le, chain_sorted |].
  rewrite sort_nat_perm. apply hull_vertices_perm.
Qed.

(* --- get_reactions_by_coordinate --- *)
Definition at_coordinate (l : list nat) (x : Q) (res : list (nat * Q)) : Prop :=
  (exists i p, res = [(i, 1)] /\ In i l /\ nth_error cs i = Some p /\ isclose x (fst p) = true)
  \/ (exists u v p q, In u l /\ In v l /\ nth_error cs u = Some p /\ nth_error cs v = Some q
        /\ supports cs p q /\ fst p < x < fst q
        /\ res = [(u, (fst q - x) / (fst q - fst p)); (v, (x - fst p) / (fst q - fst p))]).

Lemma loop_at l a p r b q x : linked cs (a :: l) -> l <> [] -> nth_error cs a = Some p ->
  a :: l = r ++ [b] -> nth_error cs b = Some q -> fst p <= x <= fst q ->
  exists res, by_coordinate_loop cs x (a :: l) = Ok res /\ at_coordinate (a :: l) x res.
Proof.
  revert a p r. induction l as [|c l IH]; intros a p r HL Hne Ha Er Hb Hx; [congruence|].
  inversion HL as [|? ? ? p' q' Hac Ha' Hc Hs HL']; subst.
  rewrite Ha in Ha'. injection Ha' as <-.
  rewrite by_coordinate_loop_cons, Ha, Hc. destruct p as [x1 y1], q' as [x2 y2].
  cbn [fst snd] in *.
  destruct (isclose x x1) eqn:E1.
  { eexists. split; [reflexivity|]. left. exists a, (x1, y1). repeat split; [left; reflexivity|assumption|exact E1]. }
  destruct (isclose x x2) eqn:E2.
  { eexists. split; [reflexivity|]. left. exists c, (x2, y2). repeat split; [right; left; reflexivity|assumption|exact E2]. }
  assert (H1 : x1 < x).
  { destruct (Qlt_le_dec x1 x); [assumption|]. rewrite isclose_refl in E1; [discriminate|lra]. }
  rewrite (proj2 (Qlt_bool_iff x1 x) H1). cbn [andb].
  destruct (Qlt_bool x x2) eqn:E3.
  - apply Qlt_bool_iff in E3. eexists. split; [reflexivity|]. right.
    exists a, c, (x1, y1), (x2, y2). cbn [fst snd].
    repeat split; try assumption; try (left; reflexivity); try (right; left; reflexivity); apply Hs.
  - apply Qlt_bool_false_iff in E3.
    destruct r as [|r0 r]; [discriminate|]. injection Er as -> Er.
    assert (Hl : l <> []).
    { intros ->. destruct r as [|? [|? ?]]; try discriminate. injection Er as ->.
      rewrite Hc in Hb. injection Hb as <-. cbn [fst] in Hx.
      rewrite isclose_refl in E2; [discriminate|]. lra. }
    destruct (IH c (x2, y2) r HL' Hl Hc Er Hb) as (res & Hres & Hat); [cbn [fst]; lra|].
    exists res. split; [exact Hres|].
    destruct Hat as [(i & p0 & H)|(u & v & p0 & q0 & Hu & Hv & H)].
    + left. exists i, p0. destruct H as (-> & Hi & H). repeat split; try tauto. right; exact Hi.
    + right. exists u, v, p0, q0. repeat split; try (right; assumption); apply H.
Qed.

Lemma get_reactions_at x : 0 <= x <= 1 ->
  exists res, get_reactions_by_coordinate h x = Ok res /\ at_coordinate chain x res.
Proof.
  intros Hx. unfold get_reactions_by_coordinate. rewrite sorted_vertices. fold cs.
  pose proof chain_linked as HL. pose proof chain_length as Hlen.
  destruct Hok as [_ _ [_ (a & r & p & Hc & Hp & H0) (b & r' & q & Hc' & Hq & H1)] _ _ _].
  rewrite Hc in HL, Hc', Hlen |- *.
  apply (loop_at r a p r' b q x HL); auto.
  - destruct r; [simpl in Hlen; lia|discriminate].
  - lra.
Qed.
End Hull.
