(* Proofs about the plot of the hull. *)
From Coq Require Import Setoid Lqa.
From Verif Require Import Prelude NumQ HullModel HullSpec HullPlotModel HullPlotSpec ParetoProofs HullChainProofs.
Open Scope nat_scope.

Lemma segments_In cs edges l : segments cs edges = Ok l -> forall s,
  In s l <-> exists a b p q, In (a, b) edges /\ nth_error cs a = Some p /\ nth_error cs b = Some q /\ s = (p, q).
Proof.
  revert l. induction edges as [|[a b] edges IH]; cbn [segments]; intros l H s.
  - injection H as <-. split; [intros []|intros (? & ? & ? & ? & [] & _)].
  - destruct (nth_error cs a) as [p|] eqn:Ea; [|discriminate].
    destruct (nth_error cs b) as [q|] eqn:Eb; [|discriminate].
    destruct (segments cs edges) as [m|] eqn:Em; [|discriminate]. injection H as <-.
    specialize (IH _ eq_refl s). cbn [In]. rewrite IH. split.
    + intros [<-|(a' & b' & p' & q' & H1 & H2 & H3 & ->)].
      * exists a, b, p, q. auto 6.
      * exists a', b', p', q'. auto 6.
    + intros (a' & b' & p' & q' & [H1|H1] & H2 & H3 & ->).
      * injection H1 as <- <-. left. congruence.
      * right. exists a', b', p', q'. auto 6.
Qed.

Lemma segments_Ok cs edges : (forall a b, In (a, b) edges -> (exists p, nth_error cs a = Some p) /\ exists q, nth_error cs b = Some q) ->
  exists l, segments cs edges = Ok l.
Proof.
  induction edges as [|[a b] edges IH]; cbn [segments]; intros H; [eauto|].
  destruct (H a b (or_introl eq_refl)) as [[p ->] [q ->]].
  destruct IH as [l ->]; [intros; apply H; right; assumption|]. cbn. eauto.
Qed.

Lemma flat_iff s : flat s = true <-> (snd (fst s) == 0 /\ snd (snd s) == 0)%Q.
Proof. unfold flat. rewrite andb_true_iff, !Qeq_bool_iff. reflexivity. Qed.

Lemma not_above_iff s : not_above s = true <-> (snd (fst s) <= 0 /\ snd (snd s) <= 0)%Q.
Proof. unfold not_above. rewrite andb_true_iff, !Qle_bool_iff. reflexivity. Qed.

Lemma get_lines_In cs edges l : get_lines cs edges = Ok l -> forall s,
  In s l <-> (exists a b p q, In (a, b) edges /\ nth_error cs a = Some p /\ nth_error cs b = Some q /\ s = (p, q))
             /\ (snd (fst s) <= 0 /\ snd (snd s) <= 0)%Q /\ ~ (snd (fst s) == 0 /\ snd (snd s) == 0)%Q.
Proof.
  unfold get_lines. destruct (segments cs edges) as [m|] eqn:Em; [|discriminate]. cbn. intros H s. injection H as <-.
  rewrite !filter_In, (segments_In _ _ _ Em), not_above_iff, negb_true_iff, <- flat_iff.
  destruct (flat s); intuition congruence.
Qed.

Lemma line_at_0_1 p q x : (line_through p q x == (1 - x) * line_through p q 0 + x * line_through p q 1)%Q.
Proof. rewrite <- line_affine. unfold line_through, Qdiv. ring. Qed.

Lemma line_fst p q : (line_through p q (fst p) == snd p)%Q.
Proof. unfold line_through, Qdiv. ring. Qed.
Lemma line_snd p q : ~ (fst p == fst q)%Q -> (line_through p q (fst q) == snd q)%Q.
Proof.
  intros H. unfold line_through. assert (~ fst q - fst p == 0)%Q by (intros E; apply H; lra). field. assumption.
Qed.

Section Plot.
Variable h : hull.
Variable chain : list nat.
Variable edges : list (nat * nat).
Hypothesis Hok : correct_hull (coords h) (qhull h) chain.
Hypothesis Hpg : polygon (coords h) chain edges.
Hypothesis Hr : ratios (coords h).
Let cs := coords h.

Lemma neighbours_ok a b : neighbours chain a b -> In a chain /\ In b chain /\
  exists p q, nth_error cs a = Some p /\ nth_error cs b = Some q /\ (fst p < fst q)%Q
    /\ forall c, In c cs -> (line_through p q (fst c) <= snd c)%Q.
Proof.
  intros (l1 & l2 & E). split; [rewrite E; apply in_app_iff; right; left; reflexivity|].
  split; [rewrite E; apply in_app_iff; right; right; left; reflexivity|].
  destruct (lh_edges _ _ (ch_lower _ _ _ Hok) l1 a b l2 E) as (_ & p & q & H). exists p, q. exact H.
Qed.

Lemma edge_points a b : In (a, b) edges -> (exists p, nth_error cs a = Some p) /\ exists q, nth_error cs b = Some q.
Proof.
  intros I. destruct (pg_edge _ _ _ Hpg a b I) as [N|[N|(p & q & Hp & Hq & _)]].
  - destruct (neighbours_ok _ _ N) as (_ & _ & p & q & Hp & Hq & _). eauto.
  - destruct (neighbours_ok _ _ N) as (_ & _ & p & q & Hp & Hq & _). eauto.
  - eauto.
Qed.

Lemma lines_ok : exists l, get_lines cs edges = Ok l.
Proof.
  destruct (segments_Ok cs edges edge_points) as [l E]. unfold get_lines. rewrite E. cbn. eauto.
Qed.

Lemma chain_le_0 a p : In a chain -> nth_error cs a = Some p -> (snd p <= 0)%Q.
Proof.
  intros I Hp. apply (chain_vertex_nonpos h chain Hok a p I Hp), Hr, (nth_error_In _ _ Hp).
Qed.

(* A lower edge is drawn unless it lies at zero. *)
Lemma lower_drawn a b p q l : get_lines cs edges = Ok l -> neighbours chain a b ->
  nth_error cs a = Some p -> nth_error cs b = Some q -> ~ (snd p == 0 /\ snd q == 0)%Q ->
  In (p, q) l \/ In (q, p) l.
Proof.
  intros HL N Hp Hq Hn. destruct (neighbours_ok _ _ N) as (Ia & Ib & _).
  pose proof (chain_le_0 _ _ Ia Hp). pose proof (chain_le_0 _ _ Ib Hq).
  destruct (pg_lower _ _ _ Hpg a b N) as [I|I]; [left|right]; apply (get_lines_In _ _ _ HL); cbn [fst snd].
  - split; [exists a, b, p, q; auto|]. split; [split; assumption|assumption].
  - split; [exists b, a, q, p; auto|]. split; [split; assumption|]. intros [? ?]. apply Hn. split; assumption.
Qed.

Lemma downhill_edge a b p q : downhill cs -> neighbours chain a b ->
  nth_error cs a = Some p -> nth_error cs b = Some q -> ~ (snd p == 0 /\ snd q == 0)%Q.
Proof.
  intros (c & Ic & Hc) N Hp Hq [Zp Zq]. destruct (neighbours_ok _ _ N) as (_ & _ & p' & q' & Hp' & Hq' & _ & Hs).
  rewrite Hp in Hp'. rewrite Hq in Hq'. injection Hp' as <-. injection Hq' as <-. specialize (Hs c Ic).
  assert (E : (line_through p q (fst c) == 0)%Q) by (unfold line_through, Qdiv; rewrite Zp, Zq; ring).
  rewrite E in Hs. lra.
Qed.

(* An edge that is not part of the lower hull is drawn only when it is vertical. *)
Lemma drawn_general l : get_lines cs edges = Ok l -> forall p q, In (p, q) l ->
  lower_edge cs chain (p, q)
  \/ (In p cs /\ In q cs /\ (fst p == fst q)%Q /\ (fst p == 0 \/ fst p == 1)%Q /\ (snd p < 0 \/ snd q < 0)%Q).
Proof.
  intros HL p q I. apply (get_lines_In _ _ _ HL) in I. cbn [fst snd] in I.
  destruct I as [(a & b & p' & q' & I & Hp & Hq & E) [[Lp Lq] Hn]]. injection E as <- <-.
  destruct (pg_edge _ _ _ Hpg a b I) as [N|[N|(p' & q' & Hp' & Hq' & H)]].
  - left. exists a, b, p, q. auto 6.
  - left. exists b, a, q, p. auto 6.
  - fold cs in Hp', Hq', H. rewrite Hp in Hp'. rewrite Hq in Hq'. injection Hp' as <-. injection Hq' as <-.
    pose proof (nth_error_In _ _ Hp) as Ip. pose proof (nth_error_In _ _ Hq) as Iq.
    pose proof (Hr p Ip) as Rp. pose proof (Hr q Iq) as Rq.
    pose proof (ch_left _ _ _ Hok) as I0. pose proof (ch_right _ _ _ Hok) as I1.
    destruct H as [[Hx Hs]|[Hx Hs]].
    + right. split; [assumption|]. split; [assumption|]. split; [assumption|]. split.
      * destruct Hs as [Hs|Hs]; [left|right].
        -- specialize (Hs _ I0). cbn in Hs. lra.
        -- specialize (Hs _ I1). cbn in Hs. lra.
      * destruct (Qlt_le_dec (snd p) 0); [left; assumption|]. right.
        destruct (Qlt_le_dec (snd q) 0); [assumption|]. exfalso. apply Hn. split; lra.
    + exfalso. apply Hn. pose proof (Hs _ I0) as S0. pose proof (Hs _ I1) as S1. cbn [fst snd] in S0, S1.
      assert (Ep : (0 <= snd p)%Q).
      { rewrite <- (line_fst p q), line_at_0_1. nra. }
      assert (Eq : (0 <= snd q)%Q).
      { rewrite <- (line_snd p q Hx), line_at_0_1. nra. }
      split; lra.
Qed.

Lemma min_y_le : exists m, min_y cs = Ok m /\ In m (map snd cs) /\ forall c, In c cs -> (m <= snd c)%Q.
Proof.
  assert (G : forall l m0, let m := fold_left (fun m d => if Qlt_bool (snd d) m then snd d else m) l m0 in
    (m = m0 \/ In m (map snd l)) /\ (m <= m0)%Q /\ forall c : coord, In c l -> (m <= snd c)%Q).
  { induction l as [|d l IH]; intros m0; cbn [fold_left].
    - split; [left; reflexivity|]. split; [apply Qle_refl|]. intros c [].
    - destruct (IH (if Qlt_bool (snd d) m0 then snd d else m0)) as (G1 & G2 & G3).
      destruct (Qlt_bool (snd d) m0) eqn:E.
      + apply Qlt_bool_iff in E. split; [|split].
        * right. destruct G1 as [->|G1]; [left; reflexivity|right; assumption].
        * lra.
        * intros c [<-|I]; [assumption|apply G3; assumption].
      + assert (~ (snd d < m0)%Q) by (intros F; apply Qlt_bool_iff in F; congruence).
        split; [|split].
        * destruct G1 as [G1|G1]; [left; assumption|right; right; assumption].
        * assumption.
        * intros c [<-|I]; [lra|apply G3; assumption]. }
  pose proof (ch_left _ _ _ Hok) as I0. fold cs in I0. destruct cs as [|c l]; [destruct I0|].
  cbn [min_y]. eexists. split; [reflexivity|]. destruct (G l (snd c)) as (G1 & G2 & G3). split.
  - destruct G1 as [->|G1]; [left; reflexivity|right; assumption].
  - intros d [<-|I]; [assumption|apply G3; assumption].
Qed.

(* The whole figure. *)
Lemma plot_general y_max : exists f, plot h edges y_max = Ok f
  /\ (forall a b p q, neighbours chain a b -> nth_error cs a = Some p -> nth_error cs b = Some q ->
        ~ (snd p == 0 /\ snd q == 0)%Q -> In (p, q) (f_lines f) \/ In (q, p) (f_lines f))
  /\ (forall p q, In (p, q) (f_lines f) -> lower_edge cs chain (p, q)
        \/ (In p cs /\ In q cs /\ (fst p == fst q)%Q /\ (fst p == 0 \/ fst p == 1)%Q /\ (snd p < 0 \/ snd q < 0)%Q))
  /\ (forall i p, nth_error (f_points f) i = Some p <-> exists c, nth_error cs i = Some c /\ p = (c, i))
  /\ (forall c, In c cs -> fst (f_range f) + (1 # 100) <= snd c)%Q
  /\ (exists c, In c cs /\ snd c == fst (f_range f) + (1 # 100))%Q
  /\ snd (f_range f) = y_max.
Proof.
  destruct lines_ok as [l HL]. destruct min_y_le as (m & Hm & Im & Lm).
  unfold plot. fold cs. rewrite HL. cbn [bind]. rewrite Hm. cbn [bind].
  eexists. split; [reflexivity|]. cbn [f_lines f_points f_range fst snd].
  split; [intros a b p q N Hp Hq Hn; eapply lower_drawn; eassumption|].
  split; [intros p q I; eapply drawn_general; eassumption|].
  split; [|split; [|split; [|reflexivity]]].
  - intros i p. unfold get_scatter.
    assert (G : forall (k : list coord) n i p, nth_error (combine k (seq n (length k))) i = Some p
              <-> exists c, nth_error k i = Some c /\ p = (c, n + i)).
    { clear. induction k as [|c k IH]; intros n i p; cbn [length seq combine].
      - destruct i; cbn; split; [discriminate|intros (? & ? & _); discriminate|discriminate|intros (? & ? & _); discriminate].
      - destruct i as [|i]; cbn [nth_error].
        + rewrite Nat.add_0_r. split; [intros [= <-]; eauto|intros (? & [= <-] & ->); reflexivity].
        + rewrite IH. rewrite <- plus_n_Sm. reflexivity. }
    rewrite G. reflexivity.
  - intros c I. specialize (Lm c I). lra.
  - apply in_map_iff in Im as (c & E & I). exists c. split; [assumption|]. rewrite E. lra.
Qed.

Lemma plot_stable y_max : no_decomposition cs -> downhill cs -> exists f, plot h edges y_max = Ok f
  /\ forall s, (In s (f_lines f) \/ In (snd s, fst s) (f_lines f)) <-> lower_edge cs chain s.
Proof.
  intros Hn Hd. destruct (plot_general y_max) as (f & E & G1 & G2 & _). exists f. split; [assumption|].
  assert (G : forall p q, In (p, q) (f_lines f) -> lower_edge cs chain (p, q)).
  { intros p q I. destruct (G2 p q I) as [L|(Ip & Iq & Hx & H0 & Hy)]; [assumption|exfalso].
    assert (H1 : (fst q == 0 \/ fst q == 1)%Q) by (rewrite <- Hx; assumption).
    pose proof (Hn p Ip H0). pose proof (Hn q Iq H1). destruct Hy; lra. }
  assert (F : forall p q, lower_edge cs chain (p, q) -> lower_edge cs chain (q, p)).
  { intros p q (a & b & p' & q' & N & Hp & Hq & [X|X]); injection X as -> ->;
      exists a, b, p', q'; auto 6. }
  intros [p q]. cbn [fst snd]. split.
  - intros [I|I]; [apply G; assumption|apply F, G; assumption].
  - intros (a & b & p' & q' & N & Hp & Hq & X).
    pose proof (G1 a b p' q' N Hp Hq (downhill_edge a b p' q' Hd N Hp Hq)) as W.
    destruct X as [X|X]; injection X as -> ->; tauto.
Qed.

End Plot.
