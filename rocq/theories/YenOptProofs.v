(* yens_ksp finds the k cheapest paths of a levelled graph without parallel edges. *)
From Verif Require Import Prelude NumQ ListFacts UtilsProofs EnumModel EnumProofs EnumReactProofs NetModel YenModel YenSpec YenProofs.
From Coq Require Import Lqa.
Open Scope nat_scope.

(* --- lists --- *)
Lemma last_match {A} (f : A -> bool) l : existsb f l = true ->
  exists pre x suf, l = pre ++ x :: suf /\ f x = true /\ forall y, In y suf -> f y = false.
Proof.
  induction l as [|y l IH]; [discriminate|]. simpl. destruct (existsb f l) eqn:E.
  - intros _. destruct (IH eq_refl) as (pre & x & suf & -> & H1 & H2). exists (y :: pre), x, suf. split; [reflexivity|]. split; assumption.
  - rewrite orb_false_r. intros Hy. exists [], y, l. split; [reflexivity|]. split; [exact Hy|].
    intros z Hz. destruct (f z) eqn:F; [|reflexivity]. exfalso.
    assert (existsb f l = true); [|congruence]. apply existsb_exists. exists z. split; assumption.
Qed.
Lemma turning (P : nat -> bool) n : P 1 = true -> P n = false -> 1 < n -> exists m, 1 <= m < n /\ P m = true /\ P (S m) = false.
Proof.
  induction n as [|n IH]; intros H1 Hn Hlt; [lia|]. destruct (P n) eqn:E.
  - exists n. split; [|split; assumption]. split; [|lia]. destruct n; lia.
  - destruct (IH H1 eq_refl) as (m & Hm & A & B); [destruct n as [|[|n]]; [lia|congruence|lia]|]. exists m. split; [lia|]. split; assumption.
Qed.
Lemma nth_firstn (l : list nat) n i d : i < n -> nth i (firstn n l) d = nth i l d.
Proof.
  revert n i. induction l as [|x l IH]; intros n i H; [rewrite firstn_nil; destruct i; reflexivity|].
  destruct n; [lia|]. destruct i; [reflexivity|]. simpl. apply IH. lia.
Qed.
Lemma firstn_shorter (l l' : list nat) n i : i <= n -> firstn n l = firstn n l' -> firstn i l = firstn i l'.
Proof.
  intros Hi H. replace i with (Nat.min i n) by lia. rewrite <- (firstn_firstn l i n), <- (firstn_firstn l' i n), H. reflexivity.
Qed.
Lemma nth_in_removelast (l : list nat) i : S i < length l -> In (nth i l 0) (removelast l).
Proof.
  revert i. induction l as [|x l IH]; intros i Hi; [simpl in Hi; lia|]. destruct l as [|y l]; [simpl in Hi; lia|].
  change (removelast (x :: y :: l)) with (x :: removelast (y :: l)). destruct i as [|i]; [left; reflexivity|]. right.
  change (nth (S i) (x :: y :: l) 0) with (nth i (y :: l) 0). apply IH. simpl in *. lia.
Qed.

Lemma nth_skipn' (l : list nat) i j : nth j (skipn i l) 0 = nth (i + j) l 0.
Proof. revert l. induction i as [|i IH]; intros l; [reflexivity|]. destruct l; [destruct j; reflexivity|]. simpl. apply IH. Qed.

Section Walks.
Context {E : Type}.
Variable weight : E -> Q.
Notation edges := (list (nat * nat * E)).

Lemma walk_keep (es es' : edges) u t p c : walk weight es u t p c ->
  (forall j e, S j < length p -> In (nth j p 0, nth (S j) p 0, e) es -> In (nth j p 0, nth (S j) p 0, e) es') -> walk weight es' u t p c.
Proof.
  induction 1 as [t c H|i j t e p c d Hin W IH Hd]; intros Hk; [constructor; assumption|].
  destruct (walk_head _ _ _ _ _ _ W) as [p' Ep]. subst p.
  eapply walk_step; [|apply IH|exact Hd].
  - apply (Hk 0 e); [simpl; lia|exact Hin].
  - intros k x Hlt Hx. apply (Hk (S k) x); [simpl in *; lia|exact Hx].
Qed.

Lemma walk_first (es : edges) u t p c : u <> t -> walk weight es u t p c -> exists j e p', p = u :: j :: p' /\ In (u, j, e) es.
Proof.
  intros Hut V. inversion V as [? ? H0 E1 E2|? j ? e r' c3 ? Hin Vr' Hc3]; subst; [contradiction|].
  destruct (walk_head _ _ _ _ _ _ Vr') as [r'' ->]. exists j, e, r''. split; [reflexivity|exact Hin].
Qed.
Lemma no_parallel_unique (es : edges) i j e e' : no_parallel es -> In (i, j, e) es -> In (i, j, e') es -> e = e'.
Proof.
  unfold no_parallel. intros H. induction es as [|x es IH]; [intros []|]. simpl in H. inversion H as [|? ? Hx Hn]; subst. intros [->|H1] [E1|H2].
  - injection E1 as <-. reflexivity.
  - exfalso. apply Hx. change (In (fst (i, j, e')) (map fst es)). apply in_map. exact H2.
  - exfalso. apply Hx. subst x. change (In (fst (i, j, e)) (map fst es)). apply in_map. exact H1.
  - apply IH; assumption.
Qed.
Lemma walk_cost_unique (es : edges) u t p c d : no_parallel es -> walk weight es u t p c -> walk weight es u t p d -> (c == d)%Q.
Proof.
  intros Hp W1. revert d. induction W1 as [t c H|i j t e p c c' Hin W IH Hd]; intros d W2.
  - inversion W2 as [? ? H'|? ? ? ? ? ? ? ? W']; subst; [lra|inversion W'].
  - inversion W2 as [? ? H' E1 E2|? j' ? e' ? c2 ? Hin' W' Hd']; subst; [inversion W|].
    destruct (walk_head _ _ _ _ _ _ W) as [p1 ->]. destruct (walk_head _ _ _ _ _ _ W') as [p2 E2]. injection E2 as <- <-.
    rewrite (no_parallel_unique es i j e e' Hp Hin Hin') in Hd. specialize (IH _ W'). lra.
Qed.

Lemma remove_edge_sub (es : edges) i j e : In e (remove_edge es i j) -> In e es.
Proof. induction es as [|x es IH]; simpl; [intros []|]. destruct (joins i j x); [intros H; right; exact H|]. intros [H|H]; [left; exact H|right; apply IH; exact H]. Qed.
Lemma remove_edge_nodup (es : edges) i j : no_parallel es -> no_parallel (remove_edge es i j).
Proof.
  unfold no_parallel. induction es as [|x es IH]; simpl; [auto|]. intros H. inversion H as [|? ? Hx Hn]; subst.
  destruct (joins i j x); [exact Hn|]. simpl. constructor; [|apply IH; exact Hn]. intros Hin. apply Hx. apply in_map_iff in Hin as (y & <- & Hy).
  apply in_map. apply (remove_edge_sub es i j). exact Hy.
Qed.
Lemma remove_edge_gone (es : edges) i j e : no_parallel es -> ~ In (i, j, e) (remove_edge es i j).
Proof.
  unfold no_parallel. induction es as [|x es IH]; simpl; [auto|]. intros H. inversion H as [|? ? Hx Hn]; subst.
  destruct (joins i j x) eqn:J.
  - apply joins_iff in J. intros Hin. apply Hx. rewrite J. change (In (fst (i, j, e)) (map fst es)). apply in_map. exact Hin.
  - intros [->|Hin]; [|exact (IH Hn Hin)]. assert (joins i j (i, j, e) = true) by (apply joins_iff; reflexivity). congruence.
Qed.

Definition eligible (i : nat) (root p : list nat) : Prop := i < length p - 1 /\ root = firstn i p.
Lemma eligible_iff i root p : (Nat.ltb i (length p - 1) && list_eqb root (firstn i p)) = true <-> eligible i root p.
Proof. unfold eligible. rewrite andb_true_iff, Nat.ltb_lt, list_eqb_iff. reflexivity. Qed.

Lemma remove_used_removed i root paths : forall (es removed es1 removed1 : edges), remove_used i root paths es removed = (es1, removed1) ->
  forall e, In e removed1 -> In e removed \/ exists p, In p paths /\ eligible i root p /\ fst e = (nth i p 0, nth (S i) p 0).
Proof.
  induction paths as [|p ps IH]; intros es removed es1 removed1; cbn [remove_used].
  - intros H. injection H as <- <-. intros e He. left. exact He.
  - intros H e He.
    destruct (Nat.ltb i (length p - 1) && list_eqb root (firstn i p)) eqn:El.
    + apply eligible_iff in El. destruct (edge_data es (nth i p 0) (nth (S i) p 0)) as [x|] eqn:D.
      * destruct (IH _ _ _ _ H e He) as [H1|(p' & H1 & H2)]; [|right; exists p'; split; [right; exact H1|exact H2]].
        apply in_app_iff in H1 as [H1|[<-|[]]]; [left; exact H1|]. right. exists p. split; [left; reflexivity|]. split; [exact El|reflexivity].
      * destruct (IH _ _ _ _ H e He) as [H1|(p' & H1 & H2)]; [left; exact H1|right; exists p'; split; [right; exact H1|exact H2]].
    + destruct (IH _ _ _ _ H e He) as [H1|(p' & H1 & H2)]; [left; exact H1|right; exists p'; split; [right; exact H1|exact H2]].
Qed.
Lemma remove_used_sub i root paths : forall (es removed es1 removed1 : edges), remove_used i root paths es removed = (es1, removed1) ->
  forall e, In e es1 -> In e es.
Proof.
  induction paths as [|p ps IH]; intros es removed es1 removed1; cbn [remove_used].
  - intros H. injection H as <- <-. auto.
  - intros H e He. destruct (Nat.ltb i (length p - 1) && list_eqb root (firstn i p)); [|exact (IH _ _ _ _ H e He)].
    destruct (edge_data es (nth i p 0) (nth (S i) p 0)); [|exact (IH _ _ _ _ H e He)]. apply (remove_edge_sub es (nth i p 0) (nth (S i) p 0)). exact (IH _ _ _ _ H e He).
Qed.
Lemma remove_used_gone i root paths : forall (es removed es1 removed1 : edges), no_parallel es -> remove_used i root paths es removed = (es1, removed1) ->
  forall p e, In p paths -> eligible i root p -> ~ In (nth i p 0, nth (S i) p 0, e) es1.
Proof.
  induction paths as [|p0 ps IH]; intros es removed es1 removed1 Hn; cbn [remove_used]; [intros _ p e []|].
  intros H p e Hp Hel Hin.
  destruct (Nat.ltb i (length p0 - 1) && list_eqb root (firstn i p0)) eqn:El.
  - destruct (edge_data es (nth i p0 0) (nth (S i) p0 0)) as [x|] eqn:D.
    + destruct Hp as [<-|Hp]; [|exact (IH _ _ _ _ (remove_edge_nodup _ _ _ Hn) H p e Hp Hel Hin)].
      apply (remove_edge_gone es (nth i p0 0) (nth (S i) p0 0) e Hn). exact (remove_used_sub _ _ _ _ _ _ _ H _ Hin).
    + destruct Hp as [<-|Hp]; [|exact (IH _ _ _ _ Hn H p e Hp Hel Hin)].
      destruct (edge_data_ok es (nth i p0 0) (nth (S i) p0 0) e (remove_used_sub _ _ _ _ _ _ _ H _ Hin)) as (y & Hy & _). congruence.
  - destruct Hp as [<-|Hp]; [|exact (IH _ _ _ _ Hn H p e Hp Hel Hin)]. apply eligible_iff in Hel. congruence.
Qed.
End Walks.

Section Optimal.
Context {E : Type}.
Variable weight : E -> Q.
Variable sp : list (nat * nat * E) -> nat -> nat -> option (list nat).
Hypothesis Hsp : shortest weight sp.
Notation edges := (list (nat * nat * E)).
Variables (es0 : edges) (s t : nat).
Hypothesis Hnn : non_negative weight es0.
Hypothesis Hst : s <> t.
Hypothesis Hpar : no_parallel es0.
Hypothesis Hlev : levelled weight es0 s t.
Notation W := (walk weight es0 s t).

Lemma nth_error_nth0 (p : list nat) i : i < length p -> nth_error p i = Some (nth i p 0).
Proof. intros H. apply nth_error_nth'. exact H. Qed.
Lemma level p c q d i j : W p c -> W q d -> i < length p -> j < length q -> nth i p 0 = nth j q 0 -> i = j.
Proof. intros H1 H2 Hi Hj He. apply (Hlev p c q d i j (nth i p 0) H1 H2); [apply nth_error_nth0; exact Hi|rewrite He; apply nth_error_nth0; exact Hj]. Qed.
Lemma walk_simple p c : W p c -> NoDup p.
Proof. intros H. apply (NoDup_nth p 0). intros i j Hi Hj He. exact (level p c p c i j H H Hi Hj He). Qed.
Lemma walk_good p c : W p c -> good weight es0 s t p.
Proof.
  intros H. split; [exists c; exact H|]. pose proof (walk_simple p c H) as Hd. destruct (walk_last _ _ _ _ _ _ H) as [p' ->].
  rewrite removelast_last. apply NoDup_remove_2 in Hd. rewrite app_nil_r in Hd. exact Hd.
Qed.
Lemma not_prefix p c q d n : W p c -> W q d -> length p <= n -> n < length q -> firstn n p = firstn n q -> False.
Proof.
  intros Hp Hq H1 H2 Hf. rewrite firstn_all2 in Hf by exact H1. destruct (walk_last _ _ _ _ _ _ Hp) as [p' Ep].
  destruct (walk_good q d Hq) as [_ Hg]. apply Hg. apply (removelast_firstn_in q n); [exact H2|]. rewrite <- Hf, Ep. apply in_app_iff. right. left. reflexivity.
Qed.

(* x continues the first (S i) nodes of prev in another way than the members of pre. *)
Definition branches (pre : list (list nat)) (prev : list nat) (i : nat) (x : list nat) : Prop :=
  firstn (S i) x = firstn (S i) prev
  /\ forall p, In p pre -> firstn (S i) p = firstn (S i) prev -> nth (S i) p 0 <> nth (S i) x 0.
Definition candidate (pre : list (list nat)) (prev : list nat) (pool : list (list nat)) (i : nat) : Prop :=
  forall q c, W q c -> branches pre prev i q -> exists x d, In x pool /\ W x d /\ (d <= c)%Q /\ branches pre prev i x.
Definition covered (pre : list (list nat)) (prev : list nat) (pool : list (list nat)) : Prop :=
  forall i, S i < length prev -> candidate pre prev pool i.

Lemma candidate_pool pre prev pool pool' i : (forall x, In x pool -> In x pool') -> candidate pre prev pool i -> candidate pre prev pool' i.
Proof. intros H HC q c Hq Hb. destruct (HC q c Hq Hb) as (x & d & H1 & H2). exists x, d. split; [apply H; exact H1|exact H2]. Qed.

Lemma spur_candidate a prev i es b es' b' : (forall p, In p a -> exists c, W p c) -> In prev a -> S i < length prev -> Permutation es es0 ->
  Forall (fun x => W (snd x) (fst x)) b -> spur weight sp t a prev i (es, b) = Ok (es', b') ->
  Permutation es' es0 /\ Forall (fun x => W (snd x) (fst x)) b' /\ (forall x, In x b -> In x b') /\ candidate a prev (map snd b') i.
Proof.
  intros Ha Hprev Hi HP Hb Hs. destruct (Ha prev Hprev) as [c0 W0].
  assert (Hgb : Forall (fun x => good weight es0 s t (snd x)) b).
  { eapply Forall_impl; [|exact Hb]. intros x Hx. exact (walk_good _ _ Hx). }
  destruct (spur_good weight sp Hsp es0 s t Hnn Hst a prev i es b (walk_good prev c0 W0) ltac:(lia) HP Hgb)
    as (es'' & b'' & E1 & HP' & _ & es1 & removed & R & HF).
  rewrite Hs in E1. injection E1 as <- <-.
  set (u := nth i prev 0) in *. set (root := firstn i prev) in *.
  assert (Eroot : firstn (S i) prev = root ++ [u]) by (apply firstn_snoc; lia).
  assert (Lroot : length root = i) by (unfold root; rewrite firstn_length; lia).
  assert (Hpe : no_parallel es) by (unfold no_parallel; apply (Permutation_NoDup (Permutation_sym (Permutation_map fst HP))); exact Hpar).
  pose proof (remove_used_sub i root a es [] es1 removed R) as Hsub.
  assert (Hsub0 : forall e, In e es1 -> In e es0) by (intros e He; apply (Permutation_in _ HP), Hsub, He).
  assert (Hnn1 : non_negative weight es1) by (intros e He; apply Hnn, Hsub0, He).
  assert (Hut : u <> t) by (apply (nth_not_t weight es0 s t Hst prev i (walk_good prev c0 W0)); lia).
  destruct (walk_split _ _ _ _ _ _ W0 i ltac:(lia)) as (c1 & c2 & Wr & _ & _). fold u in Wr. rewrite Eroot in Wr.
  (* members of a with the same first nodes are among those whose edges are removed *)
  assert (Helig : forall p, In p a -> firstn (S i) p = firstn (S i) prev -> eligible i root p /\ nth i p 0 = u).
  { intros p Hp Hf. destruct (Ha p Hp) as [cp Wp]. assert (S i < length p).
    { destruct (Nat.lt_ge_cases (S i) (length p)) as [|G]; [assumption|exfalso]. exact (not_prefix p cp prev c0 (S i) Wp W0 G Hi Hf). }
    split; [split; [lia|]|].
    - unfold root. symmetry. apply (firstn_shorter p prev (S i) i); [lia|exact Hf].
    - unfold u. rewrite <- (nth_firstn p (S i) i 0), <- (nth_firstn prev (S i) i 0), Hf by lia. reflexivity. }
  (* a walk that branches off survives the removal *)
  assert (Hsurvive : forall q c, W q c -> branches a prev i q -> exists d, walk weight es1 u t (skipn i q) d /\ (c == c1 + d)%Q).
  { intros q c Wq [Hf Hb']. assert (Hlq : S i < length q).
    { destruct (Nat.lt_ge_cases (S i) (length q)) as [|G]; [assumption|exfalso]. exact (not_prefix q c prev c0 (S i) Wq W0 G Hi Hf). }
    assert (Equ : nth i q 0 = u).
    { unfold u. rewrite <- (nth_firstn q (S i) i 0), <- (nth_firstn prev (S i) i 0), Hf by lia. reflexivity. }
    destruct (walk_split _ _ _ _ _ _ Wq i ltac:(lia)) as (d1 & d2 & V1 & V2 & Hd). rewrite Equ in V1, V2.
    rewrite Hf, Eroot in V1. exists d2. split.
    - apply (walk_keep weight es es1); [eapply walk_perm; [apply Permutation_sym; exact HP|exact V2]|].
      intros j e Hj Hin. rewrite skipn_length in Hj.
      pose proof (remove_used_perm _ _ _ _ _ _ _ R) as PR. rewrite app_nil_r in PR. pose proof (Permutation_in _ PR Hin) as Hin'.
      apply in_app_iff in Hin' as [Hin'|Hin']; [exact Hin'|exfalso].
      destruct (remove_used_removed _ _ _ _ _ _ _ R _ Hin') as [[]|(p & Hp & [Hl He] & Hfst)]. cbn [fst] in Hfst. injection Hfst as F1 F2.
      rewrite !nth_skipn' in F1, F2. destruct (Ha p Hp) as [cp Wp].
      assert (i + j = i) by (apply (level q c p cp (i + j) i Wq Wp); [lia|lia|exact F1]). assert (j = 0) by lia. subst j.
      replace (i + 0) with i in F1 by lia. replace (i + 1) with (S i) in F2 by lia.
      apply (Hb' p Hp); [|symmetry; exact F2]. rewrite (firstn_snoc p i) by lia. rewrite Eroot, <- He, <- F1, Equ. reflexivity.
    - rewrite (walk_cost_unique weight es0 s u (root ++ [u]) c1 d1 Hpar Wr V1). exact Hd. }
  split; [exact HP'|]. destruct (sp es1 u t) as [r|] eqn:F.
  - destruct HF as (c & -> & Hpc). pose proof (Hsp es1 u t Hnn1 Hut) as Hr. rewrite F in Hr. destruct Hr as [_ (cr & Vr & Hmin)].
    assert (Wx : W (root ++ r) (c1 + cr)%Q).
    { eapply walk_app; [exact Wr|]. eapply walk_incl; [exact Hsub0|exact Vr]. }
    assert (Wc : W (root ++ r) c).
    { destruct (path_cost_walk weight es' s t (root ++ r) (c1 + cr)%Q) as (d & Ed & Wd).
      - eapply walk_perm; [apply Permutation_sym; exact HP'|exact Wx].
      - rewrite Hpc in Ed. injection Ed as <-. eapply walk_perm; [exact HP'|exact Wd]. }
    split; [constructor; [exact Wc|exact Hb]|]. split; [intros x Hx; right; exact Hx|].
    intros q d Wq Hbr. destruct (Hsurvive q d Wq Hbr) as (d' & V & Hd). exists (root ++ r), (c1 + cr)%Q.
    split; [left; reflexivity|]. split; [exact Wx|]. split; [specialize (Hmin _ _ V); lra|].
    destruct (walk_first weight es1 u t r cr Hut Vr) as (j & e & r'' & -> & Hin). split.
    + rewrite Eroot, firstn_app, Lroot. replace (S i - i) with 1 by lia. rewrite (firstn_all2 root) by lia. reflexivity.
    + intros p Hp Hf He. destruct (Helig p Hp Hf) as [Hel Hu]. rewrite app_nth2 in He by lia. rewrite Lroot in He.
      replace (S i - i) with 1 in He by lia. cbn [nth] in He.
      apply (remove_used_gone _ _ _ _ _ _ _ Hpe R p e Hp Hel). rewrite Hu, He. exact Hin.
  - subst b'. split; [exact Hb|]. split; [auto|]. intros q d Wq Hbr. destruct (Hsurvive q d Wq Hbr) as (d' & V & _).
    pose proof (Hsp es1 u t Hnn1 Hut) as Hr. rewrite F in Hr. destruct (Hr _ _ V).
Qed.

Lemma spurs_candidates a prev is : (forall p, In p a -> exists c, W p c) -> In prev a -> Forall (fun i => S i < length prev) is ->
  forall es b, Permutation es es0 -> Forall (fun x => W (snd x) (fst x)) b ->
  exists es' b', spurs weight sp t a prev is (es, b) = Ok (es', b') /\ Permutation es' es0 /\ Forall (fun x => W (snd x) (fst x)) b'
  /\ (forall x, In x b -> In x b') /\ forall i, In i is -> candidate a prev (map snd b') i.
Proof.
  intros Ha Hprev. induction 1 as [|i is Hi His IH]; intros es b HP Hb; cbn [spurs].
  - exists es, b. split; [reflexivity|]. split; [exact HP|]. split; [exact Hb|]. split; [auto|intros i []].
  - destruct (Ha prev Hprev) as [c0 W0].
    assert (Hgb : Forall (fun x => good weight es0 s t (snd x)) b).
    { eapply Forall_impl; [|exact Hb]. intros x Hx. exact (walk_good _ _ Hx). }
    destruct (spur_good weight sp Hsp es0 s t Hnn Hst a prev i es b (walk_good prev c0 W0) ltac:(lia) HP Hgb) as (es1 & b1 & E1 & _).
    rewrite E1. cbn [bind]. destruct (spur_candidate a prev i es b es1 b1 Ha Hprev Hi HP Hb E1) as (HP1 & Hb1 & Hi1 & Hc1).
    destruct (IH es1 b1 HP1 Hb1) as (es2 & b2 & E2 & HP2 & Hb2 & Hi2 & Hc2). exists es2, b2. split; [exact E2|]. split; [exact HP2|].
    split; [exact Hb2|]. split; [intros x Hx; apply Hi2, Hi1, Hx|]. intros j [<-|Hj]; [|apply Hc2; exact Hj].
    apply (candidate_pool a prev (map snd b1)); [|exact Hc1]. intros x Hx. apply in_map_iff in Hx as (y & <- & Hy). apply in_map, Hi2, Hy.
Qed.

(* All processed paths are covered by the pool. *)
Definition covers (processed pool : list (list nat)) : Prop :=
  forall pre prev suf, processed = pre ++ prev :: suf -> covered (pre ++ [prev]) prev pool.

Lemma next_candidate a pool q c : (forall p, In p a -> exists c, W p c) -> a <> [] -> covers a pool -> W q c -> ~ In q a ->
  exists x d, In x pool /\ ~ In x a /\ W x d /\ (d <= c)%Q.
Proof.
  intros Ha Hne Hcov Wq Hq. set (share := fun n p => list_eqb (firstn n p) (firstn n q)).
  assert (Hs1 : existsb (share 1) a = true).
  { destruct a as [|p a']; [contradiction|]. apply existsb_exists. exists p. split; [left; reflexivity|]. apply list_eqb_iff.
    destruct (Ha p (or_introl eq_refl)) as [cp Wp]. destruct (walk_head _ _ _ _ _ _ Wp) as [p' ->]. destruct (walk_head _ _ _ _ _ _ Wq) as [q' ->]. reflexivity. }
  assert (Hs2 : existsb (share (length q)) a = false).
  { destruct (existsb (share (length q)) a) eqn:X; [|reflexivity]. exfalso. apply existsb_exists in X as (p & Hp & X). apply list_eqb_iff in X.
    destruct (Ha p Hp) as [cp Wp]. destruct (Nat.lt_ge_cases (length q) (length p)) as [L|L].
    - apply (not_prefix q c p cp (length q) Wq Wp); [lia|exact L|symmetry; exact X].
    - rewrite firstn_all, firstn_all2 in X by exact L. subst p. exact (Hq Hp). }
  destruct (walk_first weight es0 s t q c Hst Wq) as (j & e & q' & Eq & _).
  destruct (turning (fun n => existsb (share n) a) (length q) Hs1 Hs2) as (m & Hm & M1 & M2); [rewrite Eq; simpl; lia|].
  destruct (last_match _ _ M1) as (pre & prev & suf & Ea & Hprev & Hsuf). apply list_eqb_iff in Hprev.
  destruct m as [|i]; [lia|].
  assert (Hlen : forall p, In p a -> firstn (S i) p = firstn (S i) q -> S i < length p).
  { intros p Hp Hf. destruct (Ha p Hp) as [cp Wp]. destruct (Nat.lt_ge_cases (S i) (length p)) as [|G]; [assumption|exfalso].
    apply (not_prefix p cp q c (S i) Wp Wq G); [lia|exact Hf]. }
  assert (Hnext : forall p, In p a -> firstn (S i) p = firstn (S i) q -> nth (S i) p 0 <> nth (S i) q 0).
  { intros p Hp Hf He. pose proof (Hlen p Hp Hf). assert (existsb (share (S (S i))) a = true); [|congruence].
    apply existsb_exists. exists p. split; [exact Hp|]. apply list_eqb_iff. rewrite (firstn_snoc p (S i)), (firstn_snoc q (S i)) by lia.
    rewrite Hf, He. reflexivity. }
  assert (Hpre : forall p, In p (pre ++ [prev]) -> In p a).
  { intros p Hp. rewrite Ea. apply in_app_iff in Hp as [Hp|[<-|[]]]; apply in_app_iff; [left; exact Hp|right; left; reflexivity]. }
  assert (Hprev_in : In prev a) by (apply Hpre, in_app_iff; right; left; reflexivity).
  destruct (Hcov pre prev suf Ea i (Hlen prev Hprev_in Hprev) q c Wq) as (x & d & X1 & X2 & X3 & X4 & X5).
  - split; [symmetry; exact Hprev|]. intros p Hp Hf. apply Hnext; [apply Hpre; exact Hp|]. rewrite Hf. exact Hprev.
  - exists x, d. split; [exact X1|]. split; [|split; assumption]. intros Hx. rewrite Ea in Hx. apply in_app_iff in Hx as [Hx|[Hx|Hx]].
    + apply (X5 x); [apply in_app_iff; left; exact Hx|exact X4|reflexivity].
    + apply (X5 x); [apply in_app_iff; right; left; exact Hx|exact X4|reflexivity].
    + specialize (Hsuf x Hx). unfold share in Hsuf. assert (list_eqb (firstn (S i) x) (firstn (S i) q) = true); [|congruence].
      apply list_eqb_iff. rewrite X4. exact Hprev.
Qed.

Lemma item_ltb_le a b : item_ltb a b = true -> (fst a <= fst b)%Q.
Proof.
  unfold item_ltb. rewrite orb_true_iff, andb_true_iff. intros [H|[H _]].
  - unfold Qlt_bool in H. apply negb_true_iff in H. destruct (Qlt_le_dec (fst a) (fst b)) as [L|L]; [lra|]. apply Qle_bool_iff in L. congruence.
  - apply Qeq_bool_iff in H. lra.
Qed.
Lemma item_ltb_ge a b : item_ltb a b = false -> (fst b <= fst a)%Q.
Proof.
  unfold item_ltb. rewrite orb_false_iff. intros [H _]. unfold Qlt_bool in H. apply negb_false_iff in H. apply Qle_bool_iff in H. exact H.
Qed.
Lemma pop_min_le x b : forall m rest, pop_min x b = (m, rest) -> forall y, In y (x :: b) -> (fst m <= fst y)%Q.
Proof.
  revert x. induction b as [|z b IH]; intros x m rest; cbn [pop_min].
  - intros H. injection H as <- <-. intros y [<-|[]]. lra.
  - destruct (pop_min z b) as [m' rest'] eqn:P. specialize (IH z m' rest' P). destruct (item_ltb m' x) eqn:C; intros H; injection H as <- <-; intros y [<-|Hy].
    + apply item_ltb_le. exact C.
    + apply IH. exact Hy.
    + lra.
    + apply item_ltb_ge in C. specialize (IH y Hy). lra.
Qed.
Lemma take_new_min fuel : forall a b, length b <= fuel ->
  match take_new fuel a b with
  | (Some p, b') => exists c, In (c, p) b /\ ~ In p a /\ (forall x, In x b -> ~ In (snd x) a -> (c <= fst x)%Q /\ (snd x = p \/ In x b'))
                    /\ (forall x, In x b' -> In x b)
  | (None, b') => forall x, In x b -> In (snd x) a
  end.
Proof.
  induction fuel as [|n IH]; intros a b Hl; cbn [take_new]; [destruct b; [intros x []|simpl in Hl; lia]|].
  destruct b as [|x b1]; [intros x []|]. destruct (pop_min x b1) as [m rest] eqn:P. pose proof (pop_min_le _ _ _ _ P) as Hle.
  apply pop_min_perm in P. destruct (memb list_eqb (snd m) a) eqn:M.
  - assert (Hma : In (snd m) a). { apply existsb_exists in M as (y & Hy & Ey). apply list_eqb_iff in Ey. rewrite Ey. exact Hy. }
    specialize (IH a rest). assert (Hlr : length rest <= n). { apply Permutation_length in P. simpl in P, Hl. lia. } specialize (IH Hlr).
    destruct (take_new n a rest) as [[p|] b'].
    + destruct IH as (c & H1 & H2 & H3 & H4). exists c. split; [apply (Permutation_in _ (Permutation_sym P)); right; exact H1|]. split; [exact H2|].
      split; [|intros y Hy; apply (Permutation_in _ (Permutation_sym P)); right; apply H4; exact Hy].
      intros y Hy Hn. apply (Permutation_in _ P) in Hy as [<-|Hy]; [contradiction|]. apply H3; assumption.
    + intros y Hy. apply (Permutation_in _ P) in Hy as [<-|Hy]; [exact Hma|apply IH; exact Hy].
  - exists (fst m). split; [|split; [|split]].
    + apply (Permutation_in _ (Permutation_sym P)). left. destruct m; reflexivity.
    + intros Hin. assert (memb list_eqb (snd m) a = true); [|congruence]. apply existsb_exists. exists (snd m). split; [exact Hin|apply list_eqb_iff; reflexivity].
    + intros y Hy _. split; [apply Hle; exact Hy|]. apply (Permutation_in _ P) in Hy as [<-|Hy]; [left; reflexivity|right; exact Hy].
    + intros y Hy. apply (Permutation_in _ (Permutation_sym P)). right. exact Hy.
Qed.

Definition optimal (a : list (list nat)) : Prop :=
  exists costs, Forall2 W a costs /\ NoDup a /\ StronglySorted Qle costs
  /\ forall q d, W q d -> ~ In q a -> Forall (fun c => (c <= d)%Q) costs.

Lemma sorted_snoc costs c : StronglySorted Qle costs -> Forall (fun x => (x <= c)%Q) costs -> StronglySorted Qle (costs ++ [c]).
Proof.
  induction 1 as [|x l Hl IH Hx]; intros Hc; simpl; [repeat constructor|]. inversion Hc; subst. constructor; [apply IH; assumption|].
  apply Forall_app. split; [exact Hx|repeat constructor; assumption].
Qed.

Lemma yen_loop_optimal n : forall es done prev b, Permutation es es0 -> optimal (done ++ [prev]) -> Forall (fun x => W (snd x) (fst x)) b ->
  covers done ((done ++ [prev]) ++ map snd b) ->
  exists out, yen_loop weight sp n (length (done ++ [prev])) t es (done ++ [prev]) b = Ok out /\ optimal out
  /\ length out <= length (done ++ [prev]) + n
  /\ (length out = length (done ++ [prev]) + n \/ forall q d, W q d -> In q out).
Proof.
  induction n as [|n IH]; intros es done prev b HP Hopt Hb Hcov; cbn [yen_loop].
  - exists (done ++ [prev]). split; [reflexivity|]. split; [exact Hopt|]. split; [lia|left; lia].
  - set (a := done ++ [prev]) in *.
    assert (Ek : nth_error a (length a - 1) = Some prev).
    { unfold a. rewrite app_length. cbn [length]. replace (length done + 1 - 1) with (length done) by lia. rewrite nth_error_app2 by lia. rewrite Nat.sub_diag. reflexivity. }
    rewrite Ek. destruct Hopt as (costs & HF & Hd & Hsort & Hout).
    assert (Ha : forall p, In p a -> exists c, W p c).
    { intros p Hp. destruct (Forall2_In_l _ _ _ _ HF Hp) as (c & _ & Hc). exists c. exact Hc. }
    assert (Hprev : In prev a) by (unfold a; apply in_app_iff; right; left; reflexivity).
    destruct (spurs_candidates a prev (seq 0 (length prev - 1)) Ha Hprev) with (es := es) (b := b) as (es' & b' & -> & HP' & Hb' & Hsub & Hcand); [|exact HP|exact Hb|].
    { apply Forall_forall. intros i Hi. apply in_seq in Hi. lia. }
    cbn [bind].
    assert (Hcov' : covers a (a ++ map snd b')).
    { intros pre p suf Ea i Hi. destruct suf as [|y suf] using rev_ind; [|clear IHsuf].
      - unfold a in Ea. apply app_inj_tail in Ea as [<- <-]. apply (candidate_pool _ _ (map snd b')); [intros x Hx; apply in_app_iff; right; exact Hx|].
        apply Hcand. apply in_seq. lia.
      - assert (Ed : done = pre ++ p :: suf). { unfold a in Ea. change (p :: suf ++ [y]) with ((p :: suf) ++ [y]) in Ea. rewrite app_assoc in Ea. apply app_inj_tail in Ea as [-> _]. reflexivity. }
        apply (candidate_pool _ _ (a ++ map snd b)); [|exact (Hcov pre p suf Ed i Hi)].
        intros x Hx. apply in_app_iff in Hx as [Hx|Hx]; apply in_app_iff; [left; exact Hx|right]. apply in_map_iff in Hx as (z & <- & Hz). apply in_map, Hsub, Hz. }
    assert (Hnext : forall q c, W q c -> ~ In q a -> exists x, In x b' /\ ~ In (snd x) a /\ (fst x <= c)%Q).
    { intros q c Wq Hq. destruct (next_candidate a (a ++ map snd b') q c Ha) as (x & d & X1 & X2 & X3 & X4); [unfold a; destruct done; discriminate|exact Hcov'|exact Wq|exact Hq|].
      apply in_app_iff in X1 as [X1|X1]; [contradiction|]. apply in_map_iff in X1 as (y & <- & Hy). exists y. split; [exact Hy|]. split; [exact X2|].
      rewrite Forall_forall in Hb'. rewrite (walk_cost_unique weight es0 s t (snd y) (fst y) d Hpar (Hb' y Hy) X3). exact X4. }
    pose proof (take_new_min (length b') a b' (le_n _)) as Ht. destruct (take_new (length b') a b') as [[p|] b''] eqn:T.
    + destruct Ht as (c & T1 & T2 & T3 & T4). rewrite Forall_forall in Hb'. assert (Wp : W p c) by exact (Hb' (c, p) T1).
      replace (S (length a)) with (length (a ++ [p])) by (rewrite app_length; simpl; lia).
      destruct (IH es' a p b'' HP') as (out & O1 & O2 & O3 & O4).
      * exists (costs ++ [c]). split; [apply Forall2_app; [exact HF|repeat constructor; exact Wp]|]. split.
        { apply NoDup_app_intro; [exact Hd|repeat constructor; intros []|]. intros x Hx [<-|[]]. exact (T2 Hx). }
        split; [apply sorted_snoc; [exact Hsort|exact (Hout p c Wp T2)]|].
        intros q d Wq Hq. assert (Hqa : ~ In q a) by (intros Hin; apply Hq, in_app_iff; left; exact Hin).
        apply Forall_app. split; [exact (Hout q d Wq Hqa)|]. repeat constructor. destruct (Hnext q d Wq Hqa) as (x & X1 & X2 & X3).
        destruct (T3 x X1 X2) as [X4 _]. lra.
      * apply Forall_forall. intros x Hx. apply Hb', T4, Hx.
      * intros pre p0 suf Ea i Hi. apply (candidate_pool _ _ (a ++ map snd b')); [|exact (Hcov' pre p0 suf Ea i Hi)].
        intros x Hx. apply in_app_iff in Hx as [Hx|Hx]; [apply in_app_iff; left; apply in_app_iff; left; exact Hx|].
        apply in_map_iff in Hx as (y & <- & Hy). destruct (in_dec (list_eq_dec Nat.eq_dec) (snd y) a) as [Hin|Hnin].
        { apply in_app_iff. left. apply in_app_iff. left. exact Hin. }
        destruct (T3 y Hy Hnin) as [_ [Hyp|Hy']]; apply in_app_iff; [left; apply in_app_iff; right; left; symmetry; exact Hyp|right; apply in_map; exact Hy'].
      * exists out. split; [exact O1|]. split; [exact O2|]. rewrite app_length in O3, O4. cbn [length] in O3, O4. split; [lia|].
        destruct O4 as [O4|O4]; [left; lia|right; exact O4].
    + assert (Hall : forall q d, W q d -> In q a).
      { intros q d Wq. destruct (in_dec (list_eq_dec Nat.eq_dec) q a) as [Hin|Hnin]; [exact Hin|exfalso].
        destruct (Hnext q d Wq Hnin) as (x & X1 & X2 & _). exact (X2 (Ht x X1)). }
      exists a. split; [|split; [exists costs; split; [exact HF|split; [exact Hd|split; assumption]]|split; [lia|right; exact Hall]]].
      destruct n as [|n]; [reflexivity|]. cbn [yen_loop]. replace (nth_error a (S (length a) - 1)) with (@None (list nat)); [reflexivity|].
      symmetry. apply nth_error_None. lia.
Qed.

Theorem yens_optimal k : exists paths, yens_ksp weight sp es0 k s t = Ok paths /\ k_cheapest weight es0 s t (Nat.max 1 k) paths.
Proof.
  unfold yens_ksp. pose proof (Hsp es0 s t Hnn Hst) as H. destruct (sp es0 s t) as [first|] eqn:F.
  - destruct H as [_ (c & Wf & Hmin)]. destruct (path_cost_walk _ _ _ _ _ _ Wf) as (d & -> & _). cbn [bind].
    destruct (yen_loop_optimal (k - 1) es0 [] first []) as (out & O1 & (costs & HF & Hd & Hs & Hout) & O3 & O4).
    + apply Permutation_refl.
    + exists [c]. split; [repeat constructor; exact Wf|]. split; [repeat constructor; intros []|]. split; [repeat constructor|].
      intros q d' Wq _. repeat constructor. exact (Hmin q d' Wq).
    + constructor.
    + intros pre prev suf Ea. destruct pre; discriminate.
    + exists out. split; [exact O1|]. cbn [app length] in O3, O4. exists costs. split.
      { eapply Forall2_impl; [|exact HF]. intros p x Hp. split; [exact (walk_simple p x Hp)|exact Hp]. }
      split; [exact Hd|]. split; [lia|]. split; [exact Hs|]. intros q d' _ Wq Hq. split; [|exact (Hout q d' Wq Hq)].
      destruct O4 as [O4|O4]; [lia|]. destruct (Hq (O4 q d' Wq)).
  - exists []. split; [reflexivity|]. exists []. split; [constructor|]. split; [constructor|]. split; [simpl; lia|]. split; [constructor|].
    intros q d _ Wq. destruct (H q d Wq).
Qed.
End Optimal.
