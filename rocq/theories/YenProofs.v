(* Proofs about yens_ksp that hold for every graph. *)
From Verif Require Import Prelude NumQ ListFacts UtilsProofs EnumModel EnumProofs EnumReactProofs NetModel YenModel YenSpec.
From Coq Require Import Lqa.
Open Scope nat_scope.

Section Walks.
Context {E : Type}.
Variable weight : E -> Q.
Notation edges := (list (nat * nat * E)).
Notation walk := (walk weight).

Lemma joins_iff i j (e : nat * nat * E) : joins i j e = true <-> fst e = (i, j).
Proof.
  unfold joins. destruct e as [[a b] x]. cbn [fst snd]. rewrite andb_true_iff, !Nat.eqb_eq. split; [intros [-> ->]; reflexivity|intros H; injection H; auto].
Qed.
Lemma edge_data_in (es : edges) i j e : edge_data es i j = Ok e -> In (i, j, e) es.
Proof.
  unfold edge_data. destruct (find _ es) as [x|] eqn:F; [|discriminate]. intros H. injection H as <-.
  apply find_some in F as [F1 F2]. apply joins_iff in F2. destruct x as [x y]. cbn [fst snd] in *. subst x. exact F1.
Qed.
Lemma edge_data_ok (es : edges) i j e : In (i, j, e) es -> exists e', edge_data es i j = Ok e' /\ In (i, j, e') es.
Proof.
  intros H. unfold edge_data. destruct (find (joins i j) es) as [x|] eqn:F.
  - exists (snd x). split; [reflexivity|]. apply find_some in F as [F1 F2]. apply joins_iff in F2. destruct x as [x y]. cbn [fst snd] in *. subst x. exact F1.
  - exfalso. pose proof (find_none _ _ F _ H) as C. assert (joins i j (i, j, e) = true) by (apply joins_iff; reflexivity). congruence.
Qed.
Lemma remove_edge_perm (es : edges) i j e : edge_data es i j = Ok e -> Permutation es ((i, j, e) :: remove_edge es i j).
Proof.
  unfold edge_data. induction es as [|x es IH]; simpl; [discriminate|]. destruct (joins i j x) eqn:J.
  - intros H. injection H as <-. apply joins_iff in J. destruct x as [x y]. cbn [fst snd] in *. subst x. apply Permutation_refl.
  - intros H. eapply perm_trans; [apply perm_skip, IH; exact H|apply perm_swap].
Qed.

Lemma remove_used_perm i root paths : forall (es removed es1 removed1 : edges),
  remove_used i root paths es removed = (es1, removed1) -> Permutation (es ++ removed) (es1 ++ removed1).
Proof.
  induction paths as [|p ps IH]; intros es removed es1 removed1; cbn [remove_used].
  - intros H. injection H as <- <-. apply Permutation_refl.
  - destruct (Nat.ltb i (length p - 1) && list_eqb root (firstn i p)); [|apply IH].
    destruct (edge_data es (nth i p 0) (nth (S i) p 0)) as [e|] eqn:D; [|apply IH]. intros H. apply IH in H.
    eapply perm_trans; [|exact H]. apply remove_edge_perm in D. eapply perm_trans; [apply Permutation_app_tail; exact D|].
    rewrite app_assoc. apply (Permutation_app_tail removed) in D. simpl.
    eapply perm_trans; [|apply Permutation_cons_append]. apply Permutation_refl.
Qed.

Lemma walk_incl (es es' : edges) s t p c : (forall e, In e es -> In e es') -> walk es s t p c -> walk es' s t p c.
Proof.
  intros H. induction 1 as [|i j t e p c d Hin W IH Hd]; [constructor; assumption|]. eapply walk_step; [apply H; exact Hin|exact IH|exact Hd].
Qed.
Lemma walk_perm (es es' : edges) s t p c : Permutation es es' -> walk es s t p c -> walk es' s t p c.
Proof. intros H. apply walk_incl. intros e. apply Permutation_in. exact H. Qed.
Lemma walk_eq (es : edges) s t p c d : (c == d)%Q -> walk es s t p c -> walk es s t p d.
Proof.
  intros Hcd. destruct 1 as [t c H|i j t e p c c' Hin W Hd]; [constructor; rewrite <- Hcd; exact H|].
  eapply walk_step; [exact Hin|exact W|]. rewrite <- Hcd. exact Hd.
Qed.
Lemma walk_head (es : edges) s t p c : walk es s t p c -> exists p', p = s :: p'.
Proof. destruct 1; eexists; reflexivity. Qed.
Lemma walk_last (es : edges) s t p c : walk es s t p c -> exists p', p = p' ++ [t].
Proof.
  induction 1 as [t|i j t e p c d Hin W [p' IH]]; [exists []; reflexivity|]. subst p. exists (i :: p'). reflexivity.
Qed.
Lemma walk_cost_nonneg (es : edges) s t p c : non_negative weight es -> walk es s t p c -> (0 <= c)%Q.
Proof.
  intros Hn. induction 1 as [|i j t e p c d Hin W IH Hd]; [lra|]. pose proof (Hn _ Hin). cbn [snd] in *. lra.
Qed.
Lemma walk_app (es : edges) s u t l q c d : walk es s u (l ++ [u]) c -> walk es u t q d -> walk es s t (l ++ q) (c + d)%Q.
Proof.
  intros W1 W2. remember (l ++ [u]) as p eqn:Ep. revert l Ep. induction W1 as [u c H|i j u e p c c' Hin W IH Hd]; intros l Ep.
  - destruct l as [|x [|y l]]; try discriminate. simpl. eapply walk_eq; [|exact W2]. lra.
  - destruct l as [|x l]; simpl in Ep.
    + injection Ep as -> ->. inversion W.
    + injection Ep as <- Ep. simpl. eapply walk_step; [exact Hin|apply IH; [exact W2|exact Ep]|]. lra.
Qed.
(* Splitting at position i. *)
Lemma walk_split (es : edges) s t p c : walk es s t p c -> forall i, i < length p ->
  exists c1 c2, walk es s (nth i p 0) (firstn (S i) p) c1 /\ walk es (nth i p 0) t (skipn i p) c2 /\ (c == c1 + c2)%Q.
Proof.
  induction 1 as [t c H|i j t e p c d Hin W IH Hd]; intros k Hk.
  - destruct k; [|simpl in Hk; lia]. exists 0%Q, c. simpl. split; [constructor; reflexivity|]. split; [constructor; exact H|lra].
  - destruct k as [|k].
    + exists 0%Q, d. simpl. split; [constructor; reflexivity|]. split; [eapply walk_step; eassumption|lra].
    + destruct (IH k) as (c1 & c2 & W1 & W2 & Hc); [simpl in Hk; lia|]. exists (weight e + c1)%Q, c2. simpl nth. simpl skipn.
      split; [|split; [exact W2|lra]]. change (firstn (S (S k)) (i :: p)) with (i :: firstn (S k) p). eapply walk_step; [exact Hin|exact W1|reflexivity].
Qed.
Lemma firstn_snoc (l : list nat) i : i < length l -> firstn (S i) l = firstn i l ++ [nth i l 0].
Proof.
  revert i. induction l as [|x l IH]; intros i Hi; [simpl in Hi; lia|]. destruct i as [|i]; [reflexivity|].
  change (firstn (S (S i)) (x :: l)) with (x :: firstn (S i) l). rewrite IH by (simpl in Hi; lia). reflexivity.
Qed.

Lemma path_cost_walk (es : edges) s t p c : walk es s t p c -> exists d, path_cost weight es p = Ok d /\ walk es s t p d.
Proof.
  induction 1 as [t c H|i j t e p c d Hin W (d' & IH & W') Hd].
  - exists 0%Q. split; [reflexivity|constructor; reflexivity].
  - destruct (walk_head _ _ _ _ _ W) as [p' ->]. destruct (edge_data_ok _ _ _ _ Hin) as (e' & He & Hin').
    exists (weight e' + d')%Q. change (path_cost weight es (i :: j :: p')) with
      (bind (edge_data es i j) (fun e => bind (path_cost weight es (j :: p')) (fun c => Ok (weight e + c)%Q))).
    rewrite He, IH. split; [reflexivity|]. eapply walk_step; [exact Hin'|exact W'|reflexivity].
Qed.
End Walks.

Lemma removelast_firstn_in (p : list nat) i x : i < length p -> In x (firstn i p) -> In x (removelast p).
Proof.
  intros Hi Hx. rewrite <- (firstn_skipn i p). rewrite removelast_app; [|intros E1; apply (f_equal (@length nat)) in E1; rewrite skipn_length in E1; simpl in E1; lia].
  apply in_app_iff. left. exact Hx.
Qed.

Section Yen.
Context {E : Type}.
Variable weight : E -> Q.
Variable sp : list (nat * nat * E) -> nat -> nat -> option (list nat).
Hypothesis Hsp : shortest weight sp.
Notation edges := (list (nat * nat * E)).
Variables (es0 : edges) (s t : nat).
Hypothesis Hnn : non_negative weight es0.
Hypothesis Hst : s <> t.

(* A walk that meets t at its end only. *)
Definition good (p : list nat) : Prop := (exists c, walk weight es0 s t p c) /\ ~ In t (removelast p).

Lemma non_negative_incl (es : edges) : (forall e, In e es -> In e es0) -> non_negative weight es.
Proof. intros H e He. apply Hnn, H, He. Qed.
Lemma nth_not_t p i : good p -> i < length p - 1 -> nth i p 0 <> t.
Proof.
  intros [_ H] Hi E1. apply H. apply (removelast_firstn_in p (S i)); [lia|]. rewrite firstn_snoc by lia. apply in_app_iff. right. left. exact E1.
Qed.
Lemma sp_good u p (es : edges) : non_negative weight es -> u <> t -> sp es u t = Some p -> NoDup p /\ cheapest_walk weight es u t p /\ ~ In t (removelast p).
Proof.
  intros Hn Hu E1. pose proof (Hsp es u t Hn Hu) as H. rewrite E1 in H. destruct H as [Hd Hc]. split; [exact Hd|]. split; [exact Hc|].
  destruct Hc as (c & W & _). destruct (walk_last _ _ _ _ _ _ W) as [p' ->]. rewrite removelast_last. apply NoDup_remove_2 in Hd. rewrite app_nil_r in Hd. exact Hd.
Qed.

Lemma removed_endpoints (es es1 removed : edges) i root a : remove_used i root a es [] = (es1, removed) ->
  Permutation es (rev removed ++ es1) /\ forall e, In e es1 -> In e es.
Proof.
  intros H. apply remove_used_perm in H. rewrite app_nil_r in H.
  assert (P : Permutation es (rev removed ++ es1)).
  { eapply perm_trans; [exact H|]. eapply perm_trans; [apply Permutation_app_comm|]. apply Permutation_app_tail, Permutation_rev. }
  split; [exact P|]. intros e He. apply (Permutation_in _ (Permutation_sym P)), in_app_iff. right. exact He.
Qed.

Lemma spur_good a prev i es b : good prev -> i < length prev - 1 -> Permutation es es0 -> Forall (fun x => good (snd x)) b ->
  exists es' b', spur weight sp t a prev i (es, b) = Ok (es', b') /\ Permutation es' es0 /\ Forall (fun x => good (snd x)) b'
  /\ (exists es1 removed, remove_used i (firstn i prev) a es [] = (es1, removed)
      /\ match sp es1 (nth i prev 0) t with
         | None => b' = b
         | Some q => exists c, b' = (c, firstn i prev ++ q) :: b /\ path_cost weight es' (firstn i prev ++ q) = Ok c
         end).
Proof.
  intros Hg Hi HP Hb. unfold spur. destruct (remove_used i (firstn i prev) a es []) as [es1 removed] eqn:R.
  destruct (removed_endpoints _ _ _ _ _ _ R) as [P Hsub]. set (es2 := rev removed ++ es1) in *.
  assert (P2 : Permutation es2 es0) by (eapply perm_trans; [apply Permutation_sym; exact P|exact HP]).
  destruct (sp es1 (nth i prev 0) t) as [q|] eqn:F.
  - destruct (sp_good (nth i prev 0) q es1) as (Hd & (c & W & _) & Hlast); [|apply nth_not_t; assumption|exact F|].
    { apply non_negative_incl. intros e He. apply (Permutation_in _ HP), Hsub, He. }
    destruct Hg as [(c0 & W0) Hg]. destruct (walk_split _ _ _ _ _ _ W0 i ltac:(lia)) as (c1 & c2 & W1 & _ & _).
    rewrite firstn_snoc in W1 by lia.
    assert (Wq : walk weight es0 s t (firstn i prev ++ q) (c1 + c)%Q).
    { eapply walk_app; [exact W1|]. eapply walk_incl; [|exact W]. intros e He. apply (Permutation_in _ HP), Hsub, He. }
    destruct (path_cost_walk weight es2 s t (firstn i prev ++ q) (c1 + c)%Q) as (d & Ed & _).
    { eapply walk_perm; [apply Permutation_sym; exact P2|exact Wq]. }
    rewrite Ed. cbn [bind]. exists es2, ((d, firstn i prev ++ q) :: b). split; [reflexivity|]. split; [exact P2|]. split.
    + constructor; [|exact Hb]. cbn [snd]. split; [eexists; exact Wq|].
      destruct (walk_head _ _ _ _ _ _ W) as [q' Eq]. rewrite removelast_app by (rewrite Eq; discriminate). intros Hin.
      apply in_app_iff in Hin as [Hin|Hin]; [|exact (Hlast Hin)]. apply Hg. apply (removelast_firstn_in prev i); [lia|exact Hin].
    + exists es1, removed. split; [reflexivity|]. rewrite F. exists d. split; [reflexivity|exact Ed].
  - exists es2, b. split; [reflexivity|]. split; [exact P2|]. split; [exact Hb|]. exists es1, removed. split; [reflexivity|]. rewrite F. reflexivity.
Qed.
Lemma spurs_good a prev is : good prev -> Forall (fun i => i < length prev - 1) is -> forall es b, Permutation es es0 ->
  Forall (fun x => good (snd x)) b ->
  exists es' b', spurs weight sp t a prev is (es, b) = Ok (es', b') /\ Permutation es' es0 /\ Forall (fun x => good (snd x)) b'.
Proof.
  intros Hg. induction 1 as [|i is Hi His IH]; intros es b HP Hb; cbn [spurs].
  - exists es, b. split; [reflexivity|]. split; assumption.
  - destruct (spur_good a prev i es b Hg Hi HP Hb) as (es' & b' & -> & HP' & Hb' & _). cbn [bind]. apply IH; assumption.
Qed.

Lemma pop_min_perm x b : forall m rest, pop_min x b = (m, rest) -> Permutation (x :: b) (m :: rest).
Proof.
  revert x. induction b as [|y b IH]; intros x m rest; cbn [pop_min].
  - intros H. injection H as <- <-. apply Permutation_refl.
  - destruct (pop_min y b) as [m' rest'] eqn:P. specialize (IH y m' rest' P). destruct (item_ltb m' x); intros H; injection H as <- <-.
    + eapply perm_trans; [apply perm_skip; exact IH|apply perm_swap].
    + apply Permutation_refl.
Qed.
Lemma take_new_spec fuel : forall a b p b', take_new fuel a b = (p, b') ->
  (forall x, In x b' -> In x b) /\ match p with Some q => ~ In q a /\ In q (map snd b) | None => True end.
Proof.
  induction fuel as [|n IH]; intros a b p b'; cbn [take_new]; [intros H; injection H as <- <-; split; [intros x []|exact I]|].
  destruct b as [|x b1]; [intros H; injection H as <- <-; split; [intros x []|exact I]|].
  destruct (pop_min x b1) as [m rest] eqn:P. apply pop_min_perm in P.
  destruct (memb list_eqb (snd m) a) eqn:M; intros H.
  - destruct (IH _ _ _ _ H) as [H1 H2]. split.
    + intros y Hy. apply (Permutation_in _ (Permutation_sym P)). right. apply H1, Hy.
    + destruct p as [q|]; [|exact I]. destruct H2 as [H2 H3]. split; [exact H2|].
      apply (Permutation_in _ (Permutation_sym (Permutation_map snd P))). right. exact H3.
  - injection H as <- <-. split.
    + intros y Hy. apply (Permutation_in _ (Permutation_sym P)). right. exact Hy.
    + split.
      * intros Hin. assert (memb list_eqb (snd m) a = true); [|congruence]. apply existsb_exists. exists (snd m). split; [exact Hin|apply list_eqb_iff; reflexivity].
      * apply (Permutation_in _ (Permutation_sym (Permutation_map snd P))). left. reflexivity.
Qed.

Lemma yen_loop_good n : forall k es a b, Permutation es es0 -> Forall good a -> NoDup a -> Forall (fun x => good (snd x)) b ->
  exists out rest, yen_loop weight sp n k t es a b = Ok out /\ out = a ++ rest /\ length rest <= n /\ Forall good out /\ NoDup out.
Proof.
  induction n as [|n IH]; intros k es a b HP Ha Hd Hb; cbn [yen_loop].
  - exists a, []. rewrite app_nil_r. split; [reflexivity|]. split; [reflexivity|]. split; [simpl; lia|]. split; assumption.
  - destruct (nth_error a (k - 1)) as [prev|] eqn:Ep.
    2:{ exists a, []. rewrite app_nil_r. split; [reflexivity|]. split; [reflexivity|]. split; [simpl; lia|]. split; assumption. }
    apply nth_error_In in Ep. assert (Hg : good prev) by (rewrite Forall_forall in Ha; apply Ha; exact Ep).
    destruct (spurs_good a prev (seq 0 (length prev - 1)) Hg) with (es := es) (b := b) as (es' & b' & -> & HP' & Hb'); [|exact HP|exact Hb|].
    { apply Forall_forall. intros i Hi. apply in_seq in Hi. lia. }
    cbn [bind]. destruct (take_new (length b') a b') as [[p|] b''] eqn:T; apply take_new_spec in T as [T1 T2].
    + destruct T2 as [T2 T3]. assert (Hb'' : Forall (fun x => good (snd x)) b'').
      { apply Forall_forall. intros x Hx. rewrite Forall_forall in Hb'. apply Hb', T1, Hx. }
      assert (Hp : good p). { apply in_map_iff in T3 as (x & <- & Hx). rewrite Forall_forall in Hb'. apply Hb', Hx. }
      destruct (IH (S k) es' (a ++ [p]) b'' HP') as (out & rest & E1 & E2 & E3 & E4 & E5).
      * apply Forall_app. split; [exact Ha|]. repeat constructor; apply Hp.
      * apply NoDup_app_intro; [exact Hd|repeat constructor; intros []|]. intros x Hx [<-|[]]. exact (T2 Hx).
      * exact Hb''.
      * exists out, (p :: rest). split; [exact E1|]. split; [rewrite E2, <- app_assoc; reflexivity|]. split; [simpl; lia|]. split; assumption.
    + destruct (IH (S k) es' a b'' HP' Ha Hd) as (out & rest & E1 & E2 & E3 & E4 & E5).
      * apply Forall_forall. intros x Hx. rewrite Forall_forall in Hb'. apply Hb', T1, Hx.
      * exists out, rest. split; [exact E1|]. split; [exact E2|]. split; [lia|]. split; assumption.
Qed.

Theorem yens_general k : exists paths, yens_ksp weight sp es0 k s t = Ok paths
  /\ Forall (fun p => exists c, walk weight es0 s t p c) paths /\ NoDup paths /\ length paths <= Nat.max 1 k
  /\ (paths = [] <-> forall p c, ~ walk weight es0 s t p c)
  /\ (forall p rest, paths = p :: rest -> cheapest_walk weight es0 s t p).
Proof.
  unfold yens_ksp. pose proof (Hsp es0 s t Hnn Hst) as H. destruct (sp es0 s t) as [first|] eqn:F.
  - destruct (sp_good s first es0 Hnn Hst F) as (_ & Hc & Hl). destruct Hc as (c & W & Hm).
    destruct (path_cost_walk _ _ _ _ _ _ W) as (d & -> & _). cbn [bind].
    destruct (yen_loop_good (k - 1) 1 es0 [first] []) as (out & rest & E1 & E2 & E3 & E4 & E5).
    + apply Permutation_refl.
    + repeat constructor; [exists c; exact W|exact Hl].
    + repeat constructor. intros [].
    + constructor.
    + exists out. split; [exact E1|]. split; [eapply Forall_impl; [|exact E4]; intros p [Hp _]; exact Hp|]. split; [exact E5|].
      split; [rewrite E2, app_length; cbn [length]; lia|]. split.
      * split; [rewrite E2; discriminate|]. intros Hno. destruct (Hno first c W).
      * intros p r Ep. rewrite E2 in Ep. injection Ep as <- _. exists c. split; assumption.
  - exists []. split; [reflexivity|]. split; [constructor|]. split; [constructor|]. split; [simpl; lia|]. split.
    + split; [intros _; exact H|reflexivity].
    + discriminate.
Qed.
End Yen.
