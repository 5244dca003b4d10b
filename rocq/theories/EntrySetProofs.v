From Coq Require Import Lqa.
From Verif Require Import Prelude NumQ ListFacts UtilsModel ReactionModel ReactionBaseProofs RxnSetBaseProofs SolverModel SolverSolveProofs EnumModel RunModel EntrySetModel EntrySetSpec.
Open Scope nat_scope.

Lemma mem_iff e l : mem e l = true <-> In e l.
Proof. unfold mem. apply memb_iff. Qed.
Lemma mem_false e l : mem e l = false <-> ~ In e l.
Proof. rewrite <- mem_iff. destruct (mem e l); split; congruence. Qed.

Lemma set_add_In e l x : In x (set_add e l) <-> x = e \/ In x l.
Proof.
  unfold set_add. destruct (mem e l) eqn:M.
  - apply mem_iff in M. split; [tauto|]. intros [->|H]; assumption.
  - rewrite in_app_iff. cbn. intuition congruence.
Qed.
Lemma set_add_NoDup e l : NoDup l -> NoDup (set_add e l).
Proof.
  unfold set_add. destruct (mem e l) eqn:M; [tauto|]. intros H. apply mem_false in M.
  apply (Permutation_NoDup (Permutation_cons_append l e)). constructor; assumption.
Qed.
Lemma set_discard_In e l x : In x (set_discard e l) <-> In x l /\ x <> e.
Proof. unfold set_discard. rewrite filter_In, negb_true_iff, Nat.eqb_neq. reflexivity. Qed.
Lemma set_discard_NoDup e l : NoDup l -> NoDup (set_discard e l).
Proof. apply NoDup_filter. Qed.
Lemma set_update_In es : forall l x, In x (set_update es l) <-> In x es \/ In x l.
Proof.
  unfold set_update. induction es as [|e es IH]; intros l x; cbn [fold_left].
  - cbn. tauto.
  - rewrite IH, set_add_In. cbn. intuition congruence.
Qed.
Lemma set_update_NoDup es : forall l, NoDup l -> NoDup (set_update es l).
Proof. unfold set_update. induction es as [|e es IH]; intros l H; [exact H|]. cbn. apply IH, set_add_NoDup. exact H. Qed.

(* --- C49 --- *)
Section Cache.
Context {view value : Type}.
Variable view_eqb : view -> view -> bool.
Hypothesis view_eqb_spec : forall a b, view_eqb a b = true <-> a = b.
Variable compute : view -> list nat -> result value.
Variable arrange : list nat -> list nat.
Hypothesis arrange_perm : forall l, Permutation l (arrange l).
Notation eset := (eset view value).
Notation init := (es_init view value arrange).
Notation run := (run view view_eqb value compute arrange).
Notation step := (step view view_eqb value compute arrange).
Notation read := (read view view_eqb value compute).
Notation discard := (discard view value arrange).
Notation add := (add view value arrange).

Definition coherent (s : eset) : Prop := forall v x, In (v, x) (es_cache s) -> compute v (es_members s) = Ok x.
Definition good (s : eset) : Prop := coherent s /\ NoDup (es_members s).

Lemma read_value s v : coherent s -> snd (read v s) = compute v (es_members s).
Proof.
  intros H. unfold EntrySetModel.read, cache_get. destruct (find (fun kv => view_eqb v (fst kv)) (es_cache s)) as [[v' x]|] eqn:F.
  - apply find_some in F as [I E]. cbn [fst] in E. apply view_eqb_spec in E. subst v'. cbn. symmetry. apply H. exact I.
  - destruct (compute v (es_members s)); reflexivity.
Qed.
Lemma read_members s v : es_members (fst (read v s)) = es_members s.
Proof. unfold EntrySetModel.read. destruct (cache_get _ _ _ v (es_cache s)); [reflexivity|]. destruct (compute v (es_members s)); reflexivity. Qed.
Lemma read_coherent s v : coherent s -> coherent (fst (read v s)).
Proof.
  intros H. unfold EntrySetModel.read. destruct (cache_get _ _ _ v (es_cache s)); [exact H|].
  destruct (compute v (es_members s)) as [x|e] eqn:E; [|exact H]. intros v' x' [I|I]; cbn in *; [inversion I; subst; exact E|]. apply H. exact I.
Qed.

Lemma arrange_In l x : In x (arrange l) <-> In x l.
Proof. split; apply Permutation_in; [apply Permutation_sym|]; apply arrange_perm. Qed.
Lemma arrange_NoDup l : NoDup l -> NoDup (arrange l).
Proof. apply Permutation_NoDup. apply arrange_perm. Qed.
Lemma arrange_length l : length (arrange l) = length l.
Proof. symmetry. apply Permutation_length, arrange_perm. Qed.

Lemma empty_good l : NoDup l -> good {| es_members := l; es_cache := [] |}.
Proof. intros H. split; [intros v x []|exact H]. Qed.
Lemma init_good es : good (init es).
Proof. apply empty_good, arrange_NoDup, set_update_NoDup. constructor. Qed.
Lemma add_good e s : good s -> good (add e s).
Proof. intros [_ N]. apply empty_good, arrange_NoDup, set_add_NoDup. exact N. Qed.
Lemma discard_good e s : good s -> good (discard e s).
Proof. intros [_ N]. apply empty_good, arrange_NoDup, set_discard_NoDup. exact N. Qed.
Lemma pop_good s : good s -> good (fst (pop view value arrange s)).
Proof. intros H. unfold pop. destruct (es_members s); [exact H|]. apply discard_good. exact H. Qed.
Lemma clear_loop_good n : forall s, good s -> good (clear_loop view value arrange n s).
Proof.
  induction n as [|n IH]; intros s H; [exact H|]. cbn. assert (P := pop_good s H). destruct (pop view value arrange s) as [s' [x|e]]; cbn in P; [apply IH; exact P|exact P].
Qed.
Lemma fold_good {A} (f : eset -> A -> eset) (l : list A) : (forall s a, good s -> good (f s a)) -> forall s, good s -> good (fold_left f l s).
Proof. intros H. induction l as [|a l IH]; intros s G; [exact G|]. cbn. apply IH, H. exact G. Qed.

Lemma step_good s o : good s -> good (step s o).
Proof.
  intros H. destruct o; cbn [EntrySetModel.step].
  - apply add_good. exact H.
  - destruct H as [_ N]. apply empty_good, arrange_NoDup, set_update_NoDup. exact N.
  - apply discard_good. exact H.
  - unfold remove. destruct (mem e (es_members s)); cbn; [apply discard_good|]; exact H.
  - apply pop_good. exact H.
  - apply clear_loop_good. exact H.
  - unfold ior. apply fold_good; [intros; apply add_good; assumption|exact H].
  - unfold isub. apply fold_good; [intros; apply discard_good; assumption|exact H].
  - unfold iand, isub. apply fold_good; [intros; apply discard_good; assumption|exact H].
  - split; [apply read_coherent, H|]. rewrite read_members. apply H.
Qed.
Lemma run_good es ops : good (run (init es) ops).
Proof. unfold EntrySetModel.run. apply fold_good; [intros; apply step_good; assumption|apply init_good]. Qed.

Lemma never_stale es ops v : snd (read v (run (init es) ops)) = compute v (es_members (run (init es) ops)).
Proof. apply read_value. apply run_good. Qed.

Lemma like_fresh es ops v es' : (forall l l', Permutation l l' -> compute v l = compute v l') ->
  (forall x, In x es' <-> In x (es_members (run (init es) ops))) ->
  snd (read v (run (init es) ops)) = snd (read v (init es')).
Proof.
  intros P H. rewrite never_stale. rewrite (read_value _ _ (proj1 (init_good es'))). apply P. apply NoDup_Permutation.
  - apply run_good.
  - apply init_good.
  - intros x. cbn. rewrite arrange_In, set_update_In, H. cbn. tauto.
Qed.

(* What each operation does to the members. *)
Lemma discard_all l : forall s x, In x (es_members (fold_left (fun acc e => discard e acc) l s)) <-> In x (es_members s) /\ ~ In x l.
Proof.
  induction l as [|e l IH]; intros s x; cbn [fold_left]; [cbn; tauto|]. rewrite IH. cbn [es_members EntrySetModel.discard]. rewrite arrange_In, set_discard_In. cbn. intuition congruence.
Qed.
Lemma add_all l : forall s x, In x (es_members (fold_left (fun acc e => add e acc) l s)) <-> In x (es_members s) \/ In x l.
Proof.
  induction l as [|e l IH]; intros s x; cbn [fold_left]; [cbn; tauto|]. rewrite IH. cbn [es_members EntrySetModel.add]. rewrite arrange_In, set_add_In. cbn. intuition congruence.
Qed.

Lemma discard_length x l : NoDup l -> In x l -> length (set_discard x l) = length l - 1.
Proof.
  intros N I. assert (P : Permutation l (x :: set_discard x l)).
  { apply NoDup_Permutation; [exact N| |].
    - constructor; [|apply set_discard_NoDup; exact N]. rewrite set_discard_In. intros [_ H]. congruence.
    - intros y. cbn. rewrite set_discard_In. destruct (Nat.eq_dec y x) as [->|E]; [tauto|]. intuition congruence. }
  apply Permutation_length in P. cbn in P. lia.
Qed.
Lemma clear_loop_empty n : forall s, NoDup (es_members s) -> length (es_members s) < n -> es_members (clear_loop view value arrange n s) = [].
Proof.
  induction n as [|n IH]; intros s N L; [lia|]. cbn. unfold pop. destruct (es_members s) as [|x l] eqn:E; [exact E|].
  apply IH.
  - cbn. rewrite E. apply arrange_NoDup. cbn [es_members EntrySetModel.discard]. apply set_discard_NoDup. exact N.
  - cbn [es_members EntrySetModel.discard]. rewrite arrange_length, E, discard_length; [cbn in *; lia|exact N|left; reflexivity].
Qed.

Lemma members_after s o : good s ->
  match o with
  | OAdd _ e => forall x, In x (es_members (step s o)) <-> x = e \/ In x (es_members s)
  | OUpdate _ es => forall x, In x (es_members (step s o)) <-> In x es \/ In x (es_members s)
  | ODiscard _ e => forall x, In x (es_members (step s o)) <-> In x (es_members s) /\ x <> e
  | ORemove _ e => (forall x, In x (es_members (step s o)) <-> In x (es_members s) /\ x <> e)
                 /\ (snd (remove view value arrange e s) = Err KeyError <-> ~ In e (es_members s))
  | OPop _ => (es_members s = [] /\ snd (pop view value arrange s) = Err KeyError)
           \/ exists p, snd (pop view value arrange s) = Ok p /\ In p (es_members s)
                       /\ forall x, In x (es_members (step s o)) <-> In x (es_members s) /\ x <> p
  | OClear _ => es_members (step s o) = []
  | OIor _ es => forall x, In x (es_members (step s o)) <-> In x (es_members s) \/ In x es
  | OIsub _ es => forall x, In x (es_members (step s o)) <-> In x (es_members s) /\ ~ In x es
  | OIand _ es => forall x, In x (es_members (step s o)) <-> In x (es_members s) /\ In x es
  | ORead _ _ => es_members (step s o) = es_members s
  end.
Proof.
  intros [_ N]. destruct o; cbn [EntrySetModel.step].
  - intros x. cbn. rewrite arrange_In. apply set_add_In.
  - intros x. cbn. rewrite arrange_In. apply set_update_In.
  - intros x. cbn. rewrite arrange_In. apply set_discard_In.
  - unfold remove. destruct (mem e (es_members s)) eqn:M; cbn [fst snd].
    + apply mem_iff in M. split; [intros x; cbn; rewrite arrange_In; apply set_discard_In|]. split; [discriminate|contradiction].
    + apply mem_false in M. split; [|tauto]. intros x. split; [|tauto]. intros H. split; [exact H|]. intros ->. contradiction.
  - unfold pop. destruct (es_members s) as [|p l] eqn:E; [left; split; reflexivity|]. right. exists p. cbn [fst snd].
    split; [reflexivity|]. split; [left; reflexivity|]. intros x. cbn [es_members EntrySetModel.discard]. rewrite arrange_In, set_discard_In, E. reflexivity.
  - apply clear_loop_empty; [exact N|lia].
  - intros x. apply add_all.
  - intros x. apply discard_all.
  - intros x. unfold iand, isub. rewrite discard_all, filter_In, negb_true_iff, mem_false. destruct (in_dec Nat.eq_dec x es); tauto.
  - apply read_members.
Qed.
End Cache.

(* --- C50 --- *)
Lemma number_other l : forall i d x, ~ In x l -> number i l d x = d x.
Proof.
  induction l as [|e l IH]; intros i d x H; [reflexivity|]. cbn. rewrite IH; [|intros I; apply H; right; exact I].
  destruct (Nat.eqb_spec x e) as [->|E]; [exfalso; apply H; left; reflexivity|reflexivity].
Qed.
Lemma number_spec l : forall i d, NoDup l -> map (number i l d) l = map Some (seq i (length l)).
Proof.
  induction l as [|e l IH]; intros i d N; [reflexivity|]. inversion N as [|? ? Ne Nl]; subst. cbn. f_equal.
  - rewrite number_other; [|exact Ne]. rewrite Nat.eqb_refl. reflexivity.
  - apply IH. exact Nl.
Qed.
Lemma build_indices_spec sorted : (forall l, Permutation (sorted l) l) -> forall members d, NoDup members ->
  map (build_indices sorted members d) (sorted members) = map Some (seq 0 (length members))
  /\ (forall x, ~ In x members -> build_indices sorted members d x = d x).
Proof.
  intros P members d N. unfold build_indices. split.
  - rewrite number_spec; [rewrite (Permutation_length (P members)); reflexivity|]. apply (Permutation_NoDup (Permutation_sym (P members))). exact N.
  - intros x H. apply number_other. intros I. apply H. apply (Permutation_in _ (P members)). exact I.
Qed.
Lemma build_indexed sorted : (forall l, Permutation (sorted l) l) -> forall members d, NoDup members -> indexed members (build_indices sorted members d).
Proof.
  intros P members d N. exists (sorted members). split; [apply P|]. rewrite (Permutation_length (P members)). apply (build_indices_spec sorted P members d N).
Qed.

(* --- C60 --- *)
Lemma subset_iff a b : subset a b = true <-> forall x, In x a -> In x b.
Proof. unfold subset, inb. rewrite forallb_forall. split; intros H x I; [apply memb_iff|]; specialize (H x I); [exact H|]. apply memb_iff. exact H. Qed.
Lemma chem_sys_In elems members x : In x (chem_sys elems members) <-> exists e, In e members /\ In x (elems e).
Proof. unfold chem_sys. rewrite set_update_In, in_flat_map. cbn. tauto. Qed.
Lemma get_subset_spec elems members els :
  (forall l, get_subset elems members els = Ok l -> (forall e, In e l <-> In e members /\ forall x, In x (elems e) -> In x els) /\ (NoDup members -> NoDup l))
  /\ (get_subset elems members els = Err ValueError <-> exists x, In x els /\ forall e, In e members -> ~ In x (elems e))
  /\ (forall x, get_subset elems members els = Err x -> x = ValueError).
Proof.
  unfold get_subset. destruct (subset els (chem_sys elems members)) eqn:S.
  - assert (S' := proj1 (subset_iff _ _) S). split; [|split].
    + intros l [= <-]. split; [|apply NoDup_filter]. intros e. rewrite filter_In, subset_iff. reflexivity.
    + split; [discriminate|]. intros (x & I & H). specialize (S' x I). apply chem_sys_In in S' as (e & Ie & Ix). exfalso. exact (H e Ie Ix).
    + discriminate.
  - split; [discriminate|]. split; [|intros x [= <-]; reflexivity]. split; [|reflexivity]. intros _.
    destruct (forallb (fun x => inb x (chem_sys elems members)) els) eqn:F; [unfold subset in S; congruence|].
    assert (X : existsb (fun x => negb (inb x (chem_sys elems members))) els = true).
    { clear -F. induction els as [|y l IH]; [discriminate|]. cbn in *. destruct (inb y (chem_sys elems members)); cbn in *; [apply IH; exact F|reflexivity]. }
    apply existsb_exists in X as (x & I & H). exists x. split; [exact I|]. intros e Ie Ix. apply negb_true_iff in H.
    assert (J : inb x (chem_sys elems members) = true) by (apply memb_iff, chem_sys_In; exists e; split; assumption). congruence.
Qed.

(* --- C52 --- *)
Section Min.
Variable formula : nat -> nat.
Variable epa : nat -> Q.

Lemma sorted_head (l : list nat) m r : sort_by (map (fun x => (epa x, x)) l) = m :: r ->
  In (snd m) l /\ fst m = epa (snd m) /\ forall e, In e l -> (epa (snd m) <= epa e)%Q.
Proof.
  intros H. assert (P := sort_by_perm (map (fun x => (epa x, x)) l)). assert (S := sort_by_sorted (map (fun x => (epa x, x)) l)). rewrite H in P, S.
  assert (I : In m (map (fun x => (epa x, x)) l)) by (apply (Permutation_in _ P); left; reflexivity).
  apply in_map_iff in I as (x & <- & Ix). cbn [fst snd]. split; [exact Ix|]. split; [reflexivity|]. intros e Ie.
  assert (J : In (epa e, e) ((epa x, x) :: r)).
  { apply (Permutation_in _ (Permutation_sym P)), in_map_iff; exists e; split; [reflexivity|exact Ie]. }
  destruct J as [J|J]; [inversion J; apply Qle_refl|].
  inversion S as [|? ? S1 S2]; subst. rewrite Forall_forall in S2. exact (S2 _ J).
Qed.

Definition min_step (members : list nat) (d : list (nat * nat)) (e : nat) : list (nat * nat) :=
  if memb Nat.eqb (formula e) (map fst d) then d
  else match sort_by (map (fun x => (epa x, x)) (filter (fun x => Nat.eqb (formula x) (formula e)) members)) with
       | [] => d
       | m :: _ => d ++ [(formula e, snd m)]
       end.

Lemma min_loop members : forall todo d, incl todo members ->
  (forall f m, In (f, m) d -> In m members /\ formula m = f /\ forall e, In e members -> formula e = f -> (epa m <= epa e)%Q) -> NoDup (map fst d) ->
  let d' := fold_left (min_step members) todo d in
  (forall f m, In (f, m) d' -> In m members /\ formula m = f /\ forall e, In e members -> formula e = f -> (epa m <= epa e)%Q)
  /\ NoDup (map fst d') /\ (forall f, In f (map fst d') <-> In f (map fst d) \/ In f (map formula todo)).
Proof.
  induction todo as [|e l IH]; intros d I H N; cbn [fold_left].
  - split; [exact H|]. split; [exact N|]. intros f. cbn. tauto.
  - assert (Ie : In e members) by (apply I; left; reflexivity). assert (Il : incl l members) by (intros x Hx; apply I; right; exact Hx).
    unfold min_step at 2. destruct (memb Nat.eqb (formula e) (map fst d)) eqn:M.
    + apply memb_iff in M. destruct (IH d Il H N) as (A & B & D). cbv zeta in *.
      assert (E1 : min_step members d e = d) by (unfold min_step; rewrite (proj2 (memb_iff _ _) M); reflexivity). rewrite ?E1.
      split; [exact A|]. split; [exact B|]. intros f. rewrite D. cbn. split; [tauto|]. intros [H1|[<-|H1]]; tauto.
    + assert (M' : ~ In (formula e) (map fst d)) by (rewrite <- memb_iff; congruence).
      destruct (sort_by (map (fun x => (epa x, x)) (filter (fun x => Nat.eqb (formula x) (formula e)) members))) as [|m r] eqn:S.
      { exfalso. assert (P := sort_by_perm (map (fun x => (epa x, x)) (filter (fun x => Nat.eqb (formula x) (formula e)) members))). rewrite S in P.
        assert (J : In e (filter (fun x => Nat.eqb (formula x) (formula e)) members)) by (apply filter_In; split; [exact Ie|apply Nat.eqb_refl]).
        assert (L := Permutation_length P). rewrite map_length in L. destruct (filter _ members); [destruct J|discriminate]. }
      assert (E1 : min_step members d e = d ++ [(formula e, snd m)]) by (unfold min_step; rewrite M, S; reflexivity). rewrite ?E1.
      destruct (sorted_head _ _ _ S) as (S1 & _ & S2). apply filter_In in S1 as [S1 S1f]. apply Nat.eqb_eq in S1f.
      destruct (IH (d ++ [(formula e, snd m)]) Il) as (A & B & D).
      * intros f m0 J. apply in_app_iff in J as [J|[J|[]]]; [apply H; exact J|]. inversion J; subst. split; [exact S1|]. split; [exact S1f|].
        intros x Ix Fx. apply S2. apply filter_In. split; [exact Ix|]. apply Nat.eqb_eq. exact Fx.
      * rewrite map_app. cbn. apply (Permutation_NoDup (Permutation_cons_append _ _)). constructor; assumption.
      * cbv zeta in *. split; [exact A|]. split; [exact B|]. intros f. rewrite D, map_app, in_app_iff. cbn. tauto.
Qed.

Lemma min_entry_spec members f :
  (forall m, get_min_entry formula epa members f = Ok m -> formula m = f /\ ground_state formula epa (fun e => In e members) m)
  /\ (get_min_entry formula epa members f = Err KeyError <-> forall e, In e members -> formula e <> f)
  /\ (forall x, get_min_entry formula epa members f = Err x -> x = KeyError).
Proof.
  destruct (min_loop members members [] (incl_refl _)) as (A & B & D); [intros ? ? []|constructor|]. cbv zeta in *.
  unfold get_min_entry. change (min_entries formula epa members) with (fold_left (min_step members) members []).
  destruct (dict_get f (fold_left (min_step members) members [])) as [m|] eqn:G.
  - apply dict_get_In in G. destruct (A f m G) as (A1 & A2 & A3). split; [|split; [|discriminate]].
    + intros m' [= <-]. split; [exact A2|]. split; [exact A1|]. intros e Ie Fe. apply A3; [exact Ie|congruence].
    + split; [discriminate|]. intros H. exfalso. exact (H m A1 A2).
  - split; [discriminate|]. split; [|intros x [= <-]; reflexivity]. split; [|reflexivity]. intros _ e Ie Fe.
    assert (K : In f (map fst (fold_left (min_step members) members []))) by (apply D; right; apply in_map_iff; exists e; split; assumption).
    apply dict_get_key in K as (v & Ev). congruence.
Qed.
End Min.

(* What each operation does to the entries of a set with any history. *)
Lemma members_after_history {view value : Type} (view_eqb : view -> view -> bool) (compute : view -> list nat -> result value) (arrange : list nat -> list nat) :
  (forall a b, view_eqb a b = true <-> a = b) -> (forall l, Permutation l (arrange l)) -> forall es ops o,
  let s := run view view_eqb value compute arrange (es_init view value arrange es) ops in
  let s' := step view view_eqb value compute arrange s o in
  match o with
  | OAdd _ e => forall x, In x (es_members s') <-> x = e \/ In x (es_members s)
  | OUpdate _ new => forall x, In x (es_members s') <-> In x new \/ In x (es_members s)
  | ODiscard _ e => forall x, In x (es_members s') <-> In x (es_members s) /\ x <> e
  | ORemove _ e => (forall x, In x (es_members s') <-> In x (es_members s) /\ x <> e)
                 /\ (snd (remove view value arrange e s) = Err KeyError <-> ~ In e (es_members s))
  | OPop _ => (es_members s = [] /\ snd (pop view value arrange s) = Err KeyError)
           \/ exists p, snd (pop view value arrange s) = Ok p /\ In p (es_members s)
                       /\ forall x, In x (es_members s') <-> In x (es_members s) /\ x <> p
  | OClear _ => es_members s' = []
  | OIor _ new => forall x, In x (es_members s') <-> In x (es_members s) \/ In x new
  | OIsub _ old => forall x, In x (es_members s') <-> In x (es_members s) /\ ~ In x old
  | OIand _ both => forall x, In x (es_members s') <-> In x (es_members s) /\ In x both
  | ORead _ _ => es_members s' = es_members s
  end.
Proof. intros V P es ops o s s'. apply (members_after view_eqb compute arrange P s o). apply run_good; assumption. Qed.
Lemma init_members {view value : Type} (arrange : list nat -> list nat) : (forall l, Permutation l (arrange l)) -> forall es x,
  In x (es_members (es_init view value arrange es)) <-> In x es.
Proof. intros P es x. cbn. rewrite (arrange_In arrange P), set_update_In. cbn. tauto. Qed.
