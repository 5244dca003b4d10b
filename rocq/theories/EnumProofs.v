(* Proofs about the enumerators: C30-C32. *)
From Verif Require Import Prelude ListFacts UtilsModel UtilsSpec UtilsProofs EnumModel EnumSpec.
Open Scope nat_scope.

(* --- chunks --- *)
Section Chunks.
Context {T R : Type}.
Notation job := (list (list R * T)).

Lemma contents_app (a b : job) : contents (a ++ b) = contents a ++ contents b.
Proof. unfold contents. apply flat_map_app. Qed.

Lemma chunk_length_contents (cur : job) : chunk_length cur = length (contents cur).
Proof.
  induction cur as [|[l t] cur IH]; [reflexivity|]. simpl. rewrite app_length, map_length. unfold chunk_length in *. simpl. rewrite IH. reflexivity.
Qed.

Lemma append_last_ok (r : R) (cur : job) l t : append_last r (cur ++ [(l, t)]) = Ok (cur ++ [(l ++ [r], t)]).
Proof.
  induction cur as [|x cur IH]; [reflexivity|]. simpl. destruct (cur ++ [(l, t)]) as [|y ys] eqn:E.
  - destruct cur; discriminate.
  - rewrite IH. destruct x. reflexivity.
Qed.

(* Every job is full, except possibly the last. *)
Definition full (size : nat) (j : job) : Prop := length (contents j) = size.

Lemma fill_spec size t rs : 1 <= size -> forall runs (cur : job) l len, len = length (contents (cur ++ [(l, t)])) -> len <= size ->
  Forall (full size) runs ->
  exists runs' cur' l' len', fill_chunks size t rs runs (cur ++ [(l, t)]) len = Ok (runs', cur' ++ [(l', t)], len')
  /\ len' = length (contents (cur' ++ [(l', t)])) /\ len' <= size /\ Forall (full size) runs'
  /\ concat (map contents (runs' ++ [cur' ++ [(l', t)]])) = concat (map contents (runs ++ [cur ++ [(l, t)]])) ++ map (pair t) rs
  /\ (rs <> [] -> 1 <= len').
Proof.
  intros Hs. induction rs as [|r rs IH]; intros runs cur l len Hl Hle Hf.
  - exists runs, cur, l, len. simpl. rewrite app_nil_r. split; [reflexivity|]. split; [exact Hl|]. split; [exact Hle|]. split; [exact Hf|].
    split; [reflexivity|]. intros H; contradiction.
  - simpl. destruct (Nat.eqb_spec len size) as [E|E].
    + destruct (IH (runs ++ [cur ++ [(l, t)]]) [] [r] 1) as (runs' & cur' & l' & len' & E1 & E2 & E3 & E4 & E5 & E6).
      * reflexivity.
      * exact Hs.
      * apply Forall_app. split; [exact Hf|]. constructor; [|constructor]. unfold full. lia.
      * simpl in E1. exists runs', cur', l', len'. split; [exact E1|]. split; [exact E2|]. split; [exact E3|]. split; [exact E4|]. split.
        { rewrite E5. rewrite (map_app contents (runs ++ [cur ++ [(l, t)]])), concat_app. change (concat (map contents [[] ++ [([r], t)]])) with [(t, r)]. rewrite <- app_assoc. reflexivity. }
        intros _. destruct rs as [|r' rs']; [|apply E6; discriminate]. simpl in E1. injection E1 as _ _ <-. lia.
    + rewrite append_last_ok. cbn [bind].
      assert (Hc : contents (cur ++ [(l ++ [r], t)]) = contents (cur ++ [(l, t)]) ++ [(t, r)]).
      { rewrite !contents_app. unfold contents at 2 4. simpl. rewrite !app_nil_r, map_app, app_assoc. reflexivity. }
      destruct (IH runs cur (l ++ [r]) (S len)) as (runs' & cur' & l' & len' & E1 & E2 & E3 & E4 & E5 & E6).
      * rewrite Hc, app_length. simpl. lia.
      * lia.
      * exact Hf.
      * exists runs', cur', l', len'. split; [exact E1|]. split; [exact E2|]. split; [exact E3|]. split; [exact E4|]. split.
        { rewrite E5. rewrite !map_app, !concat_app. simpl. rewrite !app_nil_r, Hc, <- !app_assoc. reflexivity. }
        intros _. destruct rs as [|r' rs']; [|apply E6; discriminate]. simpl in E1. injection E1 as _ _ <-. lia.
Qed.

Lemma chunk_loop_spec size items : 1 <= size -> forall runs (cur : job), length (contents cur) < size -> Forall (full size) runs ->
  exists jobs, chunk_loop size items runs cur = Ok jobs
  /\ concat (map contents jobs) = concat (map contents (runs ++ [cur])) ++ tagged items
  /\ Forall (full size) (removelast jobs) /\ Forall (fun j => length (contents j) <= size) jobs
  /\ (Forall (fun i => snd i <> []) items -> (cur <> [] -> contents cur <> []) -> Forall (fun j => contents j <> []) jobs).
Proof.
  intros Hs. induction items as [|[t rs] items IH]; intros runs cur Hc Hf.
  - simpl. rewrite app_nil_r. assert (Hle : Forall (fun j => length (contents j) <= size) runs).
    { eapply Forall_impl; [|exact Hf]. intros j Hj. unfold full in Hj. lia. }
    assert (Hnn : Forall (fun j : job => contents j <> []) runs).
    { eapply Forall_impl; [|exact Hf]. intros j Hj H. unfold full in Hj. rewrite H in Hj. simpl in Hj. lia. }
    destruct cur as [|c cur'] eqn:E.
    + exists runs. split; [reflexivity|]. split; [rewrite map_app, concat_app; simpl; rewrite app_nil_r; reflexivity|].
      split; [|split; [exact Hle|intros _ _; exact Hnn]]. clear -Hf. induction Hf as [|j js Hj Hf IH]; [constructor|]. simpl. destruct js; [constructor|]. constructor; assumption.
    + exists (runs ++ [c :: cur']). split; [reflexivity|]. split; [reflexivity|]. split; [rewrite removelast_last; exact Hf|]. split.
      * apply Forall_app. split; [exact Hle|]. constructor; [lia|constructor].
      * intros _ H. apply Forall_app. split; [exact Hnn|]. constructor; [apply H; discriminate|constructor].
  - simpl.
    assert (L : chunk_length cur = length (contents (cur ++ [([], t)]))).
    { rewrite contents_app, app_length, chunk_length_contents. simpl. lia. }
    destruct (fill_spec size t rs Hs runs cur [] (chunk_length cur) L) as (runs' & cur' & l' & len' & E1 & E2 & E3 & E4 & E5 & E6).
    { rewrite chunk_length_contents. lia. }
    { exact Hf. }
    rewrite E1. cbn [bind].
    assert (Ecat : concat (map contents (runs ++ [cur ++ [([], t)]])) = concat (map contents (runs ++ [cur]))).
    { rewrite !map_app, !concat_app. simpl. rewrite contents_app. simpl. rewrite !app_nil_r. reflexivity. }
    rewrite Ecat in E5. destruct (Nat.eqb_spec len' size) as [E|E].
    + destruct (IH (runs' ++ [cur' ++ [(l', t)]]) []) as (jobs & J1 & J2 & J3 & J4 & J5).
      * simpl. lia.
      * apply Forall_app. split; [exact E4|]. constructor; [|constructor]. unfold full. lia.
      * exists jobs. split; [exact J1|]. split.
        { rewrite J2. rewrite (map_app contents _ [[]]), concat_app. simpl. rewrite app_nil_r, E5, <- app_assoc. reflexivity. }
        split; [exact J3|]. split; [exact J4|]. intros Hn _. inversion Hn as [|? ? _ Hn']; subst. apply J5; [exact Hn'|]. intros H; contradiction.
    + destruct (IH runs' (cur' ++ [(l', t)])) as (jobs & J1 & J2 & J3 & J4 & J5).
      * lia.
      * exact E4.
      * exists jobs. split; [exact J1|]. split; [rewrite J2, E5, <- app_assoc; reflexivity|]. split; [exact J3|]. split; [exact J4|].
        intros Hn _. inversion Hn as [|? ? Hn1 Hn']; subst. simpl in Hn1. apply J5; [exact Hn'|]. intros _ H. specialize (E6 Hn1).
        rewrite H in E6. simpl in E6. lia.
Qed.

Lemma choose_spec cs mj total : 1 <= cs -> 1 <= mj -> exists size, choose_chunk_size cs mj total = Ok size /\ cs <= size
  /\ total <= mj * size /\ (total = mj * size -> size = cs).
Proof.
  intros H1 H2. unfold choose_chunk_size. replace (Nat.eqb cs 0) with false by (symmetry; apply Nat.eqb_neq; lia).
  replace (Nat.eqb mj 0) with false by (symmetry; apply Nat.eqb_neq; lia).
  destruct (Nat.ltb_spec (mj * cs) total) as [L|L].
  - pose proof (Nat.div_mod total mj ltac:(lia)) as D. pose proof (Nat.mod_upper_bound total mj ltac:(lia)) as M.
    exists (total / mj + 1). split; [reflexivity|]. split; [|split].
    + assert (cs <= total / mj) by (apply Nat.div_le_lower_bound; lia). lia.
    + rewrite Nat.mul_add_distr_l. lia.
    + rewrite Nat.mul_add_distr_l. lia.
  - exists cs. split; [reflexivity|]. split; [lia|]. split; [lia|]. intros _. reflexivity.
Qed.

Lemma full_length size (jobs : list job) : Forall (full size) (removelast jobs) ->
  jobs <> [] -> length (concat (map contents jobs)) = (length jobs - 1) * size + length (contents (last jobs [])).
Proof.
  intros Hf Hne. rewrite (app_removelast_last [] Hne) at 1 2. rewrite map_app, concat_app, !app_length. simpl. rewrite app_nil_r.
  replace (length (removelast jobs) + 1 - 1) with (length (removelast jobs)) by lia. f_equal.
  induction Hf as [|j js Hj Hf IH]; [reflexivity|]. simpl. rewrite app_length, IH. unfold full in Hj. lia.
Qed.

Theorem jobs_spec cs mj (items : list (T * list R)) : 1 <= cs -> 1 <= mj ->
  exists jobs size, build_jobs cs mj (length (tagged items)) items = Ok jobs
  /\ concat (map contents jobs) = tagged items /\ cs <= size
  /\ Forall (fun j => length (contents j) = size) (removelast jobs) /\ Forall (fun j => length (contents j) <= size) jobs
  /\ length jobs <= mj + 1
  /\ (length (tagged items) <> mj * cs \/ Forall (fun i => snd i <> []) items -> length jobs <= mj).
Proof.
  intros H1 H2. unfold build_jobs. destruct (choose_spec cs mj (length (tagged items)) H1 H2) as (size & E & Hc & Ht & Hq).
  rewrite E. cbn [bind]. destruct (chunk_loop_spec size items ltac:(lia) [] []) as (jobs & J1 & J2 & J3 & J4 & J5); [simpl; lia|constructor|].
  exists jobs, size. simpl in J2. split; [exact J1|]. split; [exact J2|]. split; [exact Hc|]. split; [exact J3|]. split; [exact J4|].
  destruct (list_eq_dec Nat.eq_dec (map (fun j => length j) jobs) []) as [E0|Hne0].
  { destruct jobs; [|discriminate]. simpl. split; intros; lia. }
  assert (Hne : jobs <> []) by (intros ->; apply Hne0; reflexivity).
  pose proof (full_length size jobs J3 Hne) as L. rewrite J2 in L.
  assert (Hlen : length jobs <> 0) by (destruct jobs; [contradiction|discriminate]).
  assert (B : length jobs - 1 <= mj).
  { destruct (Nat.le_gt_cases (length jobs - 1) mj) as [|G]; [assumption|exfalso]. assert ((mj + 1) * size <= (length jobs - 1) * size) by (apply Nat.mul_le_mono_r; lia).
    rewrite Nat.mul_add_distr_r in H. lia. }
  split; [lia|]. intros Hor.
  assert (G : length jobs - 1 <> mj -> length jobs <= mj) by lia. apply G. intros Eq. rewrite Eq in L.
  assert (length (contents (last jobs [])) = 0) as Hz by lia. destruct Hor as [Hd|Hn].
  - apply Hd. rewrite <- Hq; lia.
  - assert (Hlast : contents (last jobs []) <> []).
    { specialize (J5 Hn ltac:(intros H; contradiction)). rewrite Forall_forall in J5. apply J5.
      rewrite (app_removelast_last [] Hne) at 2. apply in_app_iff. right. left. reflexivity. }
    destruct (contents (last jobs [])); [contradiction|discriminate].
Qed.
End Chunks.

(* --- grouping by chemical system --- *)
Lemma insert_el_in x y l : In x (insert_el y l) <-> x = y \/ In x l.
Proof.
  induction l as [|z l IH]; simpl; [intuition|]. destruct (Nat.leb y z); simpl; [intuition|]. rewrite IH. intuition.
Qed.
Lemma insert_el_sorted x l : StronglySorted lt l -> ~ In x l -> StronglySorted lt (insert_el x l).
Proof.
  induction l as [|y l IH]; intros Hs Hn; simpl; [repeat constructor|]. inversion Hs as [|? ? Hs' Hf]; subst.
  destruct (Nat.leb_spec x y) as [L|L].
  - constructor; [exact Hs|]. assert (x < y) by (simpl in Hn; lia). constructor; [assumption|]. eapply Forall_impl; [|exact Hf]. intros z Hz. lia.
  - constructor; [apply IH; [exact Hs'|intros H; apply Hn; right; exact H]|]. apply Forall_forall. intros z Hz. apply insert_el_in in Hz as [->|Hz]; [exact L|].
    rewrite Forall_forall in Hf. apply Hf. exact Hz.
Qed.
Lemma sorted_set_spec l : StronglySorted lt (sorted_set l) /\ forall x, In x (sorted_set l) <-> In x l.
Proof.
  unfold sorted_set. assert (H : forall m, NoDup m -> StronglySorted lt (fold_right insert_el [] m) /\ forall x, In x (fold_right insert_el [] m) <-> In x m).
  { induction 1 as [|y m Hy Hm [I1 I2]]; simpl; [split; [constructor|tauto]|]. split.
    - apply insert_el_sorted; [exact I1|]. rewrite I2. exact Hy.
    - intros x. rewrite insert_el_in, I2. intuition. }
  destruct (H (nodup Nat.eq_dec l) (NoDup_nodup _ l)) as [A B]. split; [exact A|]. intros x. rewrite B. apply nodup_In.
Qed.

Lemma sorted_unique l : StronglySorted lt l -> forall m, StronglySorted lt m -> (forall x, In x l <-> In x m) -> l = m.
Proof.
  induction 1 as [|x l Hl IH Hx]; intros m Hm H.
  - destruct m as [|y m]; [reflexivity|]. exfalso. destruct (proj2 (H y)); left; reflexivity.
  - destruct m as [|y m]; [exfalso; destruct (proj1 (H x)); left; reflexivity|]. inversion Hm as [|? ? Hm' Hy]; subst.
    rewrite Forall_forall in Hx, Hy.
    assert (x = y) as ->.
    { destruct (proj1 (H x) (or_introl eq_refl)) as [E|E]; [congruence|]. destruct (proj2 (H y) (or_introl eq_refl)) as [E'|E']; [congruence|].
      specialize (Hy x E). specialize (Hx y E'). lia. }
    f_equal. apply IH; [exact Hm'|]. intros z. split; intros Hz.
    + destruct (proj1 (H z) (or_intror Hz)) as [->|]; [|assumption]. specialize (Hx z Hz). lia.
    + destruct (proj2 (H z) (or_intror Hz)) as [->|]; [|assumption]. specialize (Hy z Hz). lia.
Qed.

Lemma list_eqb_iff a b : list_eqb a b = true <-> a = b.
Proof. unfold list_eqb. destruct (list_eq_dec Nat.eq_dec a b); split; congruence. Qed.

Section Group.
Variable elems : nat -> list nat.
Variable oe : list nat.
Notation key c := (total_chemsys elems c oe).

Lemma key_chemsys c : chemsys_of elems oe c (key c).
Proof.
  unfold total_chemsys. destruct (sorted_set_spec (flat_map elems c ++ oe)) as [A B]. split; [exact A|].
  intros x. rewrite B, in_app_iff, in_flat_map. reflexivity.
Qed.
Lemma chemsys_key c k : chemsys_of elems oe c k -> k = key c.
Proof.
  intros [A B]. destruct (key_chemsys c) as [A' B']. apply sorted_unique; [exact A|exact A'|]. intros x. rewrite B, B'. reflexivity.
Qed.

Lemma add_combo_keys {V} k (v : V) d : map fst (add_combo k v d) = if existsb (list_eqb k) (map fst d) then map fst d else map fst d ++ [k].
Proof.
  induction d as [|[k' l] d IH]; [reflexivity|]. simpl. destruct (list_eqb k k') eqn:E; [reflexivity|]. simpl. rewrite IH.
  destruct (existsb (list_eqb k) (map fst d)); reflexivity.
Qed.
Lemma add_combo_in {V} k (v : V) d : NoDup (map fst d) -> forall k' cs, In (k', cs) (add_combo k v d) <->
  (k' <> k /\ In (k', cs) d) \/ (k' = k /\ ((exists l, In (k, l) d /\ cs = l ++ [v]) \/ (~ In k (map fst d) /\ cs = [v]))).
Proof.
  induction d as [|[k0 l0] d IH]; intros Hn k' cs; simpl.
  - split.
    + intros [H|[]]. injection H as <- <-. right. split; [reflexivity|]. right. split; [intros []|reflexivity].
    + intros [[_ []]|[-> [(l & [] & _)|[_ ->]]]]. left. reflexivity.
  - simpl in Hn. inversion Hn as [|? ? Hk Hn']; subst. destruct (list_eqb k k0) eqn:E.
    + apply list_eqb_iff in E as <-. simpl. split.
      * intros [H|H]; [injection H as <- <-; right; split; [reflexivity|]; left; exists l0; split; [left; reflexivity|reflexivity]|].
        left. split; [|right; exact H]. intros ->. apply Hk. apply in_map_iff. exists (k, cs). split; [reflexivity|exact H].
      * intros [[Hne [H|H]]|[-> [(l & [H|H] & ->)|[H _]]]].
        -- congruence.
        -- right. exact H.
        -- injection H as <-. left. reflexivity.
        -- exfalso. apply Hk. apply in_map_iff. exists (k, l). split; [reflexivity|exact H].
        -- exfalso. apply H. left. reflexivity.
    + assert (Hne : k <> k0) by (intros ->; rewrite (proj2 (list_eqb_iff k0 k0) eq_refl) in E; discriminate).
      simpl. rewrite (IH Hn'). split.
      * intros [H|[[H1 H2]|[-> [(l & H1 & H2)|[H1 H2]]]]].
        -- injection H as <- <-. left. split; [congruence|left; reflexivity].
        -- left. split; [exact H1|right; exact H2].
        -- right. split; [reflexivity|]. left. exists l. split; [right; exact H1|exact H2].
        -- right. split; [reflexivity|]. right. split; [|exact H2]. intros [H|H]; [congruence|contradiction].
      * intros [[H1 [H2|H2]]|[-> [(l & [H1|H1] & H2)|[H1 H2]]]].
        -- left. exact H2.
        -- right. left. split; assumption.
        -- congruence.
        -- right. right. split; [reflexivity|]. left. exists l. split; assumption.
        -- right. right. split; [reflexivity|]. right. split; [intros H; apply H1; right; exact H|exact H2].
Qed.

Lemma group_spec combos :
  let d := group_by_chemsys elems combos oe in
  NoDup (map fst d)
  /\ (forall k cs, In (k, cs) d -> cs <> [] /\ cs = filter (fun c => list_eqb k (key c)) combos)
  /\ (forall c, In c combos -> In (key c) (map fst d)).
Proof.
  unfold group_by_chemsys.
  assert (H : forall combos done d, NoDup (map fst d) ->
     (forall k cs, In (k, cs) d -> cs <> [] /\ cs = filter (fun c => list_eqb k (key c)) done) ->
     (forall c, In c done -> In (key c) (map fst d)) ->
     let d' := fold_left (fun d c => add_combo (key c) c d) combos d in
     NoDup (map fst d') /\ (forall k cs, In (k, cs) d' -> cs <> [] /\ cs = filter (fun c => list_eqb k (key c)) (done ++ combos))
     /\ (forall c, In c (done ++ combos) -> In (key c) (map fst d'))).
  { clear combos. induction combos as [|c combos IH]; intros done d H1 H2 H3; simpl.
    - rewrite app_nil_r. split; [exact H1|]. split; assumption.
    - replace (done ++ c :: combos) with ((done ++ [c]) ++ combos) by (rewrite <- app_assoc; reflexivity). apply IH.
      + rewrite add_combo_keys. destruct (existsb (list_eqb (key c)) (map fst d)) eqn:E; [exact H1|].
        apply NoDup_app_intro; [exact H1|repeat constructor; intros []|]. intros k Hk [<-|[]].
        apply not_true_iff_false in E. apply E. apply existsb_exists. exists (key c). split; [exact Hk|]. apply list_eqb_iff. reflexivity.
      + intros k cs Hin. apply (add_combo_in _ _ _ H1) in Hin. rewrite filter_app. simpl.
        destruct Hin as [[Hne Hin]|[-> [(l & Hin & ->)|[Hnin ->]]]].
        * replace (list_eqb k (key c)) with false; [rewrite app_nil_r; apply H2; exact Hin|]. symmetry. apply not_true_iff_false.
          rewrite list_eqb_iff. exact Hne.
        * rewrite (proj2 (list_eqb_iff _ _) eq_refl). destruct (H2 _ _ Hin) as [_ ->]. split; [|reflexivity]. intros H. apply app_eq_nil in H as [_ H]. discriminate.
        * rewrite (proj2 (list_eqb_iff _ _) eq_refl). split; [discriminate|].
          replace (filter (fun x => list_eqb (key c) (key x)) done) with (@nil (list nat)); [reflexivity|]. symmetry.
          destruct (filter (fun x => list_eqb (key c) (key x)) done) as [|y ys] eqn:E; [reflexivity|exfalso].
          assert (Hy : In y (filter (fun x => list_eqb (key c) (key x)) done)) by (rewrite E; left; reflexivity).
          apply filter_In in Hy as [Hy1 Hy2]. apply list_eqb_iff in Hy2. apply Hnin. rewrite Hy2. apply H3. exact Hy1.
      + intros x Hx. rewrite add_combo_keys. apply in_app_iff in Hx as [Hx|[<-|[]]].
        * destruct (existsb _ (map fst d)); [apply H3; exact Hx|]. apply in_app_iff. left. apply H3. exact Hx.
        * destruct (existsb (list_eqb (key c)) (map fst d)) eqn:E.
          -- apply existsb_exists in E as (k & Hk & E). apply list_eqb_iff in E as ->. exact Hk.
          -- apply in_app_iff. right. left. reflexivity. }
  apply (H combos [] []); [constructor|intros k cs []|intros c []].
Qed.
End Group.

Lemma picks_filter {A} (P : A -> Prop) (p : A -> bool) l : (forall x, In x l -> (p x = true <-> P x)) -> picks P l (filter p l).
Proof.
  induction l as [|x l IH]; intros H; [constructor|]. simpl. destruct (p x) eqn:E.
  - constructor; [apply H; [left; reflexivity|exact E]|]. apply IH. intros y Hy. apply H. right. exact Hy.
  - constructor; [intros HP; apply (H x) in HP; [congruence|left; reflexivity]|]. apply IH. intros y Hy. apply H. right. exact Hy.
Qed.

Lemma partition_groups (p : list nat -> list nat) ks (combos : list (list nat)) : NoDup ks -> (forall c, In c combos -> In (p c) ks) ->
  Permutation (flat_map (fun k => filter (fun c => list_eqb k (p c)) combos) ks) combos.
Proof.
  revert combos. induction ks as [|k ks IH]; intros combos Hn H.
  - destruct combos as [|c cs]; [constructor|destruct (H c (or_introl eq_refl))].
  - inversion Hn as [|? ? Hk Hn']; subst. simpl.
    set (rest := filter (fun c => negb (list_eqb k (p c))) combos).
    assert (E : flat_map (fun k => filter (fun c => list_eqb k (p c)) combos) ks = flat_map (fun k => filter (fun c => list_eqb k (p c)) rest) ks).
    { apply flat_map_ext_in. intros k' Hk'. unfold rest. clear -Hk Hk'. induction combos as [|c cs IH]; [reflexivity|]. simpl.
      destruct (list_eqb k (p c)) eqn:E1; simpl.
      - destruct (list_eqb k' (p c)) eqn:E2; [|exact IH]. apply list_eqb_iff in E1, E2. congruence.
      - destruct (list_eqb k' (p c)); [f_equal|]; exact IH. }
    rewrite E. eapply perm_trans; [apply Permutation_app_head, IH|].
    + exact Hn'.
    + intros c Hc. unfold rest in Hc. apply filter_In in Hc as [Hc1 Hc2]. destruct (H c Hc1) as [->|]; [|assumption].
      rewrite (proj2 (list_eqb_iff _ _) eq_refl) in Hc2. discriminate.
    + unfold rest. clear. induction combos as [|c cs IH]; simpl; [constructor|]. destruct (list_eqb k (p c)); simpl; [apply perm_skip; exact IH|].
      apply Permutation_sym, Permutation_cons_app, Permutation_sym. exact IH.
Qed.

Theorem group_by_chemsys_spec elems oe combos :
  let d := group_by_chemsys elems combos oe in
  NoDup (map fst d) /\ Permutation (flat_map snd d) combos
  /\ (forall k cs, In (k, cs) d -> cs <> [] /\ picks (fun c => chemsys_of elems oe c k) combos cs)
  /\ (forall c, In c combos -> exists k cs, In (k, cs) d /\ In c cs /\ chemsys_of elems oe c k).
Proof.
  intros d. destruct (group_spec elems oe combos) as (H1 & H2 & H3). fold d in H1, H2, H3. split; [exact H1|]. split; [|split].
  - eapply perm_trans; [|apply (partition_groups (fun c => total_chemsys elems c oe) (map fst d) combos H1 H3)].
    rewrite flat_map_concat_map, (flat_map_concat_map _ (map fst d)), map_map.
    assert (map snd d = map (fun x => filter (fun c => list_eqb (fst x) (total_chemsys elems c oe)) combos) d) as ->; [|apply Permutation_refl].
    apply map_ext_in. intros [k cs] Hin. apply (H2 k cs Hin).
  - intros k cs Hin. destruct (H2 k cs Hin) as [Hne E]. split; [exact Hne|]. rewrite E. apply picks_filter. intros c _. rewrite list_eqb_iff.
    split; [intros ->; apply key_chemsys|apply chemsys_key].
  - intros c Hc. pose proof (H3 c Hc) as Hk. apply in_map_iff in Hk as ([k cs] & E & Hin). simpl in E. exists k, cs. split; [exact Hin|].
    destruct (H2 k cs Hin) as [_ Ec]. split; [rewrite Ec; apply filter_In; split; [exact Hc|apply list_eqb_iff; exact E]|]. rewrite E. apply key_chemsys.
Qed.
