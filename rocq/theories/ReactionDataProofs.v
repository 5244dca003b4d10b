(* C63: which operations share the data dictionary. *)
From Verif Require Import Prelude NumQ ListFacts ReactionModel ReactionBaseProofs ReactionDataModel.
Open Scope nat_scope.

Lemma deref_alloc_old h d ref : ref < length h -> deref (h ++ [d]) ref = deref h ref.
Proof. intros H. unfold deref. apply app_nth1. assumption. Qed.
Lemma deref_alloc_new h d : deref (h ++ [d]) (length h) = d.
Proof. unfold deref. rewrite app_nth2, Nat.sub_diag by lia. reflexivity. Qed.
Lemma store_length h : forall ref k v, length (store h ref k v) = length h.
Proof. induction h as [|d h IH]; intros [|ref] k v; simpl; auto. Qed.
Lemma deref_store_other h : forall ref ref' k v, ref <> ref' -> deref (store h ref' k v) ref = deref h ref.
Proof.
  induction h as [|d h IH]; intros [|ref] [|ref'] k v H; try reflexivity; [lia|].
  apply (IH ref ref'). lia.
Qed.
Lemma deref_store_same h : forall ref k v, ref < length h -> deref (store h ref k v) ref = dict_set k v (deref h ref).
Proof.
  induction h as [|d h IH]; intros [|ref] k v H; simpl in H; try lia; [reflexivity|]. apply IH. lia.
Qed.
Lemma deref_store_all_other l : forall h ref ref', ref <> ref' -> deref (store_all h ref' l) ref = deref h ref.
Proof.
  induction l as [|[k v] l IH]; intros h ref ref' H; [reflexivity|].
  change (store_all h ref' ((k, v) :: l)) with (store_all (store h ref' k v) ref' l).
  rewrite IH by assumption. apply deref_store_other. assumption.
Qed.

Lemma init_none h : init_data h None = (h ++ [[]], length h).
Proof. reflexivity. Qed.
Lemma init_empty h ref : deref h ref = [] -> init_data h (Some ref) = (h ++ [[]], length h).
Proof. intros E. unfold init_data. rewrite E. reflexivity. Qed.
Lemma init_full h ref : deref h ref <> [] -> init_data h (Some ref) = (h, ref).
Proof. intros E. unfold init_data. destruct (deref h ref); [congruence|reflexivity]. Qed.

(* When an operation shares. *)
Theorem shares_iff k o h ref : ref < length h ->
  (snd (run_op k o h ref) = ref <-> passes_data k o = true /\ o <> OpOpen /\ deref h ref <> []).
Proof.
  intros H. assert (G : o <> OpOpen -> (snd (init_data h (if passes_data k o then Some ref else None)) = ref
     <-> passes_data k o = true /\ o <> OpOpen /\ deref h ref <> [])).
  { intros Ho. destruct (passes_data k o).
    - destruct (deref h ref) as [|p d] eqn:E.
      + rewrite init_empty by assumption. cbn [snd]. split; [lia|]. intros (_ & _ & Hn). congruence.
      + rewrite init_full by congruence. cbn [snd]. split; [|reflexivity]. intros _. repeat split; congruence.
    - rewrite init_none. cbn [snd]. split; [lia|]. intros (Hn & _). discriminate. }
  destruct o; try (apply G; discriminate). split; [|intros (_ & Hn & _); congruence].
  unfold run_op. cbn [alloc]. destruct (deref h ref) as [|p d] eqn:E.
  - rewrite init_empty by apply deref_alloc_new. cbn [snd]. rewrite app_length. simpl. lia.
  - rewrite init_full by (rewrite deref_alloc_new; discriminate). cbn [snd]. lia.
Qed.

(* The operation itself never changes an existing dictionary. *)
Theorem op_preserves k o h ref r : r < length h -> deref (fst (run_op k o h ref)) r = deref h r.
Proof.
  intros H. assert (G : forall h' d, length h <= length h' -> (forall r, r < length h -> deref h' r = deref h r) ->
     deref (fst (init_data h' d)) r = deref h r).
  { intros h' [ref'|] Hl Hd; unfold init_data, alloc.
    - destruct (deref h' ref'); cbn [fst]; [|auto]. rewrite deref_alloc_old by lia. auto.
    - cbn [fst]. rewrite deref_alloc_old by lia. auto. }
  destruct o; try (apply G; [lia|reflexivity]).
  unfold run_op. cbn [alloc]. apply G.
  - rewrite app_length. simpl. lia.
  - intros r' H'. apply deref_alloc_old. assumption.
Qed.

Theorem data_isolated k o h ref l : ref < length h ->
  k = KBasic /\ (o = OpNormalize \/ o = OpNormalizeElement) \/ o = OpOpen \/ deref h ref = [] ->
  let '(h', ref') := run_op k o h ref in
  deref (store_all h' ref' l) ref = deref h ref
  /\ (forall l', deref (store_all h' ref l') ref' = deref h' ref').
Proof.
  intros H Hc. pose proof (shares_iff k o h ref H) as S. pose proof (op_preserves k o h ref ref H) as P.
  destruct (run_op k o h ref) as [h' ref']. cbn [fst snd] in *.
  assert (N : ref <> ref').
  { intros E. symmetry in E. apply S in E as (E1 & E2 & E3). destruct Hc as [[-> [-> | ->]]|[Hc|Hc]]; (discriminate || congruence). }
  split.
  - rewrite deref_store_all_other by assumption. assumption.
  - intros l'. apply deref_store_all_other. congruence.
Qed.

(* Sharing means that an update through the result is an update of the original. *)
Theorem data_shared k o h ref key v : ref < length h ->
  passes_data k o = true -> o <> OpOpen -> deref h ref <> [] ->
  let '(h', ref') := run_op k o h ref in
  deref (store h' ref' key v) ref = dict_set key v (deref h ref).
Proof.
  intros H H1 H2 H3. pose proof (proj2 (shares_iff k o h ref H) (conj H1 (conj H2 H3))) as S.
  pose proof (op_preserves k o h ref ref H) as P.
  assert (L : length h <= length (fst (run_op k o h ref))).
  { destruct o; try (unfold run_op, init_data; destruct (if passes_data k _ then _ else _);
      [destruct (deref h n)|]; cbn; rewrite ?app_length; simpl; lia). congruence. }
  destruct (run_op k o h ref) as [h' ref']. cbn [fst snd] in *. subst ref'.
  rewrite deref_store_same by lia. rewrite P. reflexivity.
Qed.

Theorem decorate_spec h ref name v : ref < length h ->
  let '(h', ref') := decorate h ref name v in
  (forall r, r < length h -> deref h' r = deref h r)
  /\ length h <= ref' < length h'
  /\ deref h' ref' = dict_set name v (deref h ref)
  /\ (forall l r, r < length h -> deref (store_all h' ref' l) r = deref h r).
Proof.
  intros H. unfold decorate. cbn [alloc]. rewrite deref_alloc_new.
  destruct (deref h ref) as [|p d] eqn:E.
  - cbn [alloc]. assert (L : length (h ++ [[] : dict]) = S (length h)) by (rewrite app_length; simpl; lia).
    assert (D : forall r, r < length h -> deref (store ((h ++ [[]]) ++ [[]]) (length (h ++ [[] : dict])) name v) r = deref h r).
    { intros r Hr. rewrite deref_store_other by lia. rewrite !deref_alloc_old by lia. reflexivity. }
    split; [exact D|]. split; [rewrite store_length, !app_length; simpl; lia|].
    split.
    + rewrite deref_store_same by (rewrite !app_length; simpl; lia). rewrite deref_alloc_new. reflexivity.
    + intros l r Hr. rewrite deref_store_all_other by lia. apply D. assumption.
  - assert (D : forall r, r < length h -> deref (store (h ++ [p :: d]) (length h) name v) r = deref h r).
    { intros r Hr. rewrite deref_store_other by lia. rewrite deref_alloc_old by lia. reflexivity. }
    split; [exact D|]. split; [rewrite store_length, !app_length; simpl; lia|].
    split.
    + rewrite deref_store_same by (rewrite !app_length; simpl; lia). rewrite deref_alloc_new. reflexivity.
    + intros l r Hr. rewrite deref_store_all_other by lia. apply D. assumption.
Qed.

Theorem decorate_many_spec refs : forall h name v, (forall r, In r refs -> r < length h) ->
  let '(h', refs') := decorate_many h refs name v in
  (forall r, r < length h -> deref h' r = deref h r) /\ length h <= length h'
  /\ Forall2 (fun r r' => length h <= r' < length h' /\ deref h' r' = dict_set name (v r) (deref h r)) refs refs'
  /\ NoDup refs'.
Proof.
  induction refs as [|r refs IH]; intros h name v Hr; cbn [decorate_many].
  - repeat split; auto; constructor.
  - pose proof (decorate_spec h r name (v r) (Hr r (or_introl eq_refl))) as D.
    destruct (decorate h r name (v r)) as [h1 r1]. destruct D as (D1 & D2 & D3 & _).
    specialize (IH h1 name v). destruct (decorate_many h1 refs name v) as [h2 rs2].
    destruct IH as (I1 & I2 & I3 & I4).
    { intros r' Hr'. specialize (Hr r' (or_intror Hr')). lia. }
    split; [intros r' Hr'; rewrite I1 by lia; apply D1; assumption|]. split; [lia|]. split.
    + constructor.
      * split; [lia|]. rewrite I1 by lia. assumption.
      * assert (Hr2 : forall r', In r' refs -> r' < length h) by (intros r' Hr'; apply Hr; right; assumption).
        clear - I3 D1 D2 Hr2. induction I3 as [|a b l1 l2 [Ha Hb] F IH]; constructor.
        -- split; [lia|]. rewrite Hb, D1; [reflexivity|]. apply Hr2. left. reflexivity.
        -- apply IH. intros r' Hr'. apply Hr2. right. assumption.
    + constructor; [|assumption]. intros Hin. 
      assert (G : forall x, In x rs2 -> length h1 <= x).
      { clear - I3. induction I3 as [|a b l1 l2 [Ha Hb] F IH]; intros x []; [subst; lia|auto]. }
      apply G in Hin. lia.
Qed.

Theorem same_object : forall k o h ref, deref h ref <> [] -> ~ (k = KBasic /\ (o = OpNormalize \/ o = OpNormalizeElement)) -> o <> OpOpen ->
  run_op k o h ref = (h, ref).
Proof.
  intros k o h ref Hd Hk Ho. assert (Hp : passes_data k o = true) by (destruct k, o; try reflexivity; exfalso; apply Hk; auto).
  assert (E : run_op k o h ref = init_data h (Some ref)) by (unfold run_op; rewrite Hp; destruct o; [reflexivity..|contradiction]).
  rewrite E. unfold init_data. destruct (deref h ref); [contradiction|reflexivity].
Qed.
