From Verif Require Import Prelude UtilsModel UtilsSpec.

Section Comb.
Context {A : Type}.
Implicit Types l s : list A.

Lemma combinations_0 l : combinations l 0 = [[]].
Proof. destruct l; reflexivity. Qed.

Lemma subseq_nil_l l : subseq [] l.
Proof. induction l; constructor; assumption. Qed.

Lemma subseq_length s l : subseq s l -> length s <= length l.
Proof. induction 1; simpl; lia. Qed.

Lemma subseq_In s l x : subseq s l -> In x s -> In x l.
Proof. induction 1; simpl; intuition. Qed.

Lemma subseq_refl l : subseq l l.
Proof. induction l; constructor; assumption. Qed.

Lemma subseq_NoDup s l : subseq s l -> NoDup l -> NoDup s.
Proof.
  induction 1; intros Hn; inversion Hn; subst; auto.
  constructor; auto. intros Hin. eapply subseq_In in Hin; eauto.
Qed.

Lemma in_combinations l k s : In s (combinations l k) <-> subseq s l /\ length s = k.
Proof.
  revert k s; induction l as [|x xs IH]; intros k s.
  - destruct k; simpl.
    + split.
      * intros [<-|[]]. split; [constructor|reflexivity].
      * intros [Hs Hl]. destruct s; [left; reflexivity|discriminate].
    + split; [intros []|]. intros [Hs Hl]. inversion Hs; subst. discriminate.
  - destruct k as [|k]; cbn [combinations].
    + split.
      * intros [<-|[]]. split; [apply subseq_nil_l|reflexivity].
      * intros [_ Hl]. destruct s; [left; reflexivity|discriminate].
    + rewrite in_app_iff, in_map_iff. split.
      * intros [(t & <- & Ht) | Ht]; apply IH in Ht as [Hs Hl].
        -- split; [constructor; assumption | simpl; lia].
        -- split; [constructor; assumption | assumption].
      * intros [Hs Hl]. inversion Hs; subst.
        -- right. apply IH. auto.
        -- left. eexists; split; [reflexivity|]. apply IH. simpl in Hl. auto with arith.
Qed.

Lemma combinations_length l k s : In s (combinations l k) -> length s = k.
Proof. rewrite in_combinations; tauto. Qed.

Lemma NoDup_map_cons (x : A) (ll : list (list A)) : NoDup ll -> NoDup (map (cons x) ll).
Proof.
  induction 1 as [|s ll Hn Hd IH]; simpl; constructor; auto.
  rewrite in_map_iff. intros (t & Heq & Ht). injection Heq as ->. contradiction.
Qed.

Lemma NoDup_app_intro {B} (l1 l2 : list B) :
  NoDup l1 -> NoDup l2 -> (forall x, In x l1 -> In x l2 -> False) -> NoDup (l1 ++ l2).
Proof.
  induction 1 as [|x l1 Hn Hd IH]; simpl; intros H2 Hdis; auto.
  constructor.
  - rewrite in_app_iff. intros [H|H]; [contradiction | eapply Hdis; eauto].
  - apply IH; auto. intros y Hy Hy2. eapply Hdis; eauto.
Qed.

Lemma NoDup_combinations l k : NoDup l -> NoDup (combinations l k).
Proof.
  intros Hn; revert k; induction Hn as [|x xs Hx Hn IH]; intros k.
  - destruct k; simpl; repeat constructor; simpl; auto.
  - destruct k as [|k]; cbn [combinations].
    + repeat constructor; simpl; auto.
    + apply NoDup_app_intro; [apply NoDup_map_cons; auto | auto |].
      intros s H1 H2. apply in_map_iff in H1 as (t & <- & _).
      apply in_combinations in H2 as [H2 _].
      apply subseq_In with (x := x) in H2; [contradiction | left; reflexivity].
Qed.

Lemma in_limited_powerset l m s :
  In s (limited_powerset l m) <-> subseq s l /\ 1 <= length s <= m.
Proof.
  unfold limited_powerset. rewrite in_concat. split.
  - intros (ll & Hll & Hs). apply in_map_iff in Hll as (k & <- & Hk).
    apply in_seq in Hk. apply in_combinations in Hs as [Hs <-]. split; [assumption|lia].
  - intros [Hs Hl]. exists (combinations l (length s)). split.
    + apply in_map_iff. eexists; split; [reflexivity|]. apply in_seq. lia.
    + apply in_combinations. auto.
Qed.

Lemma NoDup_concat_sizes l (ks : list nat) :
  NoDup l -> NoDup ks -> NoDup (concat (map (combinations l) ks)).
Proof.
  intros Hl. induction 1 as [|k ks Hk Hn IH]; simpl; [constructor|].
  apply NoDup_app_intro; [apply NoDup_combinations; assumption | assumption |].
  intros s H1 H2. apply combinations_length in H1.
  apply in_concat in H2 as (ll & Hll & Hs). apply in_map_iff in Hll as (k' & <- & Hk').
  apply combinations_length in Hs. congruence.
Qed.

Lemma NoDup_limited_powerset l m : NoDup l -> NoDup (limited_powerset l m).
Proof. intros. apply NoDup_concat_sizes; [assumption | apply seq_NoDup]. Qed.

Lemma concat_sizes_ascending l n k : sizes_ascending (concat (map (combinations l) (seq k n))).
Proof.
  revert k; induction n as [|n IH]; intros k; simpl.
  - intros i j s t _ H. destruct i; discriminate.
  - intros i j s t Hij Hs Ht.
    assert (Hge : forall i' u, nth_error (concat (map (combinations l) (seq (S k) n))) i' = Some u -> k < length u).
    { intros i' u Hu. apply nth_error_In in Hu. apply in_concat in Hu as (ll & Hll & Hu).
      apply in_map_iff in Hll as (k' & <- & Hk'). apply in_seq in Hk'.
      apply combinations_length in Hu. lia. }
    destruct (Nat.lt_ge_cases i (length (combinations l k))) as [Hi|Hi].
    + rewrite nth_error_app1 in Hs by assumption.
      apply nth_error_In, combinations_length in Hs.
      destruct (Nat.lt_ge_cases j (length (combinations l k))) as [Hj|Hj].
      * rewrite nth_error_app1 in Ht by assumption.
        apply nth_error_In, combinations_length in Ht. lia.
      * rewrite nth_error_app2 in Ht by assumption. apply Hge in Ht. lia.
    + rewrite nth_error_app2 in Hs by assumption.
      rewrite nth_error_app2 in Ht by lia.
      eapply IH; [|exact Hs|exact Ht]. lia.
Qed.
End Comb.

Lemma combinations_map {A B} (f : A -> B) (l : list A) k :
  combinations (map f l) k = map (map f) (combinations l k).
Proof.
  revert k; induction l as [|x xs IH]; intros [|k]; simpl; auto.
  rewrite !IH, map_app, !map_map. reflexivity.
Qed.

Lemma limited_powerset_map {A B} (f : A -> B) (l : list A) m :
  limited_powerset (map f l) m = map (map f) (limited_powerset l m).
Proof.
  unfold limited_powerset. rewrite concat_map, map_map. f_equal.
  apply map_ext. intros k. apply combinations_map.
Qed.

Lemma limited_powerset_spec {A} (l : list A) m :
  (forall s, In s (limited_powerset l m) <-> subseq s l /\ 1 <= length s <= m)
  /\ (NoDup l -> NoDup (limited_powerset l m))
  /\ sizes_ascending (limited_powerset l m)
  /\ (forall B (f : A -> B), limited_powerset (map f l) m = map (map f) (limited_powerset l m)).
Proof.
  split; [intros; apply in_limited_powerset|].
  split; [apply NoDup_limited_powerset|].
  split; [apply concat_sizes_ascending|].
  intros; apply limited_powerset_map.
Qed.

Section Grouper.
Context {A : Type}.

Lemma round_spec n fill (l : list A) :
  let (slots, rest) := round n fill l in
  length slots = n
  /\ slots = firstn n l ++ repeat fill (n - length l) /\ rest = skipn n l.
Proof.
  revert l; induction n as [|n IH]; intros l; simpl; auto.
  destruct l as [|x xs].
  - specialize (IH []). destruct (round n fill []) as [slots rest].
    destruct IH as (H1 & H2 & H3). simpl in *. subst.
    rewrite ?firstn_nil, ?skipn_nil, ?Nat.sub_0_r in *. simpl in *. rewrite ?repeat_length in *. repeat split; auto. congruence.
  - specialize (IH xs). destruct (round n fill xs) as [slots rest].
    destruct IH as (H1 & H2 & H3). simpl. subst. repeat split; simpl; auto. congruence.
Qed.

Lemma grouper_loop_spec fuel n fill (l : list A) :
  1 <= n -> length l <= fuel ->
  exists gs k, grouper_loop fuel n fill l = Ok gs
    /\ concat gs = l ++ repeat fill k /\ k < n
    /\ Forall (fun g => length g = n) gs
    /\ (l = [] -> gs = [])
    /\ (l <> [] -> n * (length gs - 1) < length l <= n * length gs)
    /\ (l <> [] -> length gs <> 0).
Proof.
  intros Hn. revert l; induction fuel as [|fuel IH]; intros l Hl.
  - destruct l; [|simpl in Hl; lia]. exists [], 0. simpl. repeat split; auto; try lia; try congruence.
  - destruct l as [|x xs] eqn:El.
    + exists [], 0. simpl. repeat split; auto; try lia; try congruence.
    + rewrite <- El in *. assert (Hne : l <> []) by (subst; discriminate).
      replace (grouper_loop (S fuel) n fill l) with
        (let (slots, rest) := round n fill l in
          match grouper_loop fuel n fill rest with
          | Ok gs => Ok (slots :: gs) | Err e => Err e end) by (subst l; reflexivity).
      pose proof (round_spec n fill l) as Hr. destruct (round n fill l) as [slots rest].
      destruct Hr as (H1 & H2 & H3).
      assert (Hlen : 1 <= length l) by (subst l; simpl; lia). clear El x xs.
      assert (Hrl : length rest = length l - n) by (subst; apply skipn_length).
      destruct (IH rest) as (gs & k & Hg & Hc & Hk & Hf & Hnil & Hsz & Hnz); [lia|].
      rewrite Hg. exists (slots :: gs).
      destruct (Nat.le_gt_cases (length l) n) as [Hle|Hgt].
      * assert (rest = []) by (destruct rest; [reflexivity|simpl in Hrl; lia]).
        rewrite (Hnil H) in *. exists (n - length l).
        split; [reflexivity|]. split.
        { simpl. rewrite app_nil_r, H2, firstn_all2 by lia. reflexivity. }
        split; [lia|]. split; [constructor; auto|].
        split; [congruence|]. simpl. split; [lia|]. lia.
      * exists k. split; [reflexivity|]. split.
        { simpl. rewrite Hc, H2, H3. replace (n - length l) with 0 by lia.
          simpl. rewrite app_nil_r, app_assoc, firstn_skipn. reflexivity. }
        split; [assumption|]. split; [constructor; auto|]. split; [congruence|].
        assert (Hrne : rest <> []) by (destruct rest; [simpl in Hrl; lia|discriminate]).
        specialize (Hsz Hrne). specialize (Hnz Hrne).
        simpl. split; [|lia]. intros _.
        destruct (length gs) as [|q]; [lia|].
        simpl in *. rewrite Nat.sub_0_r in *. nia.
Qed.

Lemma filter_repeat_false (p : A -> bool) x k : p x = false -> filter p (repeat x k) = [].
Proof. intros H; induction k; simpl; auto. rewrite H. assumption. Qed.

Lemma filter_all (p : A -> bool) l : (forall x, In x l -> p x = true) -> filter p l = l.
Proof.
  induction l as [|x xs IH]; simpl; intros H; auto.
  rewrite (H x) by auto. f_equal. apply IH; auto.
Qed.

Lemma grouper_spec (l : list A) n fill :
  1 <= n ->
  exists gs k, grouper l n fill = Ok gs
    /\ concat gs = l ++ repeat fill k /\ k < n
    /\ Forall (fun g => length g = n) gs
    /\ length gs = (length l + n - 1) / n
    /\ (forall eqb : A -> A -> bool,
          (forall x y, eqb x y = true <-> x = y) -> ~ In fill l ->
          concat (map (filter (fun x => negb (eqb x fill))) gs) = l).
Proof.
  intros Hn. unfold grouper. destruct n as [|n']; [lia|]. set (n := S n') in *.
  destruct (grouper_loop_spec (length l) n fill l Hn (Nat.le_refl _))
    as (gs & k & Hg & Hc & Hk & Hf & Hnil & Hsz & Hnz).
  exists gs, k. repeat (split; [assumption|]). split.
  - destruct l as [|x xs].
    + rewrite Hnil by reflexivity. cbn [length]. symmetry. apply Nat.div_small. lia.
    + assert (Hne : x :: xs <> []) by discriminate.
      specialize (Hsz Hne). specialize (Hnz Hne).
      set (m := length (x :: xs)) in *. destruct (length gs) as [|q]; [lia|].
      simpl in Hsz. rewrite Nat.sub_0_r in Hsz.
      apply Nat.div_unique with (r := m + n - 1 - n * S q); nia.
  - intros eqb Heq Hfill.
    rewrite concat_filter_map, Hc, filter_app.
    rewrite filter_repeat_false by (rewrite (proj2 (Heq fill fill)); reflexivity).
    rewrite app_nil_r. apply filter_all. intros x Hx.
    destruct (eqb x fill) eqn:E; [|reflexivity].
    apply Heq in E; subst; contradiction.
Qed.
End Grouper.

Section RayProofs.
Context {Ref V : Type} (wait : nat -> list Ref -> list Ref * list Ref) (get : Ref -> V).

Lemma to_iterator_ids_spec fuel k refs :
  valid_schedule wait -> length refs <= fuel ->
  exists out, to_iterator_ids wait get fuel k refs = Ok out
    /\ Permutation (map fst out) refs /\ Forall (fun p => snd p = get (fst p)) out.
Proof.
  intros Hw. revert k refs; induction fuel as [|fuel IH]; intros k refs Hl.
  - destruct refs; [|simpl in Hl; lia]. exists []. simpl. auto.
  - destruct refs as [|r rs] eqn:E.
    + exists []. simpl. auto.
    + rewrite <- E in *. assert (Hne : refs <> []) by (subst; discriminate).
      destruct (Hw k refs Hne) as (d & rest & Hd & Hp).
      destruct (IH (S k) rest) as (out & Ho & Hpo & Hfo).
      { apply Permutation_length in Hp. simpl in Hp. lia. }
      exists ((d, get d) :: out).
      replace (to_iterator_ids wait get (S fuel) k refs) with
        (let (done, rest) := wait k refs in
          match done with
          | [] => Err IndexError
          | d :: _ => match to_iterator_ids wait get fuel (S k) rest with
              | Ok out => Ok ((d, get d) :: out) | Err e => Err e end end)
        by (subst refs; reflexivity).
      rewrite Hd, Ho. split; [reflexivity|]. split.
      * simpl. rewrite Hp. constructor. assumption.
      * constructor; auto.
Qed.

Lemma map_snd_get out : Forall (fun p : Ref * V => snd p = get (fst p)) out ->
  map snd out = map get (map fst out).
Proof. induction 1 as [|p out Hp Hf IH]; simpl; congruence. Qed.

Lemma to_iterator_spec refs :
  valid_schedule wait ->
  (exists out, to_iterator wait get refs = Ok out
    /\ length out = length refs /\ Permutation out (map get refs))
  /\ (exists out, to_iterator_ids wait get (length refs) 0 refs = Ok out
    /\ Permutation (map fst out) refs /\ (forall r v, In (r, v) out -> v = get r)).
Proof.
  intros Hw.
  destruct (to_iterator_ids_spec (length refs) 0 refs Hw (Nat.le_refl _)) as (out & Ho & Hp & Hf).
  split.
  - exists (map snd out). unfold to_iterator. rewrite Ho. split; [reflexivity|].
    rewrite (map_snd_get _ Hf). split.
    + rewrite map_length. apply Permutation_length. assumption.
    + apply Permutation_map. assumption.
  - exists out. split; [assumption|]. split; [assumption|].
    intros r v Hin. rewrite Forall_forall in Hf. apply (Hf _ Hin).
Qed.
End RayProofs.
