(* Dictionaries, sums and constructors of reactions. *)
From Coq Require Import Setoid Lqa.
From Verif Require Import Prelude NumQ UtilsModel SumQ ReactionModel ReactionSpec.

Lemma Qsum_map {A} (f : A -> Q) l : Qsum (map f l) = sumQ f l.
Proof. induction l as [|a l IH]; [reflexivity|]. cbn [map]. unfold Qsum in *. cbn [fold_right]. rewrite IH. reflexivity. Qed.

Lemma Qlt_bool_iff' a b : Qlt_bool a b = true <-> (a < b)%Q.
Proof.
  unfold Qlt_bool. rewrite negb_true_iff. split; intros H.
  - apply Qnot_le_lt. intros H2. apply Qle_bool_iff in H2. congruence.
  - destruct (Qle_bool b a) eqn:E; [|reflexivity]. apply Qle_bool_iff in E. apply Qle_not_lt in E. contradiction.
Qed.
Lemma Qlt_bool_false a b : Qlt_bool a b = false <-> (b <= a)%Q.
Proof.
  unfold Qlt_bool. rewrite negb_false_iff. apply Qle_bool_iff.
Qed.

(* --- dictionaries --- *)
Lemma dict_set_new {V} k (v : V) d : ~ In k (map fst d) -> dict_set k v d = d ++ [(k, v)].
Proof.
  induction d as [|[k' v'] d IH]; intros H; [reflexivity|]. simpl in *.
  destruct (Nat.eqb_spec k k') as [->|_]; [exfalso; apply H; left; reflexivity|].
  rewrite IH; [reflexivity|]. intros Hin. apply H. right. assumption.
Qed.

Lemma dict_of_nodup_aux {V} (l acc : list (nat * V)) : NoDup (map fst (acc ++ l)) ->
  fold_left (fun d kv => dict_set (fst kv) (snd kv) d) l acc = acc ++ l.
Proof.
  revert acc. induction l as [|[k v] l IH]; intros acc H; simpl; [rewrite app_nil_r; reflexivity|].
  rewrite dict_set_new.
  - rewrite IH; rewrite <- app_assoc; simpl; [reflexivity|assumption].
  - rewrite map_app in H. simpl in H. apply NoDup_remove_2 in H. intros Hin. apply H.
    apply in_or_app. left. assumption.
Qed.
Lemma dict_of_nodup {V} (l : list (nat * V)) : NoDup (map fst l) -> dict_of l = l.
Proof. intros H. unfold dict_of. rewrite dict_of_nodup_aux; [reflexivity|exact H]. Qed.

Lemma dict_set_map {V W} (f : V -> W) k v d :
  map (fun kv => (fst kv, f (snd kv))) (dict_set k v d) = dict_set k (f v) (map (fun kv => (fst kv, f (snd kv))) d).
Proof.
  induction d as [|[k' v'] d IH]; [reflexivity|]. simpl. destruct (Nat.eqb k k'); simpl; [reflexivity|].
  rewrite IH. reflexivity.
Qed.
Lemma dict_of_map {V W} (f : V -> W) (l : list (nat * V)) :
  map (fun kv => (fst kv, f (snd kv))) (dict_of l) = dict_of (map (fun kv => (fst kv, f (snd kv))) l).
Proof.
  unfold dict_of. change (@nil (nat * W)) with (map (fun kv : nat * V => (fst kv, f (snd kv))) []) at 1.
  generalize (@nil (nat * V)) as acc. induction l as [|[k v] l IH]; intros acc; [reflexivity|].
  simpl. rewrite IH, dict_set_map. reflexivity.
Qed.

Lemma dict_set_keys {V} k (v : V) d : map fst (dict_set k v d) = if memb Nat.eqb k (map fst d) then map fst d else map fst d ++ [k].
Proof.
  induction d as [|[k' v'] d IH]; [reflexivity|]. simpl. unfold memb in *. simpl.
  destruct (Nat.eqb k k'); simpl; [reflexivity|]. rewrite IH. destruct (existsb (Nat.eqb k) (map fst d)); reflexivity.
Qed.
Lemma memb_iff x l : memb Nat.eqb x l = true <-> In x l.
Proof.
  unfold memb. rewrite existsb_exists. split.
  - intros (y & Hy & E). apply Nat.eqb_eq in E as ->. assumption.
  - intros H. exists x. split; [assumption|apply Nat.eqb_refl].
Qed.
Lemma memb_false x l : memb Nat.eqb x l = false <-> ~ In x l.
Proof. rewrite <- memb_iff. destruct (memb Nat.eqb x l); split; intros H; congruence. Qed.

Lemma dict_set_nodup {V} k (v : V) d : NoDup (map fst d) -> NoDup (map fst (dict_set k v d)).
Proof.
  intros H. rewrite dict_set_keys. destruct (memb Nat.eqb k (map fst d)) eqn:E; [assumption|].
  apply memb_false in E.
  apply (Permutation_NoDup (l := k :: map fst d)); [apply Permutation_cons_append|]. constructor; assumption.
Qed.
Lemma dict_set_In {V} k (v : V) d kv : In kv (dict_set k v d) -> In kv d \/ kv = (k, v).
Proof.
  induction d as [|[k' v'] d IH]; simpl; [intros [<-|[]]; right; reflexivity|].
  destruct (Nat.eqb_spec k k') as [->|_]; simpl; intros [<-|H].
  - right. reflexivity.
  - left. right. assumption.
  - left. left. reflexivity.
  - destruct (IH H) as [H1|H1]; [left; right; assumption|right; assumption].
Qed.
Lemma dict_set_In_key {V} k (v : V) d k' : In k' (map fst (dict_set k v d)) <-> k' = k \/ In k' (map fst d).
Proof.
  rewrite dict_set_keys. destruct (memb Nat.eqb k (map fst d)) eqn:E.
  - apply memb_iff in E. split; [right; assumption|]. intros [->|H]; assumption.
  - rewrite in_app_iff. simpl. split; [intros [H|[H|[]]]; [right; assumption|left; symmetry; assumption]|].
    intros [->|H]; [right; left; reflexivity|left; assumption].
Qed.
Lemma dict_get_set {V} k (v : V) d k' :
  dict_get k' (dict_set k v d) = if Nat.eqb k' k then Some v else dict_get k' d.
Proof.
  induction d as [|[k1 v1] d IH]; simpl; [destruct (Nat.eqb k' k); reflexivity|].
  destruct (Nat.eqb_spec k k1) as [->|Hk]; simpl.
  - destruct (Nat.eqb k' k1); reflexivity.
  - destruct (Nat.eqb_spec k' k1) as [->|Hk']; [|assumption].
    destruct (Nat.eqb_spec k1 k) as [E|_]; [congruence|reflexivity].
Qed.
Lemma dict_of_keys {V} (l : list (nat * V)) :
  NoDup (map fst (dict_of l)) /\ (forall k, In k (map fst (dict_of l)) <-> In k (map fst l))
  /\ (forall kv, In kv (dict_of l) -> In kv l).
Proof.
  unfold dict_of.
  cut (forall acc, NoDup (map fst acc) ->
     let d := fold_left (fun d kv => dict_set (fst kv) (snd kv) d) l acc in
     NoDup (map fst d) /\ (forall k, In k (map fst d) <-> In k (map fst acc) \/ In k (map fst l))
     /\ (forall kv, In kv d -> In kv acc \/ In kv l)).
  { intros H. destruct (H [] (NoDup_nil _)) as (H1 & H2 & H3). split; [exact H1|]. split.
    - intros k. rewrite H2. simpl. tauto.
    - intros kv Hkv. destruct (H3 kv Hkv) as [[]|]; assumption. }
  induction l as [|[k v] l IH]; intros acc Hacc; simpl.
  - split; [assumption|]. split; [tauto|tauto].
  - destruct (IH (dict_set k v acc) (dict_set_nodup k v acc Hacc)) as (H1 & H2 & H3).
    split; [exact H1|]. split.
    + intros k'. rewrite H2, dict_set_In_key. split; [intros [[->|H]|H]|intros [H|[->|H]]]; tauto.
    + intros kv Hkv. destruct (H3 kv Hkv) as [H|H]; [|tauto].
      apply dict_set_In in H as [H| ->]; tauto.
Qed.

(* --- elements --- *)
Lemma in_elements C r e : In e (elements C r) <-> exists c, In c (comps r) /\ In e (elems C c).
Proof.
  unfold elements. rewrite nodup_In, in_flat_map. reflexivity.
Qed.

(* --- the two sides of a reaction --- *)
Section Sides.
Variable C : chem.

Lemma map_fst_filter_nodup {A B} (p : A * B -> bool) (l : list (A * B)) :
  NoDup (map fst l) -> NoDup (map fst (filter p l)).
Proof.
  induction l as [|[a b] l IH]; simpl; intros H; [constructor|]. apply NoDup_cons_iff in H as [H1 H2].
  destruct (p (a, b)); simpl; [|auto]. constructor; [|auto].
  intros Hin. apply H1. rewrite in_map_iff in Hin. destruct Hin as (x & Hx & Hin).
  apply filter_In in Hin as [Hin _]. rewrite <- Hx. apply in_map. assumption.
Qed.
Lemma combine_fst {A B} (l1 : list A) (l2 : list B) : length l1 = length l2 -> map fst (combine l1 l2) = l1.
Proof.
  revert l2; induction l1 as [|a l1 IH]; intros [|b l2] H; simpl in *; try discriminate; [reflexivity|].
  rewrite IH by lia. reflexivity.
Qed.
Lemma combine_snd {A B} (l1 : list A) (l2 : list B) : length l1 = length l2 -> map snd (combine l1 l2) = l2.
Proof.
  revert l2; induction l1 as [|a l1 IH]; intros [|b l2] H; simpl in *; try discriminate; [reflexivity|].
  rewrite IH by lia. reflexivity.
Qed.

Lemma reactant_coeffs_nodup cs ks b n : NoDup cs -> length cs = length ks ->
  reactant_coeffs (basic_init C cs ks b n) = filter (fun kv => Qlt_bool (snd kv) 0) (combine cs ks).
Proof.
  intros Hn Hl. simpl. apply dict_of_nodup, map_fst_filter_nodup. rewrite combine_fst; assumption.
Qed.
Lemma product_coeffs_nodup cs ks b n : NoDup cs -> length cs = length ks ->
  product_coeffs (basic_init C cs ks b n) = filter (fun kv => Qlt_bool 0 (snd kv)) (combine cs ks).
Proof.
  intros Hn Hl. simpl. apply dict_of_nodup, map_fst_filter_nodup. rewrite combine_fst; assumption.
Qed.

Lemma side_total_neg l e :
  (side_total C (filter (fun kv => Qlt_bool (snd kv) 0) l) e == consumed C l e)%Q.
Proof.
  unfold side_total, consumed. rewrite Qsum_map. induction l as [|[c k] l IH]; [reflexivity|].
  cbn [filter snd]. destruct (Qlt_bool k 0) eqn:E.
  - rewrite !sumQ_cons. cbn [fst snd]. rewrite E, IH. apply Qlt_bool_iff' in E.
    rewrite Qabs_neg by lra. reflexivity.
  - rewrite (sumQ_cons _ (c, k) l). cbn [fst snd]. rewrite E, IH. lra.
Qed.
Lemma side_total_pos l e :
  (side_total C (filter (fun kv => Qlt_bool 0 (snd kv)) l) e == produced C l e)%Q.
Proof.
  unfold side_total, produced. rewrite Qsum_map. induction l as [|[c k] l IH]; [reflexivity|].
  cbn [filter snd]. destruct (Qlt_bool 0 k) eqn:E.
  - rewrite !sumQ_cons. cbn [fst snd]. rewrite E, IH. apply Qlt_bool_iff' in E.
    rewrite Qabs_pos by lra. reflexivity.
  - rewrite (sumQ_cons _ (c, k) l). cbn [fst snd]. rewrite E, IH. lra.
Qed.
Lemma net_sides l e : (net C l e == produced C l e - consumed C l e)%Q.
Proof.
  unfold net, produced, consumed. induction l as [|[c k] l IH]; [reflexivity|].
  rewrite !sumQ_cons. cbn [fst snd]. rewrite IH.
  destruct (Qlt_bool k 0) eqn:E1, (Qlt_bool 0 k) eqn:E2.
  - apply Qlt_bool_iff' in E1, E2. exfalso. lra.
  - ring.
  - ring.
  - apply Qlt_bool_false in E1, E2. assert (E : (k == 0)%Q) by lra. rewrite E. ring.
Qed.

Lemma not_listed (W : wf_chem C) l e :
  ~ (exists ck, In ck l /\ In e (elems C (fst ck))) ->
  (consumed C l e == 0 /\ produced C l e == 0)%Q.
Proof.
  intros H. split; apply sumQ_all_zero; intros [c k] Hc; cbn [fst snd].
  - destruct (Qlt_bool k 0); [|reflexivity]. rewrite (wf_zero C W); [ring|]. intros He. apply H. exists (c, k). auto.
  - destruct (Qlt_bool 0 k); [|reflexivity]. rewrite (wf_zero C W); [ring|]. intros He. apply H. exists (c, k). auto.
Qed.

Lemma almost_equal_iff (W : wf_chem C) l :
  almost_equal_totals C (filter (fun kv => Qlt_bool (snd kv) 0) l) (filter (fun kv => Qlt_bool 0 (snd kv)) l) = true
  <-> forall e, (Qabs (produced C l e - consumed C l e) <= 1 # 1000000)%Q.
Proof.
  unfold almost_equal_totals. rewrite forallb_forall. split; intros H e.
  - destruct (in_dec Nat.eq_dec e (dict_elems C (filter (fun kv => Qlt_bool (snd kv) 0) l)
      ++ dict_elems C (filter (fun kv => Qlt_bool 0 (snd kv)) l))) as [Hin|Hout].
    + specialize (H e Hin). apply Qle_bool_iff in H. rewrite side_total_neg, side_total_pos in H. exact H.
    + assert (E : (produced C l e == 0 /\ consumed C l e == 0)%Q).
      { split; apply sumQ_all_zero; intros [c k] Hc; cbn [fst snd].
        - destruct (Qlt_bool 0 k) eqn:E; [|reflexivity]. rewrite (wf_zero C W); [ring|]. intros He. apply Hout.
          apply in_or_app. right. apply in_flat_map. exists (c, k). split; [apply filter_In; auto|assumption].
        - destruct (Qlt_bool k 0) eqn:E; [|reflexivity]. rewrite (wf_zero C W); [ring|]. intros He. apply Hout.
          apply in_or_app. left. apply in_flat_map. exists (c, k). split; [apply filter_In; auto|assumption]. }
      destruct E as [E1 E2]. rewrite E1, E2. vm_compute. discriminate.
  - intros _. apply Qle_bool_iff. rewrite side_total_neg, side_total_pos. apply H.
Qed.
End Sides.
