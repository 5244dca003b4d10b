(* Proofs about storing, merging and querying reaction sets (C17-C20). *)
From Verif Require Import Prelude NumQ ListFacts ReactionModel ReactionBaseProofs ChemTable RxnSetModel RxnSetSpec RxnSetBaseProofs.
Open Scope nat_scope.

(* --- partition by key --- *)
Section Partition.
Context {A : Type} (key : A -> nat).
Let has n := fun x => Nat.eqb (key x) n.

Lemma filter_split_perm (p : A -> bool) l : Permutation l (filter p l ++ filter (fun x => negb (p x)) l).
Proof.
  induction l as [|x l IH]; simpl; [constructor|]. destruct (p x); simpl.
  - constructor. assumption.
  - apply Permutation_cons_app. assumption.
Qed.

Lemma filter_filter (p q : A -> bool) l : filter p (filter q l) = filter (fun x => q x && p x) l.
Proof.
  induction l as [|x l IH]; simpl; [reflexivity|]. destruct (q x); simpl; [|assumption].
  destruct (p x); rewrite IH; reflexivity.
Qed.

Lemma partition_perm ks l : NoDup ks -> (forall x, In x l -> In (key x) ks) ->
  Permutation (flat_map (fun n => filter (has n) l) ks) l.
Proof.
  revert l. induction ks as [|k ks IH]; intros l Hn H.
  - destruct l as [|x l]; [constructor|]. destruct (H x (or_introl eq_refl)).
  - inversion Hn as [|? ? Hk Hn']; subst. simpl.
    apply Permutation_sym. eapply perm_trans; [apply (filter_split_perm (has k))|].
    apply Permutation_app_head, Permutation_sym.
    replace (flat_map (fun n => filter (has n) l) ks)
      with (flat_map (fun n => filter (has n) (filter (fun x => negb (has k x)) l)) ks).
    + apply IH; [assumption|]. intros x Hx. apply filter_In in Hx as [Hx Hb]. destruct (H x Hx) as [E|E]; [|assumption].
      unfold has in Hb. rewrite E, Nat.eqb_refl in Hb. discriminate.
    + apply flat_map_ext_in. intros n Hn2. rewrite filter_filter. apply filter_ext. intros x. unfold has.
      destruct (Nat.eqb_spec (key x) n) as [->|]; [|apply andb_false_r]. destruct (Nat.eqb_spec n k) as [->|]; [contradiction|reflexivity].
Qed.

Lemma partition_filter ks l n : NoDup ks -> (forall x, In x l -> In (key x) ks) ->
  filter (has n) (flat_map (fun n => filter (has n) l) ks) = filter (has n) l.
Proof.
  intros Hn H. rewrite flat_map_filter.
  assert (E : forall k, filter (has n) (filter (has k) l) = if Nat.eqb k n then filter (has n) l else []).
  { intros k. rewrite filter_filter. destruct (Nat.eqb_spec k n) as [->|Hk].
    - apply filter_ext. intros x. apply andb_diag.
    - rewrite <- (filter_ext (fun _ => false)); [induction l; auto|].
      + apply IHl. intros x Hx. apply H. right. assumption.
      + intros x. unfold has. destruct (Nat.eqb_spec (key x) k) as [->|]; [|reflexivity].
        destruct (Nat.eqb_spec k n); [contradiction|reflexivity]. }
  destruct (in_dec Nat.eq_dec n ks) as [Hin|Hout].
  - rewrite (flat_map_ext _ (fun k => if Nat.eqb k n then filter (has n) l else []) E).
    clear E H. induction ks as [|k ks IH]; [destruct Hin|]. inversion Hn as [|? ? Hk Hn']; subst. simpl.
    destruct (Nat.eqb_spec k n) as [->|Hne].
    + replace (flat_map _ ks) with (@nil A); [apply app_nil_r|]. symmetry. clear -Hk.
      induction ks as [|k ks IH]; [reflexivity|]. simpl. destruct (Nat.eqb_spec k n) as [->|]; [exfalso; apply Hk; left; reflexivity|].
      apply IH. intros Hi. apply Hk. right. assumption.
    + destruct Hin as [?|Hin]; [congruence|]. apply IH; assumption.
  - rewrite (flat_map_ext _ (fun k => if Nat.eqb k n then filter (has n) l else []) E).
    transitivity (@nil A).
    + clear -Hout. induction ks as [|k ks IH]; [reflexivity|]. simpl.
      destruct (Nat.eqb_spec k n) as [->|]; [exfalso; apply Hout; left; reflexivity|].
      apply IH. intros Hi. apply Hout. right. assumption.
    + symmetry. clear E. induction l as [|x l IH]; [reflexivity|]. simpl. unfold has at 1.
      destruct (Nat.eqb_spec (key x) n) as [E|].
      * exfalso. apply Hout. rewrite <- E. apply H. left. reflexivity.
      * apply IH. intros y Hy. apply H. right. assumption.
Qed.
End Partition.

(* --- dict_append --- *)
Lemma vals_append {V} k (v : V) d n : vals n (dict_append k v d) = if Nat.eqb n k then vals n d ++ [v] else vals n d.
Proof.
  unfold vals. induction d as [|[k' l] d IH]; simpl.
  - destruct (Nat.eqb n k); reflexivity.
  - destruct (Nat.eqb_spec k k') as [->|Hk]; simpl.
    + destruct (Nat.eqb n k'); reflexivity.
    + destruct (Nat.eqb_spec n k') as [->|].
      * destruct (Nat.eqb_spec k' k) as [->|]; [contradiction|reflexivity].
      * exact IH.
Qed.

Lemma keys_append {V} k (v : V) d :
  map fst (dict_append k v d) = if memb Nat.eqb k (map fst d) then map fst d else map fst d ++ [k].
Proof.
  induction d as [|[k' l] d IH]; simpl; [reflexivity|].
  destruct (Nat.eqb_spec k k') as [->|Hk]; simpl; [reflexivity|]. rewrite IH.
  unfold memb. destruct (existsb (Nat.eqb k) (map fst d)); reflexivity.
Qed.

Lemma memb_nat n l : memb Nat.eqb n l = true <-> In n l.
Proof.
  unfold memb. rewrite existsb_exists. split.
  - intros (x & Hx & E). apply Nat.eqb_eq in E. subst. assumption.
  - intros H. exists n. split; [assumption|apply Nat.eqb_refl].
Qed.

Lemma nodup_append {V} k (v : V) d : NoDup (map fst d) -> NoDup (map fst (dict_append k v d)).
Proof.
  intros H. rewrite keys_append. destruct (memb Nat.eqb k (map fst d)) eqn:E; [assumption|].
  apply NoDup_Add with (a := k) (l := map fst d).
  - rewrite <- (app_nil_r (map fst d)) at 1. apply Add_app.
  - split; [assumption|]. intros Hi. apply memb_nat in Hi. congruence.
Qed.

Lemma in_keys_append {V} k (v : V) d n : In n (map fst (dict_append k v d)) <-> n = k \/ In n (map fst d).
Proof.
  rewrite keys_append. destruct (memb Nat.eqb k (map fst d)) eqn:E.
  - apply memb_nat in E. split; [tauto|]. intros [->|H]; assumption.
  - rewrite in_app_iff. simpl. intuition.
Qed.

Definition rsize (r : srxn) : nat := length (x_entries r).

Definition collect {V} (f : srxn -> V) (rxns : list srxn) (d : list (nat * list V)) :=
  fold_left (fun acc r => dict_append (rsize r) (f r) acc) rxns d.

Lemma collect_vals {V} (f : srxn -> V) rxns d n : vals n (collect f rxns d) = vals n d ++ map f (filter (of_size n) rxns).
Proof.
  revert d. induction rxns as [|r rxns IH]; intros d; simpl; [rewrite app_nil_r; reflexivity|].
  unfold collect in *. simpl. rewrite IH, vals_append. unfold of_size at 2, rsize. rewrite (Nat.eqb_sym n).
  destruct (Nat.eqb (length (x_entries r)) n); [|reflexivity]. rewrite <- app_assoc. reflexivity.
Qed.

Lemma collect_keys {V W} (f : srxn -> V) (g : srxn -> W) rxns d e : map fst d = map fst e ->
  map fst (collect f rxns d) = map fst (collect g rxns e).
Proof.
  revert d e. induction rxns as [|r rxns IH]; intros d e H; [exact H|]. apply IH. rewrite !keys_append, H. reflexivity.
Qed.

Lemma collect_nodup {V} (f : srxn -> V) rxns d : NoDup (map fst d) -> NoDup (map fst (collect f rxns d)).
Proof. revert d. induction rxns as [|r rxns IH]; intros d H; [exact H|]. apply IH, nodup_append, H. Qed.

Lemma collect_in {V} (f : srxn -> V) rxns d n :
  In n (map fst (collect f rxns d)) <-> In n (map fst d) \/ exists r, In r rxns /\ rsize r = n.
Proof.
  revert d. induction rxns as [|r rxns IH]; intros d.
  - split; [tauto|]. intros [H|(r & [] & _)]. exact H.
  - change (collect f (r :: rxns) d) with (collect f rxns (dict_append (rsize r) (f r) d)). rewrite IH, in_keys_append. split.
    + intros [[->|H]|(r' & H & E)]; [right; exists r; split; [left|]; reflexivity|tauto|right; exists r'; split; [right|]; assumption].
    + intros [H|(r' & [->|H] & E)]; [tauto|left; left; symmetry; assumption|right; exists r'; tauto].
Qed.

Lemma group_loop_ok pos f rxns i c d :
  (forall r, In r rxns -> mapM (fun e => dict_item (uid e) pos) (x_entries r) = Ok (f r)) ->
  group_loop pos rxns i c d = Ok (collect f rxns i, collect x_coeffs rxns c, collect x_data rxns d).
Proof.
  revert i c d. induction rxns as [|r rxns IH]; intros i c d H; [reflexivity|].
  cbn [group_loop]. rewrite (H r) by (left; reflexivity). cbn [bind].
  rewrite IH; [reflexivity|]. intros r' Hr'. apply H. right. assumption.
Qed.

(* --- positions of entries --- *)
Definition pos_of (es : list sentry) (e : sentry) : nat :=
  match positions (fun x => if sentry_eq_dec x e then true else false) es 0 with i :: _ => i | [] => 0 end.

Lemma positions_head {A} (p : A -> bool) l k d : (exists x, In x l /\ p x = true) ->
  exists i rest, positions p l k = (k + i) :: rest /\ i < length l /\ p (nth i l d) = true.
Proof.
  revert k. induction l as [|x l IH]; intros k (y & Hy & Hp); [destruct Hy|]. simpl.
  destruct (p x) eqn:E.
  - exists 0, (positions p l (S k)). rewrite Nat.add_0_r. split; [reflexivity|]. split; [lia|assumption].
  - destruct Hy as [->|Hy]; [congruence|]. destruct (IH (S k)) as (i & rest & E1 & E2 & E3).
    + exists y. split; assumption.
    + exists (S i), rest. rewrite E1. split; [f_equal; lia|]. split; [lia|assumption].
Qed.

Lemma pos_of_spec es e : In e es -> pos_of es e < length es /\ nth (pos_of es e) es dummy = e.
Proof.
  intros H. unfold pos_of.
  destruct (positions_head (fun x => if sentry_eq_dec x e then true else false) es 0 dummy) as (i & rest & E1 & E2 & E3).
  - exists e. split; [assumption|]. destruct (sentry_eq_dec e e); [reflexivity|contradiction].
  - rewrite E1. simpl. split; [assumption|]. destruct (sentry_eq_dec (nth i es dummy) e); [assumption|discriminate].
Qed.

Lemma NoDup_map_inj {A B} (f : A -> B) l : NoDup l -> (forall x y, In x l -> In y l -> f x = f y -> x = y) -> NoDup (map f l).
Proof.
  induction l as [|x l IH]; intros Hn Hi; [constructor|]. inversion Hn as [|? ? H1 H2]; subst. simpl. constructor.
  - intros Hx. apply in_map_iff in Hx as (y & E & Hy). apply H1. rewrite (Hi x y); [assumption|left; reflexivity|right; assumption|symmetry; assumption].
  - apply IH; [assumption|]. intros a b Ha Hb. apply Hi; right; assumption.
Qed.

Lemma in_combine_seq {A} (l : list A) s i x : nth_error l i = Some x -> In (x, s + i) (combine l (seq s (length l))).
Proof.
  revert s i. induction l as [|y l IH]; intros s [|i] H; simpl in *; try discriminate.
  - injection H as ->. left. f_equal. lia.
  - right. replace (s + S i) with (S s + i) by lia. apply IH. assumption.
Qed.

Lemma combine_fst_len {A B} (a : list A) (b : list B) : length b = length a -> map fst (combine a b) = a.
Proof.
  revert b. induction a as [|x a IH]; intros [|y b] H; try discriminate; [reflexivity|]. simpl. f_equal. apply IH.
  simpl in H. lia.
Qed.

Lemma entry_positions_ok es e : NoDup es -> (forall x y, In x es -> In y es -> uid x = uid y -> x = y) -> In e es ->
  dict_item (uid e) (entry_positions es) = Ok (pos_of es e).
Proof.
  intros Hn Hu He. destruct (pos_of_spec es e He) as [H1 H2].
  assert (K : NoDup (map uid es)) by (apply NoDup_map_inj; assumption).
  assert (L : map fst (combine (map uid es) (seq 0 (length es))) = map uid es)
    by (apply combine_fst_len; rewrite seq_length, map_length; reflexivity).
  unfold entry_positions, dict_item. rewrite dict_of_nodup by (rewrite L; assumption).
  rewrite (dict_get_nodup _ (pos_of es e)); [reflexivity|rewrite L; assumption|].
  rewrite <- (map_length uid es). apply (in_combine_seq (map uid es) 0 (pos_of es e)).
  rewrite nth_error_map, (nth_error_nth' es dummy H1), H2. reflexivity.
Qed.

(* --- C17 --- *)
Definition given (entries : list sentry) (rxns : list srxn) : list sentry :=
  match entries with [] => all_entries rxns | _ => entries end.

Definition spec_mu (rxns : list srxn) (oe : option nat) (mu : Q) : option nat * Q :=
  match oe with
  | Some el => (Some el, mu)
  | None => match common_mu rxns with Some (el, q) => (Some el, q) | None => (None, mu) end
  end.

Lemma from_rxns_form arrange rxns entries oe mu : arranges arrange ->
  let es := given entries rxns in
  (forall r e, In r rxns -> In e (x_entries r) -> In e es) ->
  (forall x y, In x es -> In y es -> uid x = uid y -> x = y) ->
  from_rxns arrange rxns entries oe mu =
  Ok {| r_entries := arrange es; r_indices := collect (fun r => map (pos_of (arrange es)) (x_entries r)) rxns [];
        r_coeffs := collect x_coeffs rxns []; r_data := collect x_data rxns [];
        r_open := fst (spec_mu rxns oe mu); r_chempot := snd (spec_mu rxns oe mu) |}.
Proof.
  intros Ha es Hin Hu. destruct (Ha es) as [Hn He]. unfold from_rxns. fold (given entries rxns). fold es.
  rewrite (group_loop_ok _ (fun r => map (pos_of (arrange es)) (x_entries r))).
  - cbn [bind]. unfold spec_mu. destruct oe; [reflexivity|]. destruct (common_mu rxns) as [[el q]|]; reflexivity.
  - intros r Hr. apply mapM_ok. intros e Hie. apply entry_positions_ok; [assumption| |].
    + intros x y Hx Hy. apply Hu; apply He; assumption.
    + apply He. apply (Hin r); assumption.
Qed.

Lemma vals_collect_nil {V} (f : srxn -> V) rxns n : vals n (collect f rxns []) = map f (filter (of_size n) rxns).
Proof. rewrite collect_vals. reflexivity. Qed.

Lemma zip3_map {A B D E} (f : A -> B) (g : A -> D) (h : A -> E) l : zip3 (map f l) (map g l) (map h l) = map (fun x => (f x, g x, h x)) l.
Proof. unfold zip3. induction l as [|x l IH]; simpl; [reflexivity|]. f_equal. exact IH. Qed.

Lemma flat_map_map {A B D} (f : A -> list B) (g : B -> D) l : map g (flat_map f l) = flat_map (fun x => map g (f x)) l.
Proof. induction l as [|x l IH]; simpl; [reflexivity|]. rewrite map_app, IH. reflexivity. Qed.

Lemma length_fold_sum {V} (d : list (nat * list V)) :
  fold_right (fun kv n => length (snd kv) + n) 0 d = length (flat_map snd d).
Proof. induction d as [|[k l] d IH]; simpl; [reflexivity|]. rewrite app_length, IH. reflexivity. Qed.

Lemma dict_flat {V} (d : list (nat * list V)) : NoDup (map fst d) -> flat_map snd d = flat_map (fun n => vals n d) (map fst d).
Proof.
  intros H. assert (E : forall kv, In kv d -> vals (fst kv) d = snd kv).
  { intros [k l] Hin. apply vals_in; assumption. }
  rewrite !flat_map_concat_map, map_map. f_equal. apply map_ext_in. intros kv Hkv. symmetry. apply E. assumption.
Qed.

Lemma rset_len_rows s : well_formed s -> rset_len s = length (rows s).
Proof.
  intros W. unfold rset_len. rewrite length_fold_sum, dict_flat by apply W. unfold rows, sizes.
  assert (H : forall n, In n (map fst (r_indices s)) -> length (vals n (r_indices s)) = length (size_rows s n)).
  { intros n Hn. destruct (wf_size s n W Hn) as (H1 & H2 & _). unfold size_rows, zip3. rewrite !combine_length. lia. }
  revert H. generalize (map fst (r_indices s)). intros l H. induction l as [|n l IH]; [reflexivity|]. simpl.
  rewrite !app_length, (H n) by (left; reflexivity). f_equal. apply IH. intros m Hm. apply H. right. assumption.
Qed.

Lemma map_with_mu_filter m n rxns : map (with_mu m) (filter (of_size n) rxns) = filter (of_size n) (map (with_mu m) rxns).
Proof.
  induction rxns as [|r l IH]; simpl; [reflexivity|]. unfold of_size in *. simpl.
  destruct (Nat.eqb (length (x_entries r)) n); simpl; [f_equal|]; exact IH.
Qed.

Theorem from_rxns_spec arrange rxns entries oe mu : arranges arrange ->
  (entries = [] \/ forall r e, In r rxns -> In e (x_entries r) -> In e entries) ->
  (forall x y, In x (entries ++ all_entries rxns) -> In y (entries ++ all_entries rxns) -> uid x = uid y -> x = y) ->
  (forall r, In r rxns -> length (x_coeffs r) = length (x_entries r)) ->
  exists s out, from_rxns arrange rxns entries oe mu = Ok s /\ well_formed s /\ get_rxns s = Ok out
  /\ Permutation out (map (with_mu (mu_dict s)) rxns)
  /\ (forall n, filter (of_size n) out = filter (of_size n) (map (with_mu (mu_dict s)) rxns))
  /\ rset_len s = length rxns
  /\ r_entries s = arrange (given entries rxns)
  /\ mu_dict s = (match spec_mu rxns oe mu with (Some el, q) => Some [(el, q)] | (None, _) => None end).
Proof.
  intros Ha Hent Hu Hlen.
  assert (Hin : forall r e, In r rxns -> In e (x_entries r) -> In e (given entries rxns)).
  { intros r e Hr He. unfold given. destruct entries as [|x xs].
    - unfold all_entries. apply in_flat_map. exists r. split; assumption.
    - destruct Hent as [Hent|Hent]; [discriminate|]. apply (Hent r); assumption. }
  assert (Hu' : forall x y, In x (given entries rxns) -> In y (given entries rxns) -> uid x = uid y -> x = y).
  { intros x y Hx Hy. apply Hu; apply in_app_iff; unfold given in *; destruct entries; tauto. }
  pose proof (from_rxns_form arrange rxns entries oe mu Ha Hin Hu') as E. cbv zeta in E.
  set (es := arrange (given entries rxns)) in *. destruct (Ha (given entries rxns)) as [Hn He].
  set (f := fun r => map (pos_of es) (x_entries r)) in *.
  match type of E with _ = Ok ?t => set (s := t) in * end.
  assert (Kn : NoDup (map fst (collect f rxns []))) by (apply collect_nodup; constructor).
  assert (W : well_formed s).
  { unfold well_formed, s. cbn [r_indices r_coeffs r_data r_entries].
    split; [assumption|]. split; [apply collect_keys; reflexivity|]. split; [apply collect_keys; reflexivity|].
    intros n is cs ds H1 H2 H3.
    apply vals_in in H1; [|assumption]. apply vals_in in H2; [|apply collect_nodup; constructor].
    apply vals_in in H3; [|apply collect_nodup; constructor].
    rewrite vals_collect_nil in H1. rewrite vals_collect_nil in H2. rewrite vals_collect_nil in H3. subst is cs ds. rewrite !map_length.
    split; [reflexivity|]. split; [reflexivity|]. split.
    - intros idx Hi. apply in_map_iff in Hi as (r & <- & Hr). apply filter_In in Hr as [Hr Hs].
      unfold of_size in Hs. apply Nat.eqb_eq in Hs. unfold f. rewrite map_length. split; [assumption|].
      intros i Hi. apply in_map_iff in Hi as (e & <- & Hie). apply pos_of_spec. apply He. apply (Hin r); assumption.
    - intros c Hc. apply in_map_iff in Hc as (r & <- & Hr). apply filter_In in Hr as [Hr Hs].
      unfold of_size in Hs. apply Nat.eqb_eq in Hs. rewrite Hlen by assumption. assumption. }
  assert (R : map (rxn_at s) (rows s) = flat_map (fun n => filter (of_size n) (map (with_mu (mu_dict s)) rxns)) (sizes s)).
  { unfold rows. rewrite flat_map_map. apply flat_map_ext. intros n. unfold size_rows.
    change (r_indices s) with (collect f rxns []). change (r_coeffs s) with (collect x_coeffs rxns []).
    change (r_data s) with (collect x_data rxns []). rewrite !vals_collect_nil, zip3_map, map_map.
    rewrite <- (map_ext_in (with_mu (mu_dict s))).
    - apply map_with_mu_filter.
    - intros r Hr. apply filter_In in Hr as [Hr _]. unfold rxn_at, with_mu, f. cbn [fst snd]. f_equal. rewrite map_map.
      rewrite <- (map_id (x_entries r)) at 1. apply map_ext_in. intros e Hie. symmetry.
      change (r_entries s) with es. apply pos_of_spec. apply He. apply (Hin r); assumption. }
  assert (Ks : forall r, In r (map (with_mu (mu_dict s)) rxns) -> In (rsize r) (sizes s)).
  { intros r Hr. apply in_map_iff in Hr as (r' & <- & Hr'). unfold sizes. change (r_indices s) with (collect f rxns []).
    apply collect_in. right. exists r'. split; [assumption|reflexivity]. }
  assert (P : Permutation (map (rxn_at s) (rows s)) (map (with_mu (mu_dict s)) rxns)).
  { rewrite R. apply (partition_perm rsize (sizes s)); [exact Kn|exact Ks]. }
  exists s, (map (rxn_at s) (rows s)).
  split; [exact E|]. split; [exact W|]. split; [apply get_rxns_rows; exact W|].
  split; [exact P|].
  split; [intros n; rewrite R; apply (partition_filter rsize (sizes s)); [exact Kn|exact Ks]|].
  split. { rewrite rset_len_rows by assumption. apply Permutation_length in P. rewrite !map_length in P. exact P. }
  split; [reflexivity|]. unfold mu_dict, s. cbn [r_open r_chempot]. destruct (spec_mu rxns oe mu) as [[el|] q]; reflexivity.
Qed.

Lemma common_mu_closed rxns r : In r rxns -> x_mu r = None -> common_mu rxns = None.
Proof.
  intros Hr Hm. unfold common_mu. replace (forallb _ rxns) with false; [reflexivity|]. symmetry.
  apply not_true_iff_false. intros H. rewrite forallb_forall in H. specialize (H r Hr). rewrite Hm in H. discriminate.
Qed.

Lemma common_mu_same rxns el q : rxns <> [] -> (forall r, In r rxns -> x_mu r = Some [(el, q)]) -> common_mu rxns = Some (el, q).
Proof.
  intros Hne H. unfold common_mu.
  replace (forallb _ rxns) with true
    by (symmetry; apply forallb_forall; intros r Hr; rewrite (H r Hr); reflexivity).
  assert (M : forall m, In m (flat_map (fun r => match x_mu r with Some m => m | None => [] end) rxns) -> m = (el, q)).
  { intros m Hm. apply in_flat_map in Hm as (r & Hr & Hm). rewrite (H r Hr) in Hm. destruct Hm as [<-|[]]. reflexivity. }
  destruct rxns as [|r rxns]; [contradiction|]. cbn [flat_map] in *. rewrite (H r) in * by (left; reflexivity). cbn [app] in *.
  replace (forallb _ ((el, q) :: _)) with true; [reflexivity|]. symmetry. apply forallb_forall. intros m Hm.
  rewrite (M m Hm). cbn [fst snd]. rewrite Nat.eqb_refl. simpl. apply Qeq_bool_iff. reflexivity.
Qed.

(* --- C18 --- *)
Lemma nodup_sizes_spec (l : list nat) : NoDup (rev (nodup Nat.eq_dec (rev l))) /\ forall n, In n (rev (nodup Nat.eq_dec (rev l))) <-> In n l.
Proof.
  split; [apply NoDup_rev, NoDup_nodup|]. intros n. rewrite <- in_rev, nodup_In, <- in_rev. reflexivity.
Qed.

Lemma merge_sizes_ok {V} sz ka kb (a b : list (nat * list V)) :
  map fst a = ka -> map fst b = kb -> (forall n, In n sz -> In n ka \/ In n kb) ->
  merge_sizes sz ka kb a b = Ok (map (fun n => (n, vals n a ++ vals n b)) sz).
Proof.
  intros Ea Eb H. apply mapM_ok. intros n Hn.
  destruct (memb Nat.eqb n ka) eqn:Ma; destruct (memb Nat.eqb n kb) eqn:Mb.
  - apply memb_nat in Ma. apply memb_nat in Mb. rewrite dict_item_vals by (rewrite Ea; assumption). cbn [bind].
    rewrite dict_item_vals by (rewrite Eb; assumption). reflexivity.
  - apply memb_nat in Ma. rewrite dict_item_vals by (rewrite Ea; assumption). cbn [bind].
    assert (Nb : ~ In n (map fst b)) by (rewrite Eb; intros Hi; apply memb_nat in Hi; congruence).
    unfold vals at 3. rewrite (dict_get_nokey n b Nb), app_nil_r. reflexivity.
  - apply memb_nat in Mb. rewrite dict_item_vals by (rewrite Eb; assumption). cbn [bind].
    assert (Na : ~ In n (map fst a)) by (rewrite Ea; intros Hi; apply memb_nat in Hi; congruence).
    unfold vals at 2. rewrite (dict_get_nokey n a Na). reflexivity.
  - exfalso. destruct (H n Hn) as [Hi|Hi]; apply memb_nat in Hi; congruence.
Qed.

Lemma map_pair_keys {V} (g : nat -> V) l : map fst (map (fun n => (n, g n)) l) = l.
Proof. rewrite map_map. simpl. apply map_id. Qed.

Lemma vals_map_pair {V} (g : nat -> list V) l n : NoDup l -> In n l -> vals n (map (fun n => (n, g n)) l) = g n.
Proof.
  intros H1 H2. apply vals_in; [rewrite map_pair_keys; assumption|]. apply in_map_iff. exists n. split; [reflexivity|assumption].
Qed.

Lemma zip3_app {A B D} (a a' : list A) (b b' : list B) (d d' : list D) : length b = length a -> length d = length a ->
  zip3 (a ++ a') (b ++ b') (d ++ d') = zip3 a b d ++ zip3 a' b' d'.
Proof.
  revert b d. induction a as [|x a IH]; intros [|y b] [|z d] H1 H2; try discriminate; [reflexivity|].
  unfold zip3 in *. simpl. f_equal. apply IH; simpl in *; lia.
Qed.

Lemma flat_map_app_perm {A B} (f g : A -> list B) l : Permutation (flat_map (fun x => f x ++ g x) l) (flat_map f l ++ flat_map g l).
Proof.
  induction l as [|x l IH]; simpl; [constructor|]. rewrite <- !app_assoc. apply Permutation_app_head.
  eapply perm_trans; [apply Permutation_app_head; exact IH|]. rewrite !app_assoc. apply Permutation_app_tail, Permutation_app_comm.
Qed.

Lemma flat_map_perm {A B} (f : A -> list B) l l' : Permutation l l' -> Permutation (flat_map f l) (flat_map f l').
Proof.
  induction 1; simpl; [constructor|apply Permutation_app_head; assumption| |eapply perm_trans; eassumption].
  rewrite !app_assoc. apply Permutation_app_tail, Permutation_app_comm.
Qed.

Lemma flat_map_nil_aux {A B} (f : A -> list B) l : (forall x, In x l -> f x = []) -> flat_map f l = [].
Proof.
  induction l as [|x l IH]; intros H; [reflexivity|]. simpl. rewrite (H x) by (left; reflexivity). apply IH.
  intros y Hy. apply H. right. assumption.
Qed.

Lemma flat_map_over {A B} (f : A -> list B) (ks l : list A) (dec : forall x y : A, {x = y} + {x <> y}) :
  NoDup ks -> NoDup l -> incl ks l -> (forall x, ~ In x ks -> f x = []) -> Permutation (flat_map f l) (flat_map f ks).
Proof.
  intros Hk Hl Hi Hf.
  set (p := fun x => if in_dec dec x ks then true else false).
  eapply perm_trans; [apply (flat_map_perm f l _ (filter_split_perm p l))|]. rewrite flat_map_app.
  assert (E : flat_map f (filter (fun x => negb (p x)) l) = []).
  { apply flat_map_nil_aux. intros x Hx. apply filter_In in Hx as [_ Hx]. apply Hf. unfold p in Hx. destruct (in_dec dec x ks); [discriminate|assumption]. }
  rewrite E, app_nil_r. apply flat_map_perm. apply NoDup_Permutation; [apply NoDup_filter; assumption|assumption|].
  intros x. rewrite filter_In. unfold p. split.
  - intros [_ H]. destruct (in_dec dec x ks); [assumption|discriminate].
  - intros H. split; [apply Hi; assumption|]. destruct (in_dec dec x ks); [reflexivity|contradiction].
Qed.

Lemma size_rows_nokey s n : ~ In n (sizes s) -> size_rows s n = [].
Proof. intros H. unfold size_rows, vals at 1. rewrite (dict_get_nokey n (r_indices s) H). reflexivity. Qed.

Lemma rxn_at_with_mu a b r : r_entries a = r_entries b -> rxn_at a r = with_mu (mu_dict a) (rxn_at b r).
Proof. intros E. unfold rxn_at, with_mu. cbn [x_entries x_coeffs x_data]. rewrite E. reflexivity. Qed.

Theorem add_rxn_set_spec a b : well_formed a -> well_formed b ->
  exists ra rb, get_rxns a = Ok ra /\ get_rxns b = Ok rb
  /\ (r_entries a <> r_entries b -> add_rxn_set a b = Err ValueError)
  /\ (r_entries a = r_entries b ->
       exists s out, add_rxn_set a b = Ok s /\ well_formed s /\ get_rxns s = Ok out
       /\ Permutation out (ra ++ map (with_mu (mu_dict a)) rb)
       /\ r_entries s = r_entries a /\ r_open s = r_open a /\ r_chempot s = r_chempot a).
Proof.
  intros Wa Wb. exists (map (rxn_at a) (rows a)), (map (rxn_at b) (rows b)).
  split; [apply get_rxns_rows; assumption|]. split; [apply get_rxns_rows; assumption|].
  split.
  { intros Hne. unfold add_rxn_set. destruct (list_eq_dec sentry_eq_dec (r_entries a) (r_entries b)); [contradiction|reflexivity]. }
  intros E. unfold add_rxn_set. destruct (list_eq_dec sentry_eq_dec (r_entries a) (r_entries b)) as [_|]; [|contradiction].
  set (sz := rev (nodup Nat.eq_dec (rev (map fst (r_indices a) ++ map fst (r_indices b))))).
  destruct (nodup_sizes_spec (map fst (r_indices a) ++ map fst (r_indices b))) as [Sn Si]. fold sz in Sn, Si.
  assert (Si' : forall n, In n sz -> In n (map fst (r_indices a)) \/ In n (map fst (r_indices b))).
  { intros n Hn. apply Si in Hn. apply in_app_iff in Hn. assumption. }
  pose proof Wa as (Na & Ca & Da & Ha). pose proof Wb as (Nb & Cb & Db & Hb).
  rewrite !merge_sizes_ok by (first [reflexivity|assumption]). cbn [bind].
  match goal with |- exists s out, Ok ?t = Ok s /\ _ => set (s := t) end.
  assert (Vi : forall n, In n sz -> vals n (r_indices s) = vals n (r_indices a) ++ vals n (r_indices b))
    by (intros n Hn; apply (vals_map_pair (fun n => vals n (r_indices a) ++ vals n (r_indices b))); assumption).
  assert (Vc : forall n, In n sz -> vals n (r_coeffs s) = vals n (r_coeffs a) ++ vals n (r_coeffs b))
    by (intros n Hn; apply (vals_map_pair (fun n => vals n (r_coeffs a) ++ vals n (r_coeffs b))); assumption).
  assert (Vd : forall n, In n sz -> vals n (r_data s) = vals n (r_data a) ++ vals n (r_data b))
    by (intros n Hn; apply (vals_map_pair (fun n => vals n (r_data a) ++ vals n (r_data b))); assumption).
  assert (Ks : sizes s = sz) by (unfold sizes, s; cbn [rset_init r_indices]; apply map_pair_keys).
  assert (Lens : forall x, well_formed x -> forall n, 
     length (vals n (r_coeffs x)) = length (vals n (r_indices x)) /\ length (vals n (r_data x)) = length (vals n (r_indices x))
     /\ (forall idx, In idx (vals n (r_indices x)) -> length idx = n /\ forall i, In i idx -> i < length (r_entries x))
     /\ (forall c, In c (vals n (r_coeffs x)) -> length c = n)).
  { intros x Wx n. destruct (in_dec Nat.eq_dec n (sizes x)) as [Hn|Hn]; [apply wf_size; assumption|].
    destruct Wx as (Nx & Cx & Dx & _). unfold vals. unfold sizes in Hn.
    rewrite (dict_get_nokey n (r_indices x) Hn), (dict_get_nokey n (r_coeffs x)), (dict_get_nokey n (r_data x))
      by (rewrite ?Cx, ?Dx; assumption).
    split; [reflexivity|]. split; [reflexivity|]. split; intros ? []. }
  assert (W : well_formed s).
  { unfold well_formed. change (map fst (r_indices s)) with (sizes s). rewrite Ks. split; [exact Sn|].
    split; [unfold s; cbn [rset_init r_coeffs]; apply map_pair_keys|].
    split; [unfold s; cbn [rset_init r_data]; apply map_pair_keys|].
    intros n is cs ds H1 H2 H3.
    assert (Hn : In n sz).
    { rewrite <- Ks. unfold sizes. apply in_map_iff. exists (n, is). split; [reflexivity|assumption]. }
    apply vals_in in H1; [|change (map fst (r_indices s)) with (sizes s); rewrite Ks; exact Sn].
    apply vals_in in H2; [|unfold s; cbn [rset_init r_coeffs]; rewrite map_pair_keys; exact Sn].
    apply vals_in in H3; [|unfold s; cbn [rset_init r_data]; rewrite map_pair_keys; exact Sn].
    rewrite Vi in H1 by assumption. rewrite Vc in H2 by assumption. rewrite Vd in H3 by assumption. subst is cs ds.
    rewrite !app_length. destruct (Lens a Wa n) as (A1 & A2 & A3 & A4). destruct (Lens b Wb n) as (B1 & B2 & B3 & B4).
    split; [lia|]. split; [lia|]. change (r_entries s) with (r_entries a).
    split; intros x Hx; apply in_app_iff in Hx as [Hx|Hx]; [apply A3; assumption|rewrite E; apply B3; assumption
      |apply A4; assumption|apply B4; assumption]. }
  exists s, (map (rxn_at s) (rows s)). split; [reflexivity|]. split; [exact W|]. split; [apply get_rxns_rows; exact W|].
  split; [|split; [reflexivity|split; reflexivity]].
  assert (R : Permutation (rows s) (rows a ++ rows b)).
  { unfold rows at 1. rewrite Ks.
    rewrite (flat_map_ext_in _ (fun n => size_rows a n ++ size_rows b n)).
    - eapply perm_trans; [apply flat_map_app_perm|]. apply Permutation_app.
      + apply (flat_map_over _ _ _ Nat.eq_dec); [exact Na|exact Sn| |intros x Hx; apply size_rows_nokey; exact Hx].
        intros n Hn. apply Si. apply in_app_iff. left. exact Hn.
      + apply (flat_map_over _ _ _ Nat.eq_dec); [exact Nb|exact Sn| |intros x Hx; apply size_rows_nokey; exact Hx].
        intros n Hn. apply Si. apply in_app_iff. right. exact Hn.
    - intros n Hn. unfold size_rows at 1. rewrite Vi, Vc, Vd by assumption.
      destruct (Lens a Wa n) as (A1 & A2 & _). apply zip3_app; assumption. }
  eapply perm_trans; [apply Permutation_map; exact R|]. rewrite map_app. apply Permutation_app.
  - rewrite (map_ext (rxn_at s) (rxn_at a)); [apply Permutation_refl|]. reflexivity.
  - rewrite map_map. rewrite (map_ext (rxn_at s) (fun r => with_mu (mu_dict a) (rxn_at b r))); [apply Permutation_refl|].
    intros r. apply (rxn_at_with_mu s b). exact E.
Qed.

Theorem add_rxns_spec arrange s rxns : arranges arrange -> well_formed s -> arrange (r_entries s) = r_entries s ->
  r_entries s <> [] ->
  (forall r e, In r rxns -> In e (x_entries r) -> In e (r_entries s)) ->
  (forall x y, In x (r_entries s) -> In y (r_entries s) -> uid x = uid y -> x = y) ->
  (forall r, In r rxns -> length (x_coeffs r) = length (x_entries r)) ->
  exists rs s' out, get_rxns s = Ok rs /\ add_rxns arrange s rxns = Ok s' /\ well_formed s' /\ get_rxns s' = Ok out
  /\ Permutation out (rs ++ map (with_mu (mu_dict s)) rxns)
  /\ r_entries s' = r_entries s /\ r_open s' = r_open s /\ r_chempot s' = r_chempot s.
Proof.
  intros Ha W Hs Hne Hin Hu Hlen.
  assert (Hu' : forall x y, In x (r_entries s ++ all_entries rxns) -> In y (r_entries s ++ all_entries rxns) -> uid x = uid y -> x = y).
  { assert (I : forall x, In x (r_entries s ++ all_entries rxns) -> In x (r_entries s)).
    { intros x Hx. apply in_app_iff in Hx as [Hx|Hx]; [assumption|]. unfold all_entries in Hx.
      apply in_flat_map in Hx as (r & Hr & Hx). apply (Hin r); assumption. }
    intros x y Hx Hy. apply Hu; apply I; assumption. }
  destruct (from_rxns_spec arrange rxns (r_entries s) None 0%Q Ha (or_intror Hin) Hu' Hlen)
    as (t & ot & Et & Wt & Gt & Pt & _ & _ & Ent & _).
  assert (Ee : r_entries s = r_entries t).
  { rewrite Ent. unfold given. destruct (r_entries s) as [|x xs] eqn:E; [contradiction|]. symmetry. exact Hs. }
  destruct (add_rxn_set_spec s t W Wt) as (ra & rb & Ga & Gb & _ & H). destruct (H Ee) as (s' & out & H1 & H2 & H3 & H4 & H5).
  exists ra, s', out. split; [assumption|]. split.
  { unfold add_rxns. rewrite Et. exact H1. }
  split; [assumption|]. split; [assumption|]. split; [|assumption].
  eapply perm_trans; [exact H4|]. apply Permutation_app_head. rewrite Gt in Gb. injection Gb as <-.
  eapply perm_trans; [apply Permutation_map; exact Pt|]. rewrite map_map. apply Permutation_refl.
Qed.

(* --- C19, C20 --- *)
Lemma in_positions {A} (p : A -> bool) (l : list A) k i d : In i (positions p l k) <-> k <= i < k + length l /\ p (nth (i - k) l d) = true.
Proof.
  revert k. induction l as [|x l IH]; intros k; simpl.
  - split; [intros []|intros [H _]; lia].
  - assert (T : In i (positions p l (S k)) <-> S k <= i < k + S (length l) /\ p (nth (i - k) (x :: l) d) = true).
    { rewrite IH. replace (S k + length l) with (k + S (length l)) by lia.
      split; intros [H1 H2]; (split; [assumption|]).
      - replace (i - k) with (S (i - S k)) by lia. exact H2.
      - replace (i - k) with (S (i - S k)) in H2 by lia. exact H2. }
    destruct (p x) eqn:E; simpl; rewrite T; simpl.
    + split.
      * intros [<-|[H1 H2]]; [split; [lia|]; rewrite Nat.sub_diag; assumption|split; [lia|assumption]].
      * intros [H1 H2]. destruct (Nat.eq_dec k i) as [->|]; [left; reflexivity|right]. split; [lia|assumption].
    + split; [intros [H1 H2]; split; [lia|assumption]|]. intros [H1 H2]. split; [|assumption].
      destruct (Nat.eq_dec k i) as [->|]; [|lia]. rewrite Nat.sub_diag in H2. congruence.
Qed.

Lemma takes_part_row s r e c : takes_part (rxn_at s r) e c ->
  exists i, In (i, c) (combine (fst (fst r)) (snd (fst r))) /\ e = nth i (r_entries s) dummy.
Proof.
  unfold takes_part, rxn_at. cbn [x_entries x_coeffs]. generalize (fst (fst r)) (snd (fst r)). intros idx co. revert co.
  induction idx as [|i idx IH]; intros [|q co]; intros H; simpl in *; try contradiction.
  destruct H as [H|H].
  - injection H as <- <-. exists i. split; [left; reflexivity|reflexivity].
  - destruct (IH co H) as (j & Hj & E). exists j. split; [right|]; assumption.
Qed.

Lemma row_takes_part s r i c : In (i, c) (combine (fst (fst r)) (snd (fst r))) ->
  takes_part (rxn_at s r) (nth i (r_entries s) dummy) c.
Proof.
  unfold takes_part, rxn_at. cbn [x_entries x_coeffs]. generalize (fst (fst r)) (snd (fst r)). intros idx co. revert co.
  induction idx as [|j idx IH]; intros [|q co]; intros H; simpl in *; try contradiction.
  destruct H as [H|H]; [injection H as <- <-; left; reflexivity|right; apply IH; assumption].
Qed.

Lemma in_combine_swap {A B} (a : list A) (b : list B) x y : In (x, y) (combine a b) <-> In (y, x) (combine b a).
Proof.
  revert b. induction a as [|z a IH]; intros [|w b]; simpl; try tauto. rewrite IH. split; (intros [H|H]; [left; congruence|tauto]).
Qed.

Definition reactant_idx (fs : list nat) (s : rset) : list nat := positions (fun e => memb Nat.eqb (form e) fs) (r_entries s) 0.

Lemma in_reactant_idx fs s i : i < length (r_entries s) ->
  (In i (reactant_idx fs s) <-> In (form (nth i (r_entries s) dummy)) fs).
Proof.
  intros H. unfold reactant_idx. rewrite (in_positions _ _ _ _ dummy), Nat.sub_0_r, memb_nat. split; [tauto|]. intros; split; [lia|assumption].
Qed.

Lemma row_uses_only_spec s fs r : well_formed s -> In r (rows s) ->
  (exists e c, takes_part (rxn_at s r) e c /\ (c < 0)%Q) ->
  (forall e c, takes_part (rxn_at s r) e c -> (c < 1 # 1000000000000)%Q -> (c < 0)%Q) ->
  (row_uses_only (reactant_idx fs s) (fst r) = true <-> only_reactants fs (rxn_at s r)).
Proof.
  intros W Hr Hex Hsm. destruct (rows_range s r W Hr) as [Hi Hl].
  unfold row_uses_only. rewrite andb_true_iff, forallb_forall. split.
  - intros [_ H] e c Ht Hc. destruct (takes_part_row s r e c Ht) as (i & Hin & ->).
    apply in_reactant_idx; [apply Hi; eapply in_combine_l; eassumption|].
    apply in_combine_swap in Hin. specialize (H _ Hin). cbn [fst snd] in H. apply orb_true_iff in H as [H|H].
    + apply negb_true_iff in H. exfalso. apply not_true_iff_false in H. apply H. apply Qlt_bool_iff'.
      eapply Qlt_trans; [exact Hc|reflexivity].
    + apply memb_nat. exact H.
  - intros H. split.
    + destruct Hex as (e & c & Ht & Hc). destruct (takes_part_row s r e c Ht) as (i & Hin & ->).
      apply existsb_exists. exists i. split; [eapply in_combine_l; eassumption|]. apply memb_nat.
      apply in_reactant_idx; [apply Hi; eapply in_combine_l; eassumption|]. apply (H _ c); assumption.
    + intros [c i] Hin. cbn [fst snd]. apply orb_true_iff. destruct (Qlt_bool c (1 # 1000000000000)) eqn:E; [|left; reflexivity].
      right. apply Qlt_bool_iff' in E. apply in_combine_swap in Hin. pose proof (row_takes_part s r i c Hin) as Ht.
      apply memb_nat, in_reactant_idx; [apply Hi; eapply in_combine_l; eassumption|]. apply (H _ c); [assumption|].
      apply (Hsm _ c Ht E).
Qed.

Lemma in_map_rows s out : well_formed s -> get_rxns s = Ok out -> out = map (rxn_at s) (rows s).
Proof. intros W H. rewrite (get_rxns_rows s W) in H. injection H as <-. reflexivity. Qed.

Lemma selects_none {A} (P : A -> Prop) l : (forall x, In x l -> ~ P x) -> selects P l [].
Proof.
  induction l as [|x l IH]; intros H; [constructor|]. apply selects_out; [apply H; left; reflexivity|]. apply IH.
  intros y Hy. apply H. right. assumption.
Qed.

Theorem by_reactants_spec s rs fs : well_formed s -> get_rxns s = Ok rs ->
  (forall r, In r rs -> exists e c, takes_part r e c /\ (c < 0)%Q) ->
  (forall r e c, In r rs -> takes_part r e c -> (c < 1 # 1000000000000)%Q -> (c < 0)%Q) ->
  exists out, get_rxns_by_reactants s fs = Ok out /\ selects (only_reactants fs) rs out.
Proof.
  intros W Hg Hex Hsm. pose proof (in_map_rows s rs W Hg) as ->. unfold get_rxns_by_reactants. fold (reactant_idx fs s).
  assert (S : forall r, In r (rows s) -> (row_uses_only (reactant_idx fs s) (fst r) = true <-> only_reactants fs (rxn_at s r))).
  { intros r Hr. apply row_uses_only_spec; [assumption|assumption| |].
    - apply Hex. apply in_map. assumption.
    - intros e c. apply Hsm. apply in_map. assumption. }
  destruct (reactant_idx fs s) as [|i ridx] eqn:E.
  - exists []. split; [reflexivity|]. apply selects_none. intros x Hx. apply in_map_iff in Hx as (r & <- & Hr).
    intros HP. apply (S r Hr) in HP. unfold row_uses_only in HP. apply andb_true_iff in HP as [HP _].
    apply existsb_exists in HP as (j & _ & HP). discriminate.
  - rewrite get_rxns_select by assumption. eexists. split; [reflexivity|]. unfold keep_rows.
    apply (selects_map_filter (only_reactants fs) (rxn_at s) (fun r => row_uses_only (i :: ridx) (fst r))). exact S.
Qed.

Theorem by_product_spec s rs f p : well_formed s -> get_rxns s = Ok rs -> 0 < p ->
  (forall i e, nth_error (r_entries s) i = Some e -> form e = f <-> i = p) ->
  (forall r e c, In r rs -> takes_part r e c -> (- (1 # 1000000000000) < c)%Q -> (0 < c)%Q) ->
  exists out, get_rxns_by_product s f = Ok out /\ selects (forms_product f) rs out.
Proof.
  intros W Hg Hp Hf Hsm. pose proof (in_map_rows s rs W Hg) as ->. unfold get_rxns_by_product.
  assert (N : forall i, i < length (r_entries s) -> (form (nth i (r_entries s) dummy) = f <-> i = p)).
  { intros i Hi. apply Hf. apply nth_error_nth'. exact Hi. }
  destruct (positions (fun e => Nat.eqb (form e) f) (r_entries s) 0) as [|p' ps] eqn:E.
  - exists []. split; [reflexivity|]. apply selects_none. intros x Hx. apply in_map_iff in Hx as (r & <- & Hr).
    intros (e & c & Ht & Hc & He). destruct (takes_part_row s r e c Ht) as (i & Hin & ->).
    assert (Hi : In i (positions (fun e => Nat.eqb (form e) f) (r_entries s) 0)).
    { apply (in_positions _ _ _ _ dummy). rewrite Nat.sub_0_r. split; [|apply Nat.eqb_eq; exact He].
      assert (i < length (r_entries s)) by (apply (rows_range s r W Hr); eapply in_combine_l; eassumption). lia. }
    rewrite E in Hi. destruct Hi.
  - assert (Hp' : In p' (positions (fun e => Nat.eqb (form e) f) (r_entries s) 0)) by (rewrite E; left; reflexivity).
    apply (in_positions _ _ _ _ dummy) in Hp' as [Hl Hp']. rewrite Nat.sub_0_r in Hp'. apply Nat.eqb_eq in Hp'.
    apply N in Hp'; [|lia]. subst p'. destruct p as [|p0]; [lia|]. set (p := S p0) in *.
    rewrite get_rxns_select by assumption. eexists. split; [reflexivity|]. unfold keep_rows.
    apply (selects_map_filter (forms_product f) (rxn_at s) (fun r => row_forms p (fst r))).
    intros r Hr. destruct (rows_range s r W Hr) as [Hi _]. unfold row_forms. rewrite andb_true_iff, !existsb_exists. split.
    + intros [_ ([c i] & Hin & H)]. cbn [fst snd] in H. apply andb_true_iff in H as [Hc Hi2]. apply Qlt_bool_iff' in Hc.
      apply Nat.eqb_eq in Hi2. subst i. apply in_combine_swap in Hin. pose proof (row_takes_part s r p c Hin) as Ht.
      exists (nth p (r_entries s) dummy), c. split; [assumption|]. split.
      * apply (Hsm (rxn_at s r) (nth p (r_entries s) dummy) c); [apply in_map; assumption|assumption|assumption].
      * apply N; [lia|reflexivity].
    + intros (e & c & Ht & Hc & He). destruct (takes_part_row s r e c Ht) as (i & Hin & ->).
      apply N in He; [|apply Hi; eapply in_combine_l; eassumption]. subst i. split.
      * exists p. split; [eapply in_combine_l; eassumption|apply Nat.eqb_refl].
      * exists (c, p). split; [apply in_combine_swap; assumption|]. cbn [fst snd]. rewrite Nat.eqb_refl, andb_true_r.
        apply Qlt_bool_iff'. eapply Qlt_trans; [|exact Hc]. reflexivity.
Qed.
