(* filter_duplicates: the parallel version against the serial one (C22). *)
From Verif Require Import Prelude NumQ ListFacts ReactionBaseProofs UtilsModel UtilsSpec UtilsProofs RxnSetModel RxnSetSpec RxnSetBaseProofs RxnSetProofs
  RxnSetKeepProofs RxnSetRowProofs RxnSetDupProofs.
Open Scope nat_scope.

(* --- concatenated fallible results --- *)
Definition cat {A B} (f : A -> result (list B)) (l : list A) : result (list B) := bind (mapM f l) (fun ls => Ok (concat ls)).

Lemma cat_cons {A B} (f : A -> result (list B)) x l : cat f (x :: l) = bind (f x) (fun a => bind (cat f l) (fun b => Ok (a ++ b))).
Proof. unfold cat. simpl. destruct (f x); [|reflexivity]. simpl. destruct (mapM f l); reflexivity. Qed.

Lemma cat_app {A B} (f : A -> result (list B)) l m : cat f (l ++ m) = bind (cat f l) (fun a => bind (cat f m) (fun b => Ok (a ++ b))).
Proof.
  induction l as [|x l IH].
  - simpl. destruct (cat f m); reflexivity.
  - rewrite <- app_comm_cons, !cat_cons, IH. destruct (f x) as [a|]; [|reflexivity]. cbn [bind].
    destruct (cat f l) as [b|]; [|reflexivity]. cbn [bind]. destruct (cat f m) as [c|]; [|reflexivity]. cbn [bind].
    rewrite app_assoc. reflexivity.
Qed.

Lemma cat_concat {A B} (f : A -> result (list B)) ls : cat f (concat ls) = cat (cat f) ls.
Proof.
  induction ls as [|l ls IH]; [reflexivity|]. simpl. rewrite cat_app, cat_cons, IH. reflexivity.
Qed.

Lemma cat_nil {A B} (f : A -> result (list B)) l : (forall x, In x l -> f x = Ok []) -> cat f l = Ok [].
Proof.
  induction l as [|x l IH]; intros H; [reflexivity|]. rewrite cat_cons, (H x) by (left; reflexivity). cbn [bind].
  rewrite IH; [reflexivity|]. intros y Hy. apply H. right. exact Hy.
Qed.

Lemma cat_map {A A' B} (g : A' -> A) (f : A -> result (list B)) l : cat f (map g l) = cat (fun x => f (g x)) l.
Proof. induction l as [|x l IH]; [reflexivity|]. simpl. rewrite !cat_cons, IH. reflexivity. Qed.

Lemma cat_ext {A B} (f g : A -> result (list B)) l : (forall x, In x l -> f x = g x) -> cat f l = cat g l.
Proof. intros H. unfold cat. rewrite (mapM_ext f g l H). reflexivity. Qed.

Lemma cat_perm {A B} (f : A -> result (list B)) l l' : Permutation l l' -> agree (@Permutation B) (cat f l) (cat f l').
Proof.
  assert (T : forall x y z : result (list B), agree (@Permutation B) x y -> agree (@Permutation B) y z -> agree (@Permutation B) x z).
  { intros [x|] [y|] [z|]; simpl; try tauto. apply perm_trans. }
  induction 1 as [|x l l' P IH|x y l|l l' l'' P1 IH1 P2 IH2].
  - simpl. constructor.
  - rewrite !cat_cons. destruct (f x) as [a|]; simpl; [|exact I]. destruct (cat f l), (cat f l'); simpl in *; try tauto.
    apply Permutation_app_head. exact IH.
  - rewrite !cat_cons. destruct (f x) as [a|], (f y) as [b|]; simpl; try exact I; destruct (cat f l); simpl; try exact I.
    rewrite !app_assoc. apply Permutation_app_tail, Permutation_app_comm.
  - eapply T; eassumption.
Qed.

Lemma mapM_over {A B C} (g : A -> B) (f : B -> result C) l : mapM f (map g l) = mapM (fun x => f (g x)) l.
Proof. induction l as [|x l IH]; [reflexivity|]. simpl. rewrite IH. reflexivity. Qed.

Lemma mapM_agree {A B B'} (P : B -> B' -> Prop) (f : A -> result B) (g : A -> result B') l :
  (forall x, In x l -> agree P (f x) (g x)) -> agree (Forall2 P) (mapM f l) (mapM g l).
Proof.
  induction l as [|x l IH]; intros H; simpl; [constructor|].
  pose proof (H x (or_introl eq_refl)) as Hx. assert (Hl : forall y, In y l -> agree P (f y) (g y)) by (intros y Hy; apply H; right; exact Hy).
  specialize (IH Hl). destruct (f x), (g x); simpl in *; try tauto. destruct (mapM f l), (mapM g l); simpl in *; try tauto.
  constructor; assumption.
Qed.

Section Par.
Variable argsort : list Q -> list nat.
Variable shuffle : list nat -> list nat.

Lemma process_cat coeffs ens l : process_duplicates argsort coeffs ens l
  = cat (fun g => match g with None => Ok [] | Some g => process_group argsort coeffs ens g end) l.
Proof. reflexivity. Qed.

(* The chunks of one size do the same work as one call. *)
Lemma size_tasks_ok nc n gs : 1 <= nc -> exists ts, size_tasks nc n gs = Ok ts /\ (forall t, In t ts -> fst t = n)
  /\ forall coeffs ens, cat (fun t => process_duplicates argsort coeffs ens (snd t)) ts = process_duplicates argsort coeffs ens (map Some (multis gs)).
Proof.
  intros Hc. unfold size_tasks. destruct (multis gs) as [|m ms].
  { exists []. split; [reflexivity|]. split; [intros t []|]. reflexivity. }
  replace (Nat.eqb nc 0) with false by (symmetry; apply Nat.eqb_neq; lia).
  destruct (grouper_spec (map Some (m :: ms)) (length (m :: ms) / nc + 1) None) as (ch & k & E1 & E2 & _); [lia|].
  rewrite E1. cbn [bind]. exists (map (fun c => (n, c)) ch). split; [reflexivity|]. split.
  - intros t Ht. apply in_map_iff in Ht as (c & <- & _). reflexivity.
  - intros coeffs ens. rewrite cat_map. cbn [snd]. rewrite (cat_ext _ (cat (fun g => match g with None => Ok [] | Some g => process_group argsort coeffs ens g end)))
      by (intros; apply process_cat).
    rewrite <- cat_concat, E2, cat_app, process_cat.
    rewrite (cat_nil _ (repeat None k)) by (intros x Hx; apply repeat_spec in Hx; subst x; reflexivity).
    destruct (cat _ (map Some (m :: ms))); simpl; [|reflexivity]. rewrite app_nil_r. reflexivity.
Qed.

Section OneSet.
Variable s : rset.
Hypothesis W : well_formed s.
Variable ens : list (nat * nat).
Let rwn n := sorted_rows (vals n (r_indices s)) (vals n (r_coeffs s)).
Let gsn n := key_groups shuffle (map (map fst) (rwn n)).
Let work n t := process_duplicates argsort (map (map snd) (rwn n)) (ensured_of n ens) t.

Lemma cat_other {A B} (key : A -> nat) (F : A -> result (list B)) n ks (blk : nat -> list A) : NoDup ks -> In n ks ->
  (forall k x, In k ks -> In x (blk k) -> key x = k) ->
  cat (fun x => if Nat.eqb (key x) n then F x else Ok []) (flat_map blk ks) = cat F (blk n).
Proof.
  intros Hn Hin Hk. set (G := fun x => if Nat.eqb (key x) n then F x else Ok []).
  assert (Own : forall k, In k ks -> cat G (blk k) = if Nat.eqb k n then cat F (blk n) else Ok []).
  { intros k Hik. destruct (Nat.eqb_spec k n) as [->|Hne].
    - apply cat_ext. intros x Hx. unfold G. rewrite (Hk n x Hik Hx), Nat.eqb_refl. reflexivity.
    - apply cat_nil. intros x Hx. unfold G. rewrite (Hk k x Hik Hx). destruct (Nat.eqb_spec k n); [contradiction|reflexivity]. }
  rewrite flat_map_concat_map, cat_concat, cat_map.
  rewrite (cat_ext _ (fun k => if Nat.eqb k n then cat F (blk n) else Ok [])) by exact Own.
  clear Own Hk. induction ks as [|k ks IH]; [destruct Hin|]. inversion Hn as [|? ? H1 H2]; subst. rewrite cat_cons.
  destruct (Nat.eqb_spec k n) as [->|Hne].
  - rewrite (cat_nil _ ks).
    + destruct (cat F (blk n)); simpl; [|reflexivity]. rewrite app_nil_r. reflexivity.
    + intros j Hj. destruct (Nat.eqb_spec j n) as [->|]; [contradiction|reflexivity].
  - cbn [bind]. destruct Hin as [?|Hin]; [congruence|]. rewrite (IH H2 Hin). destruct (cat F (blk n)); reflexivity.
Qed.

Lemma serial_sizes (f : nat -> list (list nat) -> list (list Q) -> result (nat * list nat)) :
  mapM (fun kv => bind (dict_item (fst kv) (r_coeffs s)) (fun cs => f (fst kv) (snd kv) cs)) (r_indices s)
  = mapM (fun n => f n (vals n (r_indices s)) (vals n (r_coeffs s))) (sizes s).
Proof.
  pose proof W as (Wn & Wc & _). unfold sizes.
  assert (H : forall kv, In kv (r_indices s) -> bind (dict_item (fst kv) (r_coeffs s)) (fun cs => f (fst kv) (snd kv) cs)
     = f (fst kv) (vals (fst kv) (r_indices s)) (vals (fst kv) (r_coeffs s))).
  { intros [n is] Hin. cbn [fst snd]. assert (Hn : In n (map fst (r_indices s))) by (apply in_map_iff; exists (n, is); split; [reflexivity|exact Hin]).
    rewrite dict_item_vals by (rewrite Wc; exact Hn). cbn [bind]. rewrite (vals_in n is _ Wn Hin). reflexivity. }
  rewrite (mapM_ext _ _ _ H). generalize (r_indices s) at 2 4. intros l. induction l as [|kv l IH]; [reflexivity|]. simpl. rewrite IH. reflexivity.
Qed.

Lemma parallel_agrees cpus wait ensure : 2 <= cpus -> valid_schedule wait -> mapM (find_ensured s) ensure = Ok ens ->
  agree (Forall2 (fun a b : nat * list nat => fst a = fst b /\ Permutation (snd a) (snd b)))
    (filter_duplicates_idxs argsort shuffle s ensure)
    (filter_duplicates_parallel_idxs argsort shuffle cpus wait s ensure).
Proof.
  intros Hc Hw He. unfold filter_duplicates_idxs, filter_duplicates_parallel_idxs. rewrite He. cbn [bind].
  rewrite (serial_sizes (fun n is cs => bind (filter_size argsort shuffle is cs (ensured_of n ens)) (fun k => Ok (n, k)))).
  set (tasks := fun n => match size_tasks (cpus - 1) n (gsn n) with Ok ts => ts | Err _ => [] end).
  assert (Ht : forall n, size_tasks (cpus - 1) n (gsn n) = Ok (tasks n) /\ (forall t, In t (tasks n) -> fst t = n)
     /\ cat (fun t => work n (snd t)) (tasks n) = work n (map Some (multis (gsn n)))).
  { intros n. destruct (size_tasks_ok (cpus - 1) n (gsn n)) as (ts & E1 & E2 & E3); [lia|]. unfold tasks. rewrite E1.
    split; [reflexivity|]. split; [exact E2|]. apply E3. }
  set (mk := fun n => (n, singles (gsn n), map (fun t => (t, work n (snd t))) (tasks n))).
  match goal with |- context [bind (mapM ?f (r_indices s)) _] => assert (Ep : mapM f (r_indices s) = Ok (map mk (sizes s))) end.
  { pose proof W as (Wn & Wc & _). unfold sizes. rewrite map_map. apply mapM_ok. intros [n is] Hin. cbn [fst snd].
    assert (Hn : In n (map fst (r_indices s))) by (apply in_map_iff; exists (n, is); split; [reflexivity|exact Hin]).
    rewrite dict_item_vals by (rewrite Wc; exact Hn). cbn [bind]. rewrite <- (vals_in n is _ Wn Hin).
    fold (rwn n). fold (gsn n). rewrite (proj1 (Ht n)). reflexivity. }
  rewrite Ep. cbn [bind].
  destruct (to_iterator_spec wait (fun t => t) (flat_map snd (map mk (sizes s))) Hw) as [(out & Eo & _ & Po) _].
  rewrite map_id in Po. rewrite Eo. cbn [bind].
  rewrite mapM_over. apply mapM_agree. intros n Hn. cbn [fst snd mk].
  assert (Ec : cat (fun t => if Nat.eqb (fst (fst t)) n then snd t else Ok []) (flat_map snd (map mk (sizes s))) = work n (map Some (multis (gsn n)))).
  { rewrite <- (proj2 (proj2 (Ht n))). rewrite flat_map_concat_map, map_map, <- flat_map_concat_map.
    rewrite (cat_other (fun t : nat * list (option (list nat)) * result (list nat) => fst (fst t)) (fun t => snd t) n (sizes s) (fun x => snd (mk x))).
    - unfold mk. cbn [snd]. rewrite cat_map. reflexivity.
    - apply W.
    - exact Hn.
    - intros k x _ Hx. unfold mk in Hx. cbn [snd] in Hx. apply in_map_iff in Hx as (t & <- & Hx). cbn [fst]. apply (Ht k). exact Hx. }
  pose proof (cat_perm (fun t : nat * list (option (list nat)) * result (list nat) => if Nat.eqb (fst (fst t)) n then snd t else Ok []) _ _ (Permutation_sym Po)) as A.
  rewrite Ec in A. unfold filter_size. fold (rwn n). fold (gsn n). unfold work in A.
  unfold cat in A. destruct (process_duplicates argsort (map (map snd) (rwn n)) (ensured_of n ens) (map Some (multis (gsn n)))) as [a|]; cbn [bind].
  - destruct (mapM _ out) as [ls|]; cbn [bind agree] in *; [|contradiction]. split; [reflexivity|]. apply Permutation_app_head. exact A.
  - destruct (mapM _ out) as [ls|]; cbn [bind agree] in *; [contradiction|exact I].
Qed.
End OneSet.

(* --- selecting rows by permuted indices --- *)
Lemma take_fails {A} (l : list A) ks k : In k ks -> ~ k < length l -> exists e, take l ks = Err e.
Proof.
  intros H1 H2. apply (mapM_fails _ ks k IndexError H1). unfold index. rewrite (proj2 (nth_error_None l k)); [reflexivity|lia].
Qed.

Lemma set_by_indices_fails s kf n k : well_formed s -> In n (sizes s) -> In k (kf n) -> ~ k < count s n ->
  exists e, get_rxn_set_by_indices s (map (fun n => (n, kf n)) (sizes s)) = Err e.
Proof.
  intros W Hn Hk Hlt. unfold get_rxn_set_by_indices.
  destruct (take_fails (vals n (r_indices s)) (kf n) k Hk Hlt) as (e & He).
  match goal with |- context [bind (mapM ?f ?l) _] =>
    destruct (mapM_fails f l (n, kf n) e) as (e' & E') end.
  - apply in_map_iff. exists n. split; [reflexivity|exact Hn].
  - cbn [fst snd]. rewrite dict_item_vals by exact Hn. cbn [bind]. rewrite He. reflexivity.
  - exists e'. rewrite E'. reflexivity.
Qed.

Lemma keys_fun (l : list (nat * list nat)) ks : NoDup ks -> map fst l = ks -> l = map (fun n => (n, vals n l)) ks.
Proof.
  intros Hn <-. rewrite map_map. transitivity (map (fun x => x) l); [symmetry; apply map_id|]. apply map_ext_in.
  intros [n k] Hin. cbn [fst]. rewrite (vals_in n k l Hn Hin). reflexivity.
Qed.

Lemma set_by_indices_perm s la lb : well_formed s -> map fst la = sizes s ->
  Forall2 (fun a b : nat * list nat => fst a = fst b /\ Permutation (snd a) (snd b)) la lb ->
  agree (fun a b => exists ra rb, get_rxns a = Ok ra /\ get_rxns b = Ok rb /\ Permutation ra rb)
    (get_rxn_set_by_indices s la) (get_rxn_set_by_indices s lb).
Proof.
  intros W Hk F. assert (Hk2 : map fst lb = sizes s).
  { rewrite <- Hk. clear -F. induction F as [|a b la lb [E _] F IH]; [reflexivity|]. simpl. rewrite IH, E. reflexivity. }
  assert (P : forall n, Permutation (vals n la) (vals n lb)).
  { intros n. clear -F. unfold vals. induction F as [|[n1 a] [n2 b] la lb [E P] F IH]; [apply Permutation_refl|]. simpl in *. subst n2.
    destruct (Nat.eqb n n1); [exact P|exact IH]. }
  assert (Ns : NoDup (sizes s)) by apply W.
  rewrite (keys_fun la (sizes s) Ns Hk), (keys_fun lb (sizes s) Ns Hk2).
  set (fa := fun n => vals n la). set (fb := fun n => vals n lb). fold fa in P. fold fb in P.
  set (bad := flat_map (fun n => filter (fun k => negb (Nat.ltb k (count s n))) (fa n)) (sizes s)).
  destruct bad as [|k0 bad'] eqn:Eb.
  - assert (G : forall n k, In n (sizes s) -> In k (fa n) -> k < count s n).
    { intros n k Hn Hin. destruct (Nat.ltb_spec k (count s n)) as [L|L]; [exact L|exfalso].
      assert (In k bad) as Hb. { unfold bad. apply in_flat_map. exists n. split; [exact Hn|]. apply filter_In. split; [exact Hin|].
        apply negb_true_iff, Nat.ltb_ge. exact L. }
      rewrite Eb in Hb. destruct Hb. }
    destruct (set_by_indices s fa W G) as (sa & A1 & _ & _ & _ & A2).
    destruct (set_by_indices s fb W) as (sb & B1 & _ & _ & _ & B2).
    { intros n k Hn Hin. apply (G n k Hn). apply (Permutation_in _ (Permutation_sym (P n))). exact Hin. }
    unfold fa, fb in *. rewrite A1, B1. simpl. eexists. eexists. split; [exact A2|]. split; [exact B2|]. apply Permutation_map.
    unfold all_ni. clear -P. induction (sizes s) as [|n l IH]; simpl; [constructor|]. apply Permutation_app; [|exact IH].
    apply Permutation_map. apply P.
  - assert (Hb : In k0 bad) by (rewrite Eb; left; reflexivity). unfold bad in Hb. apply in_flat_map in Hb as (n & Hn & Hb).
    apply filter_In in Hb as [Hb1 Hb2]. apply negb_true_iff, Nat.ltb_ge in Hb2.
    destruct (set_by_indices_fails s fa n k0 W Hn Hb1) as (e1 & E1); [lia|].
    destruct (set_by_indices_fails s fb n k0 W Hn) as (e2 & E2); [apply (Permutation_in _ (P n)); exact Hb1|lia|].
    unfold fa, fb in *. rewrite E1, E2. exact I.
Qed.

Theorem parallel_spec s cpus wait ensure : well_formed s -> 2 <= cpus -> valid_schedule wait ->
  agree (fun a b => exists ra rb, get_rxns a = Ok ra /\ get_rxns b = Ok rb /\ Permutation ra rb)
    (filter_duplicates argsort shuffle s ensure) (filter_duplicates_parallel argsort shuffle cpus wait s ensure).
Proof.
  intros W Hc Hw. unfold filter_duplicates, filter_duplicates_parallel.
  destruct (mapM (find_ensured s) ensure) as [ens|e] eqn:He.
  - pose proof (parallel_agrees s W ens cpus wait ensure Hc Hw He) as A.
    assert (K : forall l, filter_duplicates_idxs argsort shuffle s ensure = Ok l -> map fst l = sizes s).
    { intros l Hl. unfold filter_duplicates_idxs in Hl. rewrite He in Hl. cbn [bind] in Hl. apply mapM_Forall2 in Hl. unfold sizes.
      clear -Hl. induction Hl as [|kv y l l' H Hl IH]; [reflexivity|]. simpl. rewrite IH. f_equal.
      destruct (dict_item (fst kv) (r_coeffs s)); [|discriminate]. cbn [bind] in H.
      destruct (filter_size _ _ _ _ _); [|discriminate]. cbn [bind] in H. injection H as <-. reflexivity. }
    destruct (filter_duplicates_idxs argsort shuffle s ensure) as [la|]; cbn [bind];
      destruct (filter_duplicates_parallel_idxs argsort shuffle cpus wait s ensure) as [lb|]; cbn [agree] in A; try contradiction; cbn [bind].
    + apply set_by_indices_perm; [exact W|apply K; reflexivity|exact A].
    + exact I.
  - unfold filter_duplicates_idxs, filter_duplicates_parallel_idxs. rewrite He. exact I.
Qed.
End Par.

(* --- reactions outside the set (C23) --- *)
Lemma mapM_first_err {A B} (f : A -> result B) l1 x l2 e : (forall y, In y l1 -> exists b, f y = Ok b) -> f x = Err e ->
  mapM f (l1 ++ x :: l2) = Err e.
Proof.
  intros H Hx. induction l1 as [|y l1 IH]; simpl; [rewrite Hx; reflexivity|].
  destruct (H y (or_introl eq_refl)) as (b & ->). simpl. rewrite IH; [reflexivity|]. intros z Hz. apply H. right. exact Hz.
Qed.

Lemma entry_index_missing es e : ~ In e es -> entry_index es e = Err ValueError.
Proof.
  intros H. unfold entry_index. destruct (positions _ es 0) as [|i l] eqn:E; [reflexivity|exfalso].
  assert (Hi : In i (positions (fun x => if sentry_eq_dec x e then true else false) es 0)) by (rewrite E; left; reflexivity).
  apply (in_positions _ _ _ _ dummy) in Hi as [H1 H2]. rewrite Nat.sub_0_r in H2.
  destruct (sentry_eq_dec (nth i es dummy) e) as [<-|]; [|discriminate]. apply H. apply nth_In. lia.
Qed.

Lemma match_cons {A B} (l : list A) (x y : B) : l <> [] -> match l with [] => x | _ :: _ => y end = y.
Proof. destruct l; [contradiction|reflexivity]. Qed.

Lemma find_ensured_missing s rs a : well_formed s -> get_rxns s = Ok rs ->
  (forall r, In r rs -> ~ same_rxn r a) ->
  (exists e, In e (x_entries a) /\ ~ In e (r_entries s)) \/ (exists r, In r rs /\ length (x_entries r) = length (x_entries a)) ->
  x_entries a <> [] -> find_ensured s a = Err ValueError.
Proof.
  intros W Hg Hno Hsz Hne. pose proof (in_map_rows s rs W Hg) as Hrs. unfold find_ensured.
  destruct (forallb (fun e => if in_dec sentry_eq_dec e (r_entries s) then true else false) (x_entries a)) eqn:Eall.
  - rewrite forallb_forall in Eall. assert (Hin : forall e, In e (x_entries a) -> In e (r_entries s)).
    { intros e He. specialize (Eall e He). destruct (in_dec sentry_eq_dec e (r_entries s)); [assumption|discriminate]. }
    rewrite (mapM_ok _ (pos_of (r_entries s))) by (intros e He; apply entry_index_ok, Hin; exact He). cbn [bind].
    destruct Hsz as [(e & H1 & H2)|(r & Hr & Hl)]; [destruct (H2 (Hin e H1))|].
    set (idx := map (pos_of (r_entries s)) (x_entries a)).
    assert (Lidx : length idx = length (x_entries a)) by apply map_length.
    assert (Hi0 : idx <> []) by (intros H; rewrite H in Lidx; destruct (x_entries a); [contradiction|discriminate]).
    rewrite match_cons by exact Hi0. rewrite Lidx.
    assert (Hsize : In (length (x_entries a)) (sizes s)).
    { rewrite Hrs in Hr. apply in_map_iff in Hr as (w & <- & Hw). rewrite <- Hl. apply in_rows in Hw as (n & Hn & Hw).
      destruct (wf_size s n W Hn) as (L1 & L2 & L3 & L4). unfold size_rows in Hw.
      destruct w as [[wi wc] wd]. unfold zip3 in Hw. apply in_combine_l, in_combine_l in Hw.
      unfold rxn_at. cbn [x_entries fst]. rewrite map_length, (proj1 (L3 wi Hw)). exact Hn. }
    pose proof W as (_ & Wc & _). rewrite dict_item_vals by exact Hsize. cbn [bind].
    rewrite dict_item_vals by (rewrite Wc; exact Hsize). cbn [bind].
    set (n := length (x_entries a)) in *. destruct (wf_size s n W Hsize) as (L1 & L2 & L3 & L4).
    destruct (positions (same_row idx (x_coeffs a)) (combine (vals n (r_indices s)) (vals n (r_coeffs s))) 0) as [|i l] eqn:E; [reflexivity|exfalso].
    assert (Hi : In i (positions (same_row idx (x_coeffs a)) (combine (vals n (r_indices s)) (vals n (r_coeffs s))) 0)) by (rewrite E; left; reflexivity).
    apply (in_positions _ _ _ _ ([], [])) in Hi as [H1 H2]. rewrite Nat.sub_0_r in H2.
    rewrite combine_length, L1, Nat.min_id in H1.
    rewrite combine_nth in H2 by (symmetry; exact L1).
    assert (Hi : i < count s n) by (unfold count; lia).
    pose proof (row_ni_eq s n i W Hsize Hi) as Er.
    assert (Hrow : In (rxn_at s (row_ni s (n, i))) rs).
    { rewrite Hrs. apply in_map. rewrite Er. apply in_rows. exists n. split; [exact Hsize|]. unfold size_rows, zip3.
      rewrite <- !combine_nth by (rewrite ?combine_length; lia). apply nth_In. rewrite !combine_length. unfold count in Hi. lia. }
    apply (Hno _ Hrow). destruct (L3 (nth i (vals n (r_indices s)) [])) as [A B]; [apply nth_In; exact Hi|].
    change (same_row idx (x_coeffs a) (fst (nth i (vals n (r_indices s)) [], nth i (vals n (r_coeffs s)) [], 0)) = true) in H2.
    apply same_row_iff in H2; [|cbn [fst snd]; rewrite A; symmetry; apply L4, nth_In; rewrite L1; exact Hi].
    cbn [fst snd] in H2. destruct H2 as [H2 H3]. rewrite Er. split; [|exact H3].
    unfold rxn_at. cbn [x_entries fst]. rewrite H2. unfold idx. rewrite map_map.
    transitivity (map (fun e => e) (x_entries a)); [|apply map_id]. apply map_ext_in. intros e He. apply pos_of_spec. apply Hin. exact He.
  - apply not_true_iff_false in Eall. 
    assert (G : exists l1 e l2, x_entries a = l1 ++ e :: l2 /\ (forall y, In y l1 -> In y (r_entries s)) /\ ~ In e (r_entries s)).
    { clear -Eall. induction (x_entries a) as [|e l IH]; [simpl in Eall; congruence|]. simpl in Eall.
      destruct (in_dec sentry_eq_dec e (r_entries s)) as [H|H].
      - destruct (IH Eall) as (l1 & e' & l2 & -> & G1 & G2). exists (e :: l1), e', l2. split; [reflexivity|]. split; [|exact G2].
        intros y [<-|Hy]; [exact H|apply G1; exact Hy].
      - exists [], e, l. split; [reflexivity|]. split; [intros y []|exact H]. }
    destruct G as (l1 & e & l2 & -> & G1 & G2). rewrite (mapM_first_err _ l1 e l2 ValueError); [reflexivity| |apply entry_index_missing; exact G2].
    intros y Hy. eexists. apply entry_index_ok. apply G1. exact Hy.
Qed.

Theorem filter_missing argsort shuffle s rs l1 a l2 : well_formed s -> NoDup (r_entries s) -> get_rxns s = Ok rs ->
  (forall b, In b l1 -> x_entries b <> [] /\ exists r, In r rs /\ same_rxn r b) ->
  (forall r, In r rs -> ~ same_rxn r a) -> x_entries a <> [] ->
  (exists e, In e (x_entries a) /\ ~ In e (r_entries s)) \/ (exists r, In r rs /\ length (x_entries r) = length (x_entries a)) ->
  filter_duplicates argsort shuffle s (l1 ++ a :: l2) = Err ValueError.
Proof.
  intros W Nd Hg Hl Hno Hne Hsz. unfold filter_duplicates, filter_duplicates_idxs.
  rewrite (mapM_first_err _ l1 a l2 ValueError); [reflexivity| |apply (find_ensured_missing s rs); assumption].
  intros b Hb. destruct (Hl b Hb) as (Hbn & r & Hr & Hs). pose proof (in_map_rows s rs W Hg) as Hrs. rewrite Hrs in Hr.
  apply in_map_iff in Hr as (w & <- & Hw). apply in_rows in Hw as (n & Hn & Hw).
  destruct (wf_size s n W Hn) as (L1 & L2 & L3 & L4). unfold size_rows, zip3 in Hw.
  apply (In_nth _ _ ([], [], 0)) in Hw as (i & Hi & Hw). rewrite !combine_length, L1, L2, !Nat.min_id in Hi.
  rewrite !combine_nth in Hw by (rewrite ?combine_length; lia).
  assert (Hc : i < count s n) by exact Hi.
  destruct (find_ensured_ok s b n i W Nd Hn Hc Hbn) as (j & E & _).
  - rewrite row_ni_eq by assumption. rewrite Hw. exact Hs.
  - exists (n, j). exact E.
Qed.
