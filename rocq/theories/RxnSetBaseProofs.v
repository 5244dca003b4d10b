(* Reaction sets as lists of rows. *)
From Verif Require Import Prelude NumQ ListFacts ReactionModel ReactionBaseProofs ChemTable RxnSetModel RxnSetSpec.
Open Scope nat_scope.

Notation row := (list nat * list Q * nat)%type.

Lemma mapM_ok {A B} (f : A -> result B) (g : A -> B) l :
  (forall x, In x l -> f x = Ok (g x)) -> mapM f l = Ok (map g l).
Proof.
  induction l as [|x l IH]; intros H; [reflexivity|]. simpl.
  rewrite (H x) by (left; reflexivity). rewrite IH; [reflexivity|]. intros y Hy. apply H. right. assumption.
Qed.

Lemma mapM_Forall2 {A B} (f : A -> result B) l out : mapM f l = Ok out <-> Forall2 (fun x y => f x = Ok y) l out.
Proof.
  revert out. induction l as [|x l IH]; intros out; simpl.
  - split; intros H; inversion H; [constructor|reflexivity].
  - split.
    + destruct (f x) as [y|] eqn:E; [|discriminate]. destruct (mapM f l) as [ys|] eqn:E2; [|discriminate].
      intros H. injection H as <-. constructor; [assumption|]. apply IH. reflexivity.
    + intros H. inversion H as [|? y ? ys H1 H2]; subst. rewrite H1. apply IH in H2. rewrite H2. reflexivity.
Qed.

Lemma mapM_err {A B} (f : A -> result B) l e : mapM f l = Err e -> exists x, In x l /\ f x = Err e.
Proof.
  induction l as [|x l IH]; simpl; [discriminate|]. destruct (f x) as [y|e'] eqn:E.
  - destruct (mapM f l) as [ys|e'']; [discriminate|]. intros H. destruct (IH H) as (z & Hz & Hf).
    exists z. split; [right; assumption|assumption].
  - intros H. injection H as <-. exists x. split; [left; reflexivity|assumption].
Qed.

Lemma mapM_fails {A B} (f : A -> result B) l x e : In x l -> f x = Err e -> exists e', mapM f l = Err e'.
Proof.
  intros Hin Hf. destruct (mapM f l) as [out|e'] eqn:E; [|exists e'; reflexivity].
  apply mapM_Forall2 in E. destruct (Forall2_In_l _ _ _ _ E Hin) as (y & _ & Hy). congruence.
Qed.

Lemma mapM_ext {A B} (f g : A -> result B) l : (forall x, In x l -> f x = g x) -> mapM f l = mapM g l.
Proof.
  induction l as [|x l IH]; intros H; [reflexivity|]. simpl. rewrite (H x) by (left; reflexivity).
  rewrite IH; [reflexivity|]. intros y Hy. apply H. right. assumption.
Qed.

(* --- lookups --- *)
Definition vals {V} (k : nat) (d : list (nat * list V)) : list V :=
  match dict_get k d with Some l => l | None => [] end.

Lemma dict_get_In {V} k (v : V) d : dict_get k d = Some v -> In (k, v) d.
Proof.
  induction d as [|[k' v'] d IH]; simpl; [discriminate|]. destruct (Nat.eqb_spec k k') as [->|].
  - intros H. injection H as ->. left. reflexivity.
  - intros H. right. apply IH. assumption.
Qed.

Lemma dict_get_nodup {V} k (v : V) d : NoDup (map fst d) -> In (k, v) d -> dict_get k d = Some v.
Proof.
  induction d as [|[k' v'] d IH]; simpl; intros Hn Hin; [destruct Hin|].
  inversion Hn as [|? ? H1 H2]; subst. destruct Hin as [H|H].
  - injection H as -> ->. rewrite Nat.eqb_refl. reflexivity.
  - destruct (Nat.eqb_spec k k') as [->|]; [|apply IH; assumption].
    exfalso. apply H1. apply in_map_iff. exists (k', v). split; [reflexivity|assumption].
Qed.

Lemma dict_get_key {V} k (d : list (nat * V)) : In k (map fst d) -> exists v, dict_get k d = Some v.
Proof.
  induction d as [|[k' v'] d IH]; simpl; intros Hin; [destruct Hin|].
  destruct (Nat.eqb_spec k k') as [->|]; [exists v'; reflexivity|].
  destruct Hin as [H|H]; [congruence|apply IH; assumption].
Qed.

Lemma dict_get_nokey {V} k (d : list (nat * V)) : ~ In k (map fst d) -> dict_get k d = None.
Proof.
  induction d as [|[k' v'] d IH]; simpl; intros H; [reflexivity|].
  destruct (Nat.eqb_spec k k') as [->|]; [exfalso; apply H; left; reflexivity|]. apply IH. tauto.
Qed.

Lemma vals_in {V} k (l : list V) d : NoDup (map fst d) -> In (k, l) d -> vals k d = l.
Proof. intros H1 H2. unfold vals. rewrite (dict_get_nodup _ _ _ H1 H2). reflexivity. Qed.

Lemma dict_item_vals {V} k (d : list (nat * list V)) : In k (map fst d) -> dict_item k d = Ok (vals k d).
Proof. intros H. destruct (dict_get_key _ _ H) as (v & Hv). unfold dict_item, vals. rewrite Hv. reflexivity. Qed.

Lemma vals_In {V} k (d : list (nat * list V)) : In k (map fst d) -> In (k, vals k d) d.
Proof. intros H. destruct (dict_get_key _ _ H) as (v & Hv). unfold vals. rewrite Hv. apply dict_get_In. assumption. Qed.

(* --- rows --- *)
Definition size_rows (s : rset) (n : nat) : list row := zip3 (vals n (r_indices s)) (vals n (r_coeffs s)) (vals n (r_data s)).
Definition sizes (s : rset) : list nat := map fst (r_indices s).
Definition rows (s : rset) : list row := flat_map (size_rows s) (sizes s).
Definition dummy : sentry := {| uid := 0; comp := 0; form := 0 |}.
Definition rxn_at (s : rset) (r : row) : srxn :=
  {| x_entries := map (fun i => nth i (r_entries s) dummy) (fst (fst r)); x_coeffs := snd (fst r); x_data := snd r;
     x_mu := mu_dict s |}.

Lemma wf_size s n : well_formed s -> In n (sizes s) ->
  length (vals n (r_coeffs s)) = length (vals n (r_indices s))
  /\ length (vals n (r_data s)) = length (vals n (r_indices s))
  /\ (forall idx, In idx (vals n (r_indices s)) -> length idx = n /\ forall i, In i idx -> i < length (r_entries s))
  /\ (forall c, In c (vals n (r_coeffs s)) -> length c = n).
Proof.
  intros (Hn & Hc & Hd & H) Hin. apply (H n); apply vals_In; [assumption|rewrite Hc; assumption|rewrite Hd; assumption].
Qed.

Lemma index_nth {A} (l : list A) i d : i < length l -> index l i = Ok (nth i l d).
Proof. intros H. unfold index. rewrite (nth_error_nth' l d H). reflexivity. Qed.

Lemma in_zip3 {A B D} (a : list A) (b : list B) (c : list D) x y z : In (x, y, z) (zip3 a b c) -> In x a /\ In y b /\ In z c.
Proof.
  unfold zip3. intros H. pose proof (in_combine_l _ _ _ _ H) as H1. pose proof (in_combine_r _ _ _ _ H) as H2.
  split; [eapply in_combine_l; eassumption|split; [eapply in_combine_r; eassumption|assumption]].
Qed.

Lemma rxn_of_row_ok s r : (forall i, In i (fst (fst r)) -> i < length (r_entries s)) -> rxn_of_row s r = Ok (rxn_at s r).
Proof.
  destruct r as [[idx co] da]. simpl. intros H.
  rewrite (mapM_ok _ (fun i => nth i (r_entries s) dummy)); [reflexivity|].
  intros i Hi. apply index_nth. apply H. assumption.
Qed.

Lemma size_rows_range s n r : well_formed s -> In n (sizes s) -> In r (size_rows s n) ->
  (forall i, In i (fst (fst r)) -> i < length (r_entries s)) /\ length (fst (fst r)) = n /\ length (snd (fst r)) = n.
Proof.
  intros W Hn Hr. destruct r as [[idx co] da]. simpl. destruct (wf_size s n W Hn) as (H1 & H2 & H3 & H4).
  destruct (in_zip3 _ _ _ _ _ _ Hr) as (Hi & Hc & _). destruct (H3 _ Hi) as [L R]. split; [exact R|]. split; [exact L|].
  apply H4. assumption.
Qed.

Lemma rows_of_size_ok s n : well_formed s -> In n (sizes s) -> rows_of_size s n = Ok (size_rows s n).
Proof.
  intros (Hn & Hc & Hd & _) Hin. unfold rows_of_size.
  rewrite (dict_item_vals n (r_indices s)) by assumption. cbn [bind].
  rewrite (dict_item_vals n (r_coeffs s)) by (rewrite Hc; assumption). cbn [bind].
  rewrite (dict_item_vals n (r_data s)) by (rewrite Hd; assumption). reflexivity.
Qed.

Lemma get_rxns_rows s : well_formed s -> get_rxns s = Ok (map (rxn_at s) (rows s)).
Proof.
  intros W. unfold get_rxns.
  rewrite (mapM_ok _ (fun n => map (rxn_at s) (size_rows s n))).
  - simpl. f_equal. unfold rows, sizes. rewrite flat_map_concat_map, concat_map, !map_map. reflexivity.
  - intros n Hn. rewrite rows_of_size_ok by assumption. simpl. apply mapM_ok.
    intros r Hr. apply rxn_of_row_ok. apply (size_rows_range s n r W Hn Hr).
Qed.

(* --- selecting rows --- *)
Fixpoint pick {A} (p : list bool) (l : list A) : list A :=
  match p, l with b :: p', x :: l' => if b then x :: pick p' l' else pick p' l' | _, _ => [] end.

Lemma positions_ge {A} (p : A -> bool) l k i : In i (positions p l k) -> k <= i < k + length l.
Proof.
  revert k. induction l as [|x l IH]; intros k; simpl; [intros []|].
  destruct (p x); [intros [<-|H]; [lia|]|intros H]; apply IH in H; lia.
Qed.

Lemma take_positions {A B} (p : A -> bool) (l : list A) (m : list B) (pre : list B) :
  length m = length l -> take (pre ++ m) (positions p l (length pre)) = Ok (pick (map p l) m).
Proof.
  revert m pre. induction l as [|x l IH]; intros m pre Hl; destruct m as [|y m]; try discriminate Hl; [reflexivity|].
  simpl in Hl. injection Hl as Hl. simpl.
  specialize (IH m (pre ++ [y]) Hl). rewrite <- app_assoc, app_length, Nat.add_comm in IH. simpl in IH.
  destruct (p x); [|exact IH]. unfold take in *. simpl. unfold index at 1.
  rewrite nth_error_app2, Nat.sub_diag by lia. simpl. rewrite IH. reflexivity.
Qed.

Lemma take_positions0 {A B} (p : A -> bool) (l : list A) (m : list B) :
  length m = length l -> take m (positions p l 0) = Ok (pick (map p l) m).
Proof. intros H. apply (take_positions p l m [] H). Qed.

Lemma zip3_pick {A B D} (q : A * B -> bool) (a : list A) (b : list B) (d : list D) :
  length b = length a -> length d = length a ->
  let p := map q (combine a b) in
  zip3 (pick p a) (pick p b) (pick p d) = filter (fun r => q (fst r)) (zip3 a b d).
Proof.
  revert b d. induction a as [|x a IH]; intros [|y b] [|z d] H1 H2; try discriminate; [reflexivity|].
  simpl in H1, H2. injection H1 as H1. injection H2 as H2. specialize (IH b d H1 H2). cbv zeta in IH.
  cbv zeta. unfold zip3 in *. simpl. destruct (q (x, y)); simpl; rewrite IH; reflexivity.
Qed.

Lemma take_length {A} (l : list A) idxs out : take l idxs = Ok out -> length out = length idxs.
Proof. intros H. apply mapM_Forall2 in H. apply Forall2_length in H. symmetry. assumption. Qed.

Definition keep_rows (s : rset) (q : list nat * list Q -> bool) : list row := filter (fun r => q (fst r)) (rows s).

Lemma select_rows_ok s q : well_formed s ->
  select_rows s q = Ok (map (fun n => (n, positions q (combine (vals n (r_indices s)) (vals n (r_coeffs s))) 0)) (sizes s)).
Proof.
  intros W. destruct W as (Hn & Hc & Hd & H). unfold select_rows, sizes. rewrite map_map.
  apply mapM_ok. intros [n is] Hin. cbn [fst snd].
  assert (Hk : In n (map fst (r_indices s))) by (apply in_map_iff; exists (n, is); split; [reflexivity|assumption]).
  rewrite dict_item_vals by (rewrite Hc; assumption). cbn [bind]. rewrite (vals_in n is _ Hn Hin). reflexivity.
Qed.

Lemma flat_map_filter {A B} (q : B -> bool) (f : A -> list B) l : filter q (flat_map f l) = flat_map (fun x => filter q (f x)) l.
Proof. induction l as [|x l IH]; simpl; [reflexivity|]. rewrite filter_app, IH. reflexivity. Qed.

Lemma rows_at_positions s q n : well_formed s -> In n (sizes s) ->
  rows_at s n (positions q (combine (vals n (r_indices s)) (vals n (r_coeffs s))) 0)
  = Ok (filter (fun r => q (fst r)) (size_rows s n)).
Proof.
  intros W Hn. pose proof (wf_size s n W Hn) as (H1 & H2 & _). destruct W as (Hnd & Hc & Hd & H).
  unfold rows_at. rewrite dict_item_vals by assumption. cbn [bind]. rewrite dict_item_vals by (rewrite Hc; assumption).
  cbn [bind]. rewrite dict_item_vals by (rewrite Hd; assumption). cbn [bind].
  assert (L : length (combine (vals n (r_indices s)) (vals n (r_coeffs s))) = length (vals n (r_indices s)))
    by (rewrite combine_length; lia).
  rewrite !take_positions0 by lia. cbn [bind]. f_equal. apply zip3_pick; lia.
Qed.

Lemma get_rxns_select s q : well_formed s ->
  bind (select_rows s q) (get_rxns_by_indices s) = Ok (map (rxn_at s) (keep_rows s q)).
Proof.
  intros W. rewrite select_rows_ok by assumption. cbn [bind]. unfold get_rxns_by_indices.
  set (F := fun kv => bind (rows_at s (fst kv) (snd kv)) (mapM (rxn_of_row s))).
  rewrite (mapM_ok F (fun kv => map (rxn_at s) (filter (fun r => q (fst r)) (size_rows s (fst kv))))).
  - cbn [bind]. f_equal. unfold keep_rows, rows. rewrite flat_map_filter, flat_map_concat_map, concat_map, !map_map. reflexivity.
  - intros kv Hkv. apply in_map_iff in Hkv as (n & <- & Hn). unfold F. cbn [fst snd].
    rewrite rows_at_positions by assumption. cbn [bind]. apply mapM_ok. intros r Hr. apply filter_In in Hr as [Hr _].
    apply rxn_of_row_ok. apply (size_rows_range s n r W Hn Hr).
Qed.

Lemma selects_map_filter {A B} (P : B -> Prop) (f : A -> B) (q : A -> bool) l :
  (forall x, In x l -> (q x = true <-> P (f x))) -> selects P (map f l) (map f (filter q l)).
Proof.
  induction l as [|x l IH]; intros H; simpl; [constructor|].
  assert (Hl : forall y, In y l -> (q y = true <-> P (f y))) by (intros y Hy; apply H; right; assumption).
  specialize (IH Hl). pose proof (H x (or_introl eq_refl)) as Hx. destruct (q x) eqn:E; simpl.
  - constructor; [apply Hx; reflexivity|assumption].
  - constructor; [|assumption]. intros HP. apply Hx in HP. discriminate.
Qed.

Lemma in_rows s r : In r (rows s) <-> exists n, In n (sizes s) /\ In r (size_rows s n).
Proof. unfold rows. rewrite in_flat_map. reflexivity. Qed.

Lemma rows_range s r : well_formed s -> In r (rows s) ->
  (forall i, In i (fst (fst r)) -> i < length (r_entries s)) /\ length (snd (fst r)) = length (fst (fst r)).
Proof.
  intros W H. apply in_rows in H as (n & Hn & Hr). destruct (size_rows_range s n r W Hn Hr) as (H1 & H2 & H3).
  split; [assumption|congruence].
Qed.
