(* is_identity. *)
From Coq Require Import Lqa.
From Verif Require Import Prelude NumQ SumQ ListFacts ReactionModel ReactionSpec ReactionBaseProofs ReactionEqProofs IdentSpec.
Open Scope nat_scope.

Lemma side_keys (f : Q -> bool) (b : list (nat * Q)) c : In c (map fst (dict_of (filter (fun kv => f (snd kv)) b))) <-> exists k, In (c, k) b /\ f k = true.
Proof.
  rewrite (proj1 (proj2 (dict_of_keys _)) c). rewrite in_map_iff. split.
  - intros ([c' k] & <- & H). apply filter_In in H as [H1 H2]. exists k. split; assumption.
  - intros (k & H1 & H2). exists (c, k). split; [reflexivity|]. apply filter_In. split; assumption.
Qed.
Lemma sum_pos (f : Q -> bool) (g : Q -> Q) l c : (forall k, f k = true -> 0 < g k)%Q ->
  (0 < sumQ (fun ck => if Nat.eqb (fst ck) c && f (snd ck) then g (snd ck) else 0) l <-> exists k, In (c, k) l /\ f k = true)%Q.
Proof.
  intros G. assert (P : forall l, (0 <= sumQ (fun ck => if Nat.eqb (fst ck) c && f (snd ck) then g (snd ck) else 0) l)%Q).
  { clear l. induction l as [|[a k] l IH]; [discriminate|]. rewrite sumQ_cons. cbn [fst snd]. destruct (Nat.eqb a c && f k) eqn:E; [|lra].
    apply andb_true_iff in E as [_ E]. specialize (G k E). lra. }
  induction l as [|[a k] l IH]; [split; [intros H; discriminate|intros (k & [] & _)]|]. rewrite sumQ_cons. cbn [fst snd]. destruct (Nat.eqb a c && f k) eqn:E.
  - apply andb_true_iff in E as [E1 E2]. apply Nat.eqb_eq in E1 as ->. split; [intros _; exists k; split; [left; reflexivity|exact E2]|].
    intros _. specialize (G k E2). specialize (P l). lra.
  - assert (Q0 : (0 < 0 + sumQ (fun ck => if Nat.eqb (fst ck) c && f (snd ck) then g (snd ck) else 0) l <-> 0 < sumQ (fun ck => if Nat.eqb (fst ck) c && f (snd ck) then g (snd ck) else 0) l)%Q) by (split; intros; lra).
    rewrite Q0, IH. split; intros (k' & H & F); [exists k'; split; [right; exact H|exact F]|]. exists k'. split; [|exact F]. destruct H as [H|H]; [|exact H].
    injection H as -> ->. rewrite Nat.eqb_refl, F in E. discriminate.
Qed.
Lemma sum_one (f : Q -> bool) (g : Q -> Q) l c k : NoDup (map fst (filter (fun ck => f (snd ck)) l)) -> In (c, k) l -> f k = true ->
  (sumQ (fun ck => if Nat.eqb (fst ck) c && f (snd ck) then g (snd ck) else 0) l == g k)%Q.
Proof.
  induction l as [|[a v] l IH]; intros N I F; [destruct I|]. rewrite sumQ_cons. cbn [fst snd filter] in *. destruct I as [I|I].
  - injection I as -> ->. rewrite Nat.eqb_refl, F in *. cbn [andb map fst] in *. inversion N as [|? ? Hn _]; subst.
    rewrite sumQ_all_zero; [ring|]. intros [a v] Hv. cbn [fst snd]. destruct (Nat.eqb_spec a c) as [->|]; [|reflexivity]. destruct (f v) eqn:Fv; [|reflexivity].
    exfalso. apply Hn. apply in_map_iff. exists (c, v). split; [reflexivity|]. apply filter_In. split; assumption.
  - destruct (f v) eqn:Fv.
    + cbn [map fst] in N. inversion N as [|? ? Hn N']; subst. destruct (Nat.eqb_spec a c) as [->|]; cbn [andb].
      * exfalso. apply Hn. apply in_map_iff. exists (c, k). split; [reflexivity|]. apply filter_In. split; assumption.
      * rewrite (IH N' I F). ring.
    + rewrite andb_false_r. rewrite (IH N I F). ring.
Qed.

Section Ident.
Variables (C : chem) (cs : list nat) (ks : list Q) (b : option bool) (n : option nat).
Let r := basic_init C cs ks b n.

Lemma reactants_taken c : In c (reactants r) <-> (0 < taken r c)%Q.
Proof.
  unfold reactants, taken, r, basic_init, species. cbn [reactant_coeffs comps coeffs]. rewrite (side_keys (fun k => Qlt_bool k 0)).
  symmetry. apply (sum_pos (fun k => Qlt_bool k 0) Qopp). intros k H. apply Qlt_bool_iff' in H. lra.
Qed.
Lemma products_given c : In c (products r) <-> (0 < given r c)%Q.
Proof.
  unfold products, given, r, basic_init, species. cbn [product_coeffs comps coeffs]. rewrite (side_keys (fun k => Qlt_bool 0 k)).
  symmetry. apply (sum_pos (fun k => Qlt_bool 0 k) (fun k => k)). intros k H. apply Qlt_bool_iff' in H. exact H.
Qed.
Lemma same_set_iff x y : same_set x y = true <-> forall c, In c x <-> In c y.
Proof.
  unfold same_set. rewrite andb_true_iff, !forallb_forall. split.
  - intros [H1 H2] c. split; intros H; apply (memb_iff c), (H1 c H) || apply (memb_iff c), (H2 c H).
  - intros H. split; intros c Hc; apply memb_iff, H, Hc.
Qed.
Theorem same_species_iff : same_set (reactants r) (products r) = true <-> same_species r.
Proof.
  rewrite same_set_iff. split; intros H c; specialize (H c).
  - rewrite reactants_taken, products_given in H. exact H.
  - rewrite reactants_taken, products_given. exact H.
Qed.

Theorem unbalanced_identity : balanced r = false -> (is_identity r = true <-> same_species r).
Proof.
  intros B. rewrite <- same_species_iff. unfold is_identity. rewrite B. destruct (same_set (reactants r) (products r)); cbn [negb]; split; congruence.
Qed.

Theorem balanced_identity : once_per_side r -> balanced r = true ->
  (is_identity r = true <-> same_species r /\ forall c, isclose (taken r c) (given r c) = true).
Proof.
  intros [N1 N2] B. unfold is_identity. rewrite B. cbn [negb]. pose proof same_species_iff as S.
  destruct (same_set (reactants r) (products r)); cbn [negb]; [|split; [discriminate|intros [H _]; apply S in H; discriminate]].
  pose proof (proj1 S eq_refl) as Sp. clear S.
  assert (Er : reactant_coeffs r = filter (fun kv => Qlt_bool (snd kv) 0) (combine cs ks)) by (apply dict_of_nodup; exact N1).
  assert (Ep : product_coeffs r = filter (fun kv => Qlt_bool 0 (snd kv)) (combine cs ks)) by (apply dict_of_nodup; exact N2).
  assert (K : forall c k, In (c, k) (reactant_coeffs r) -> (taken r c == k * -1)%Q
     /\ (given r c == match dict_get c (product_coeffs r) with Some v => v | None => 0 end)%Q).
  { intros c k H. rewrite Er in H. apply filter_In in H as [H1 H2]. cbn [snd] in H2.
    pose proof (sum_one (fun k => Qlt_bool k 0) Qopp (combine cs ks) c k N1 H1 H2) as T. split; [unfold taken; change (species r) with (combine cs ks); rewrite T; ring|].
    destruct (dict_get c (product_coeffs r)) as [v|] eqn:D.
    - assert (Hv : In (c, v) (product_coeffs r)) by (clear -D; induction (product_coeffs r) as [|[a w] l IH]; [discriminate|]; cbn in D; destruct (Nat.eqb_spec c a) as [->|]; [injection D as ->; left; reflexivity|right; exact (IH D)]).
      rewrite Ep in Hv. apply filter_In in Hv as [Hv1 Hv2]. cbn [snd] in Hv2. exact (sum_one (fun k => Qlt_bool 0 k) (fun k => k) (combine cs ks) c v N2 Hv1 Hv2).
    - exfalso. assert (P : In c (products r)).
      { apply products_given, Sp, reactants_taken. unfold reactants. rewrite Er. apply in_map_iff. exists (c, k). split; [reflexivity|]. apply filter_In. split; assumption. }
      unfold products in P. clear -D P. induction (product_coeffs r) as [|[a w] l IH]; [destruct P|]. cbn in D, P. destruct (Nat.eqb_spec c a) as [->|Ne]; [discriminate|].
      destruct P as [P|P]; [congruence|]. exact (IH D P). }
  rewrite forallb_forall. split.
  - intros H. split; [exact Sp|]. intros c. destruct (Qlt_le_dec 0 (taken r c)) as [L|L].
    + apply reactants_taken in L. apply in_map_iff in L as ([c' k] & E & Hk). cbn [fst] in E. subst c'. destruct (K c k Hk) as [K1 K2]. specialize (H (c, k) Hk). cbn [fst snd] in H.
      rewrite (isclose_comp' _ _ _ _ K1 K2). exact H.
    + assert (T0 : (taken r c == 0)%Q).
      { apply Qle_antisym; [exact L|]. unfold taken. apply sumQ_nonneg. intros [a k] _. cbn [fst snd]. destruct (Nat.eqb a c && Qlt_bool k 0) eqn:E; [|apply Qle_refl]. apply andb_true_iff in E as [_ E]. apply Qlt_bool_iff' in E. lra. }
      assert (G0 : (given r c == 0)%Q).
      { apply Qle_antisym; [apply Qnot_lt_le; intros G; apply Sp in G; lra|]. unfold given. apply sumQ_nonneg. intros [a k] _. cbn [fst snd]. destruct (Nat.eqb a c && Qlt_bool 0 k) eqn:E; [|apply Qle_refl]. apply andb_true_iff in E as [_ E]. apply Qlt_bool_iff' in E. lra. }
      rewrite (isclose_comp' _ _ _ _ T0 G0). reflexivity.
  - intros [_ H] [c k] Hk. destruct (K c k Hk) as [K1 K2]. cbn [fst snd]. rewrite <- (isclose_comp' _ _ _ _ K1 K2). apply H.
Qed.
End Ident.
