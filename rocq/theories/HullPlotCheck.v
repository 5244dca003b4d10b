(* Concrete hulls for the plot. *)
From Verif Require Import Prelude NumQ HullModel HullSpec HullPlotModel HullPlotSpec HullPlotProofs HullCheck.
Open Scope nat_scope.

Fixpoint pairs (l : list nat) : list (nat * nat) :=
  match l with a :: ((b :: _) as r) => (a, b) :: pairs r | _ => [] end.

Lemma pairs_iff l a b : neighbours l a b <-> In (a, b) (pairs l).
Proof.
  split.
  - intros (l1 & l2 & ->). induction l1 as [|c l1 IH]; [left; reflexivity|].
    destruct l1 as [|d l1]; right; exact IH.
  - induction l as [|c l IH]; [intros []|]. destruct l as [|d l]; [intros []|].
    intros [E|I].
    + injection E as -> ->. exists [], l. reflexivity.
    + destruct (IH I) as (l1 & l2 & E). exists (c :: l1), l2. rewrite E. reflexivity.
Qed.

Definition pair_in (a b : nat) (l : list (nat * nat)) : bool :=
  existsb (fun e => Nat.eqb (fst e) a && Nat.eqb (snd e) b) l.

Lemma pair_in_iff a b l : pair_in a b l = true <-> In (a, b) l.
Proof.
  unfold pair_in. rewrite existsb_exists. split.
  - intros ([x y] & I & E). cbn in E. apply andb_true_iff in E as [E1 E2].
    apply Nat.eqb_eq in E1, E2. subst. assumption.
  - intros I. exists (a, b). split; [assumption|]. cbn. rewrite !Nat.eqb_refl. reflexivity.
Qed.

Definition polygon_b (cs : list (Q * Q)) (chain : list nat) (edges : list (nat * nat)) : bool :=
  forallb (fun e => pair_in (fst e) (snd e) edges || pair_in (snd e) (fst e) edges) (pairs chain)
  && forallb (fun e => pair_in (fst e) (snd e) (pairs chain) || pair_in (snd e) (fst e) (pairs chain)
       || match nth_error cs (fst e), nth_error cs (snd e) with
          | Some p, Some q =>
              if Qeq_bool (fst p) (fst q)
              then forallb (fun c => Qle_bool (fst p) (fst c)) cs || forallb (fun c => Qle_bool (fst c) (fst p)) cs
              else forallb (fun c => Qle_bool (snd c) (line_through p q (fst c))) cs
          | _, _ => false
          end) edges.

Lemma polygon_b_ok cs chain edges : polygon_b cs chain edges = true -> polygon cs chain edges.
Proof.
  unfold polygon_b. intros H. apply andb_true_iff in H as [H1 H2].
  rewrite forallb_forall in H1, H2. constructor.
  - intros a b N. apply pairs_iff in N. specialize (H1 _ N). cbn in H1.
    apply orb_true_iff in H1 as [H1|H1]; apply pair_in_iff in H1; auto.
  - intros a b I. specialize (H2 _ I). cbn in H2. apply orb_true_iff in H2 as [H2|H2].
    + apply orb_true_iff in H2 as [H2|H2]; apply pair_in_iff in H2; rewrite !pairs_iff; auto.
    + right; right. destruct (nth_error cs a) as [p|]; [|discriminate].
      destruct (nth_error cs b) as [q|]; [|discriminate]. exists p, q.
      split; [reflexivity|]. split; [reflexivity|].
      destruct (Qeq_bool (fst p) (fst q)) eqn:E.
      * left. split; [apply Qeq_bool_iff; assumption|].
        apply orb_true_iff in H2 as [H2|H2]; rewrite forallb_forall in H2; [left|right];
          intros c Ic; apply Qle_bool_iff, H2; assumption.
      * right. split; [intros F; apply Qeq_bool_iff in F; congruence|].
        rewrite forallb_forall in H2. intros c Ic. apply Qle_bool_iff, H2. assumption.
Qed.

Lemma ratios_b_ok cs : forallb (fun c => Qle_bool 0 (fst c) && Qle_bool (fst c) 1) cs = true -> ratios cs.
Proof.
  intros H c I. rewrite forallb_forall in H. specialize (H c I). apply andb_true_iff in H as [H1 H2].
  split; apply Qle_bool_iff; assumption.
Qed.

Lemma no_decomposition_b_ok cs :
  forallb (fun c => negb (Qeq_bool (fst c) 0 || Qeq_bool (fst c) 1) || Qle_bool 0 (snd c)) cs = true ->
  no_decomposition cs.
Proof.
  intros H c I Hx. rewrite forallb_forall in H. specialize (H c I). apply orb_true_iff in H as [H|H].
  - apply negb_true_iff, orb_false_iff in H as [H1 H2].
    destruct Hx as [Hx|Hx]; apply Qeq_bool_iff in Hx; congruence.
  - apply Qle_bool_iff. assumption.
Qed.

(* Two stable reactants with three downhill reactions and one uphill reaction. *)
Definition bowl : hull := {|
  coords := [(0, 0); (1 # 4, 1 # 10); (1 # 3, - 1 # 4); (1 # 2, - 3 # 10); (2 # 3, - 1 # 10); (1, 0)]%Q;
  qhull := [5; 1; 0; 2; 3] |}.
Definition bowl_chain : list nat := [0; 2; 3; 5].
Definition bowl_edges : list (nat * nat) := [(1, 0); (0, 2); (3, 2); (3, 5); (5, 1)].

Lemma bowl_correct : correct_hull (coords bowl) (qhull bowl) bowl_chain.
Proof. apply correct_hull_b_ok; [cbn; auto 10|cbn; auto 10|vm_compute; reflexivity]. Qed.
Lemma bowl_polygon : polygon (coords bowl) bowl_chain bowl_edges.
Proof. apply polygon_b_ok. vm_compute. reflexivity. Qed.
Lemma bowl_ratios : ratios (coords bowl).
Proof. apply ratios_b_ok. vm_compute. reflexivity. Qed.
Lemma bowl_no_decomposition : no_decomposition (coords bowl).
Proof. apply no_decomposition_b_ok. vm_compute. reflexivity. Qed.
Lemma bowl_downhill : downhill (coords bowl).
Proof. exists (1 # 2, - 3 # 10)%Q. split; [cbn; auto 10|reflexivity]. Qed.

(* The first reactant decomposes on its own, releasing 0.1 eV/atom. *)
Definition falling : hull := {|
  coords := [(0, 0); (0, - 1 # 10); (1 # 2, - 3 # 10); (1, 0)]%Q;
  qhull := [0; 1; 2; 3] |}.
Definition falling_chain : list nat := [1; 2; 3].
Definition falling_edges : list (nat * nat) := [(0, 1); (1, 2); (2, 3); (3, 0)].

Lemma falling_correct : correct_hull (coords falling) (qhull falling) falling_chain.
Proof. apply correct_hull_b_ok; [cbn; auto 10|cbn; auto 10|vm_compute; reflexivity]. Qed.
Lemma falling_polygon : polygon (coords falling) falling_chain falling_edges.
Proof. apply polygon_b_ok. vm_compute. reflexivity. Qed.
Lemma falling_ratios : ratios (coords falling).
Proof. apply ratios_b_ok. vm_compute. reflexivity. Qed.

Lemma falling_not_lower : ~ lower_edge (coords falling) falling_chain ((0, 0), (0, - 1 # 10))%Q.
Proof.
  intros (a & b & p & q & N & Hp & Hq & E). apply pairs_iff in N. cbn in N.
  destruct N as [N|[N|[]]]; injection N as <- <-; cbn in Hp, Hq; injection Hp as <-; injection Hq as <-;
    destruct E as [E|E]; discriminate.
Qed.
