(* Boolean checkers used to show that concrete hulls meet the specification. *)
From Coq Require Import Setoid Sorted.
From Verif Require Import Prelude NumQ HullModel HullSpec ParetoProofs HullChainProofs HullEnergyProofs.
Open Scope nat_scope.

Fixpoint edges_b (cs : list (Q * Q)) (chain : list nat) : bool :=
  match chain with
  | a :: ((b :: _) as rest) =>
      Nat.ltb a b &&
      match nth_error cs a, nth_error cs b with
      | Some p, Some q => Qlt_bool (fst p) (fst q)
          && forallb (fun c => Qle_bool (line_through p q (fst c)) (snd c)) cs
      | _, _ => false
      end && edges_b cs rest
  | _ => true
  end.

Lemma edges_b_cons cs a b l : edges_b cs (a :: b :: l) =
      Nat.ltb a b &&
      match nth_error cs a, nth_error cs b with
      | Some p, Some q => Qlt_bool (fst p) (fst q)
          && forallb (fun c => Qle_bool (line_through p q (fst c)) (snd c)) cs
      | _, _ => false
      end && edges_b cs (b :: l).
Proof. reflexivity. Qed.

Lemma edges_b_ok cs chain : edges_b cs chain = true ->
  forall l1 a b l2, chain = l1 ++ a :: b :: l2 ->
    a < b /\ exists p q, nth_error cs a = Some p /\ nth_error cs b = Some q
    /\ (fst p < fst q)%Q /\ forall c, In c cs -> (line_through p q (fst c) <= snd c)%Q.
Proof.
  intros H l1; revert chain H. induction l1 as [|e l1 IH]; intros chain H a b l2 ->.
  - cbn [app] in H. rewrite edges_b_cons in H.
    apply andb_true_iff in H as [H _]. apply andb_true_iff in H as [H1 H2].
    split; [apply Nat.ltb_lt; assumption|].
    destruct (nth_error cs a) as [p|]; [|discriminate]. destruct (nth_error cs b) as [q|]; [|discriminate].
    apply andb_true_iff in H2 as [H2 H3]. exists p, q. repeat (split; [reflexivity|]).
    split; [apply Qlt_bool_iff; assumption|]. rewrite forallb_forall in H3.
    intros c Hc. apply Qle_bool_iff, H3. assumption.
  - destruct l1 as [|f l1].
    + cbn [app] in H. rewrite edges_b_cons in H. apply andb_true_iff in H as [_ H]. eapply (IH _ H). reflexivity.
    + cbn [app] in H. rewrite edges_b_cons in H. apply andb_true_iff in H as [_ H]. eapply (IH _ H). reflexivity.
Qed.

Definition upper_b (cs : list (Q * Q)) (chain : list nat) (i : nat) : bool :=
  existsb (Nat.eqb i) chain ||
  match nth_error cs i with
  | Some p => Qlt_bool 0 (snd p) ||
      existsb (fun j => match nth_error cs j with
                        | Some q => Qeq_bool (fst q) (fst p) && negb (isclose (snd q) (snd p))
                        | None => false end) chain
  | None => false
  end.

Definition correct_hull_b (cs : list (Q * Q)) (vs chain : list nat) : bool :=
  edges_b cs chain
  && match chain with a :: _ => match nth_error cs a with Some p => Qeq_bool (fst p) 0 | None => false end | [] => false end
  && match rev chain with a :: _ => match nth_error cs a with Some p => Qeq_bool (fst p) 1 | None => false end | [] => false end
  && nodupb Nat.eqb vs
  && forallb (fun i => existsb (Nat.eqb i) vs) chain
  && forallb (upper_b cs chain) vs.

Lemma nodupb_NoDup l : nodupb Nat.eqb l = true -> NoDup l.
Proof.
  induction l as [|a l IH]; simpl; intros H; [constructor|].
  apply andb_true_iff in H as [H1 H2]. constructor; [|auto].
  intros Hin. apply negb_true_iff in H1. unfold memb in H1.
  rewrite (proj2 (existsb_exists _ _)) in H1; [discriminate|]. exists a. split; [assumption|apply Nat.eqb_refl].
Qed.

Lemma correct_hull_b_ok cs vs chain : In (0, 0)%Q cs -> In (1, 0)%Q cs ->
  correct_hull_b cs vs chain = true -> correct_hull cs vs chain.
Proof.
  intros H0 H1 H. unfold correct_hull_b in H.
  apply andb_true_iff in H as [H Hup]. apply andb_true_iff in H as [H Hin].
  apply andb_true_iff in H as [H Hnd]. apply andb_true_iff in H as [H Hlast].
  apply andb_true_iff in H as [Hedge Hfirst].
  constructor; try assumption.
  - constructor; [apply edges_b_ok; assumption| |].
    + destruct chain as [|a r]; [discriminate|]. destruct (nth_error cs a) as [p|] eqn:E; [|discriminate].
      exists a, r, p. repeat split; try assumption. apply Qeq_bool_iff. assumption.
    + destruct (rev chain) as [|a r] eqn:E; [discriminate|]. destruct (nth_error cs a) as [p|] eqn:E2; [|discriminate].
      exists a, (rev r), p. split; [|split; [assumption|apply Qeq_bool_iff; assumption]].
      rewrite <- (rev_involutive chain), E. reflexivity.
  - apply nodupb_NoDup. assumption.
  - intros i Hi. rewrite forallb_forall in Hin. specialize (Hin i Hi). apply existsb_eqb_iff. assumption.
  - intros i Hi Hn. rewrite forallb_forall in Hup. specialize (Hup i Hi). unfold upper_b in Hup.
    apply orb_true_iff in Hup as [Hup|Hup]; [apply existsb_eqb_iff in Hup; contradiction|].
    destruct (nth_error cs i) as [p|]; [|discriminate]. exists p. split; [reflexivity|].
    apply orb_true_iff in Hup as [Hup|Hup]; [left; apply Qlt_bool_iff; assumption|right].
    apply existsb_exists in Hup as (j & Hj & Hup). destruct (nth_error cs j) as [q|] eqn:E; [|discriminate].
    apply andb_true_iff in Hup as [U1 U2]. exists j, q. repeat split; try assumption.
    + apply Qeq_bool_iff. assumption.
    + apply negb_true_iff. assumption.
Qed.

Definition exact_b (cs : list (Q * Q)) (chain : list nat) (x : Q) : bool :=
  forallb (fun i => match nth_error cs i with
                    | Some p => negb (isclose x (fst p)) || Qeq_bool x (fst p) | None => true end) chain.

Lemma exact_b_ok cs chain x : exact_b cs chain x = true -> exact_coordinate cs chain x.
Proof.
  intros H i p Hi Hp Hc. unfold exact_b in H. rewrite forallb_forall in H. specialize (H i Hi).
  rewrite Hp, Hc in H. apply Qeq_bool_iff. exact H.
Qed.

Lemma separated_b_ok cs chain :
  forallb (fun i => match nth_error cs i with Some p => exact_b cs chain (fst p) | None => true end) chain = true ->
  separated cs chain.
Proof.
  intros H i p Hi Hp. rewrite forallb_forall in H. specialize (H i Hi). rewrite Hp in H. apply exact_b_ok. assumption.
Qed.

Lemma stable_ends_b_ok cs chain :
  forallb (fun i => match nth_error cs i with
     | Some p => negb (Qeq_bool (fst p) 0 || Qeq_bool (fst p) 1) || isclose (snd p) 0 | None => true end) chain = true ->
  stable_ends cs chain.
Proof.
  intros H i p Hi Hp Hx. rewrite forallb_forall in H. specialize (H i Hi). rewrite Hp in H.
  apply orb_true_iff in H as [H|H]; [|assumption]. apply negb_true_iff, orb_false_iff in H as [H1 H2].
  destruct Hx as [Hx|Hx]; apply Qeq_bool_iff in Hx; congruence.
Qed.

Lemma sorted_by_x_iff cs : sorted_by_x cs -> StronglySorted xle cs.
Proof.
  induction cs as [|c cs IH]; intros H; constructor.
  - apply IH. intros i j p q Hij Hp Hq. apply (H (S i) (S j)); [lia|assumption|assumption].
  - apply Forall_forall. intros d Hd. apply In_nth_error in Hd as (j & Hj).
    apply (H 0 (S j)); [lia|reflexivity|assumption].
Qed.

Fixpoint sorted_b (cs : list (Q * Q)) : bool :=
  match cs with [] => true | c :: l => forallb (fun d => Qle_bool (fst c) (fst d)) l && sorted_b l end.
Lemma sorted_b_ok cs : sorted_b cs = true -> sorted_by_x cs.
Proof.
  induction cs as [|c cs IH]; intros H i j p q Hij Hp Hq; [destruct i; discriminate|].
  simpl in H. apply andb_true_iff in H as [H1 H2]. destruct j as [|j]; [lia|].
  destruct i as [|i]; simpl in Hp, Hq.
  - injection Hp as <-. rewrite forallb_forall in H1. apply Qle_bool_iff, H1. eapply nth_error_In; exact Hq.
  - apply (IH H2 i j); [lia|assumption|assumption].
Qed.
