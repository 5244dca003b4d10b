(* A shortest path routine by exhaustive search: an instance of what is assumed of
   rustworkx, used in the examples. *)
From Verif Require Import Prelude NumQ ListFacts EnumModel EnumProofs EnumReactProofs NetModel YenModel YenSpec YenProofs YenOptProofs.
From Coq Require Import Lqa.
Open Scope nat_scope.

Section Search.
Context {E : Type}.
Variable weight : E -> Q.
Notation edges := (list (nat * nat * E)).

Fixpoint simple_walks (fuel : nat) (es : edges) (visited : list nat) (u t : nat) : list (list nat * Q) :=
  if Nat.eqb u t then [([t], 0%Q)]
  else match fuel with
       | 0 => []
       | S f => flat_map (fun e => if Nat.eqb (fst (fst e)) u && negb (inb (snd (fst e)) (u :: visited))
                                   then map (fun pc => (u :: fst pc, (weight (snd e) + snd pc)%Q)) (simple_walks f es (u :: visited) (snd (fst e)) t)
                                   else []) es
       end.
Fixpoint best (x : list nat * Q) (l : list (list nat * Q)) : list nat * Q :=
  match l with [] => x | y :: l' => let m := best y l' in if Qle_bool (snd x) (snd m) then x else m end.
Definition search (es : edges) (u t : nat) : option (list nat) :=
  match simple_walks (length es) es [] u t with [] => None | x :: l => Some (fst (best x l)) end.

Lemma simple_sound fuel es : forall visited u t p c, ~ In u visited -> In (p, c) (simple_walks fuel es visited u t) ->
  walk weight es u t p c /\ NoDup p /\ forall x, In x p -> ~ In x visited.
Proof.
  induction fuel as [|f IH]; intros visited u t p c Hu; cbn [simple_walks].
  - destruct (Nat.eqb_spec u t) as [->|]; [|intros []]. intros [H|[]]. injection H as <- <-. split; [constructor; reflexivity|].
    split; [repeat constructor; intros []|intros x [<-|[]]; exact Hu].
  - destruct (Nat.eqb_spec u t) as [->|].
    + intros [H|[]]. injection H as <- <-. split; [constructor; reflexivity|]. split; [repeat constructor; intros []|intros x [<-|[]]; exact Hu].
    + intros H. apply in_flat_map in H as ([[a b] e] & He & H). cbn [fst snd] in H. destruct (Nat.eqb_spec a u) as [->|]; [|destruct H].
      destruct (inb b (u :: visited)) eqn:Hb; [destruct H|]. cbn [andb negb] in H. apply in_map_iff in H as ([p' c'] & H & Hin). cbn [fst snd] in H. injection H as <- <-.
      destruct (IH (u :: visited) b t p' c') as (W & Hd & Hv); [intros Hc; apply inb_iff in Hc; congruence|exact Hin|].
      split; [eapply walk_step; [exact He|exact W|reflexivity]|]. split.
      * constructor; [|exact Hd]. intros Hin'. apply (Hv u Hin'). left. reflexivity.
      * intros x [<-|Hx]; [exact Hu|]. intros Hc. apply (Hv x Hx). right. exact Hc.
Qed.

Lemma simple_complete es u t p c : walk weight es u t p c -> forall fuel visited, NoDup p -> (forall x, In x p -> ~ In x visited) -> length p <= S fuel ->
  exists c', In (p, c') (simple_walks fuel es visited u t) /\ (c' == c)%Q.
Proof.
  induction 1 as [t c H|i j t e p c d Hin W IH Hd]; intros fuel visited Hn Hv Hl.
  - exists 0%Q. split; [|lra]. destruct fuel; cbn [simple_walks]; rewrite Nat.eqb_refl; left; reflexivity.
  - inversion Hn as [|? ? Hi Hn']; subst.
    assert (Hit : i <> t).
    { intros ->. apply Hi. destruct (walk_last _ _ _ _ _ _ W) as [p' ->]. apply in_app_iff. right. left. reflexivity. }
    destruct (walk_head _ _ _ _ _ _ W) as [p' Ep]. destruct fuel as [|f]; [rewrite Ep in Hl; simpl in Hl; lia|].
    assert (Hv' : forall x, In x p -> ~ In x (i :: visited)).
    { intros x Hx [<-|Hc]; [exact (Hi Hx)|]. apply (Hv x); [right; exact Hx|exact Hc]. }
    destruct (IH f (i :: visited) Hn' Hv') as (c' & Hc' & Ec); [simpl in Hl; lia|].
    exists (weight e + c')%Q. split; [|lra]. cbn [simple_walks]. rewrite (proj2 (Nat.eqb_neq i t) Hit). apply in_flat_map. exists (i, j, e). split; [exact Hin|].
    cbn [fst snd]. rewrite Nat.eqb_refl. replace (inb j (i :: visited)) with false.
    + cbn [andb negb]. apply in_map_iff. exists (p, c'). split; [reflexivity|exact Hc'].
    + symmetry. apply not_true_is_false. intros Hc. apply inb_iff in Hc. apply (Hv' j); [rewrite Ep; left; reflexivity|exact Hc].
Qed.

Lemma best_spec l : forall x, (In (best x l) (x :: l)) /\ forall y, In y (x :: l) -> (snd (best x l) <= snd y)%Q.
Proof.
  induction l as [|z l IH]; intros x; cbn [best].
  - split; [left; reflexivity|]. intros y [<-|[]]. lra.
  - destruct (IH z) as [H1 H2]. destruct (Qle_bool (snd x) (snd (best z l))) eqn:C.
    + apply Qle_bool_iff in C. split; [left; reflexivity|]. intros y [<-|Hy]; [lra|]. specialize (H2 y Hy). lra.
    + assert (L : (snd (best z l) < snd x)%Q). { destruct (Qlt_le_dec (snd (best z l)) (snd x)) as [|G]; [assumption|]. apply Qle_bool_iff in G. congruence. }
      split; [right; exact H1|]. intros y [<-|Hy]; [lra|apply H2; exact Hy].
Qed.

(* A cheaper walk without repeated nodes. *)
Lemma simplify es u t p c : non_negative weight es -> walk weight es u t p c -> exists p' c', NoDup p' /\ walk weight es u t p' c' /\ (c' <= c)%Q.
Proof.
  intros Hnn. induction 1 as [t c H|i j t e p c d Hin W (p' & c' & Hn & W' & Hc) Hd].
  - exists [t], c. split; [repeat constructor; intros []|]. split; [constructor; exact H|lra].
  - pose proof (Hnn _ Hin) as He. cbn [snd] in He. destruct (in_dec Nat.eq_dec i p') as [Hi|Hi].
    + apply (In_nth p' i 0) in Hi as (k & Hk & Ek). destruct (walk_split _ _ _ _ _ _ W' k Hk) as (c1 & c2 & W1 & W2 & Hs). rewrite Ek in W1, W2.
      pose proof (walk_cost_nonneg weight es _ _ _ _ Hnn W1). exists (skipn k p'), c2. split; [|split; [exact W2|lra]].
      rewrite <- (firstn_skipn k p') in Hn. clear -Hn. induction (firstn k p') as [|x l IH]; [exact Hn|]. simpl in Hn. inversion Hn; subst. apply IH. assumption.
    + exists (i :: p'), (weight e + c')%Q. split; [constructor; assumption|]. split; [eapply walk_step; [exact Hin|exact W'|reflexivity]|lra].
Qed.

Lemma walk_sources es u t p c : walk weight es u t p c -> incl (removelast p) (map (fun e => fst (fst e)) es).
Proof.
  induction 1 as [t c H|i j t e p c d Hin W IH Hd]; [intros x []|]. destruct (walk_head _ _ _ _ _ _ W) as [p' Ep]. subst p.
  change (removelast (i :: j :: p')) with (i :: removelast (j :: p')). intros x [<-|Hx]; [|apply IH; exact Hx].
  apply in_map_iff. exists (i, j, e). split; [reflexivity|exact Hin].
Qed.
Lemma simple_length es u t p c : walk weight es u t p c -> NoDup p -> length p <= S (length es).
Proof.
  intros W Hn. destruct (walk_last _ _ _ _ _ _ W) as [p' Ep]. pose proof (walk_sources _ _ _ _ _ W) as Hi. rewrite Ep, removelast_last in Hi.
  assert (Hn' : NoDup p').
  { rewrite Ep in Hn. apply NoDup_remove_1 in Hn. rewrite app_nil_r in Hn. exact Hn. }
  pose proof (NoDup_incl_length Hn' Hi) as L. rewrite map_length in L. rewrite Ep, app_length. simpl. lia.
Qed.

Theorem search_shortest : shortest weight search.
Proof.
  intros es u t Hnn Hut. unfold search. destruct (simple_walks (length es) es [] u t) as [|x l] eqn:S.
  - intros p c W. destruct (simplify es u t p c Hnn W) as (p' & c' & Hn & W' & _).
    destruct (simple_complete es u t p' c' W' (length es) [] Hn) as (c2 & Hin & _); [intros y _ []|exact (simple_length es u t p' c' W' Hn)|].
    rewrite S in Hin. destruct Hin.
  - destruct (best_spec l x) as [B1 B2]. rewrite <- S in B1. destruct (best x l) as [p c] eqn:Eb. destruct (simple_sound (length es) es [] u t p c (fun H => H) B1) as (W & Hn & _).
    cbn [fst]. split; [exact Hn|]. exists c. split; [exact W|]. intros p1 c1 W1. destruct (simplify es u t p1 c1 Hnn W1) as (p' & c' & Hn' & W' & Hc').
    destruct (simple_complete es u t p' c' W' (length es) [] Hn') as (c2 & Hin & Ec); [intros y _ []|exact (simple_length es u t p' c' W' Hn')|].
    rewrite S in Hin. specialize (B2 _ Hin). cbn [snd] in B2. lra.
Qed.
End Search.
