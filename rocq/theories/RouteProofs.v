(* C36, C37: walks of the network graph are routes. *)
From Verif Require Import Prelude NumQ ListFacts UtilsProofs EnumModel EnumProofs EnumReactProofs NetModel NetSpec NetProofs NetHistoryProofs YenModel YenSpec YenProofs NetPathProofs RouteSpec.
From Coq Require Import Lqa.
Open Scope nat_scope.

Lemma data_of_edge (g : net) i j e n m : In (i, j, e) (g_edges g) -> has g i n -> has g j m -> In (n, m, e) (data_edges g).
Proof.
  intros I Hi Hj. unfold data_edges. apply in_flat_map. exists (i, j, e). split; [exact I|]. cbn [fst snd].
  unfold has in *. rewrite Hi, Hj. left. reflexivity.
Qed.
Lemma edge_of_data (g : net) n m e : In (n, m, e) (data_edges g) -> exists i j, In (i, j, e) (g_edges g) /\ has g i n /\ has g j m.
Proof.
  unfold data_edges. intros I. apply in_flat_map in I as ([[i j] e'] & I & D). cbn [fst snd] in D.
  destruct (nth_error (g_slots g) i) as [[a|]|] eqn:Ei; [|destruct D|destruct D].
  destruct (nth_error (g_slots g) j) as [[b|]|] eqn:Ej; [|destruct D|destruct D].
  destruct D as [D|[]]. exists i, j. assert (a = n) by congruence. assert (b = m) by congruence. assert (e' = e) by congruence. subst. auto.
Qed.

Definition rxns_of (l : list payload) : list nrxn := flat_map (fun p => match p with Rxn r => [r] | _ => [] end) l.
Lemma rxns_filter l : filter is_rxn l = map Rxn (rxns_of l).
Proof. induction l as [|[r| | |] l IH]; cbn; rewrite ?IH; reflexivity. Qed.

Section Walks.
Variable rxns : list nrxn.
Variable g : net.
Variables ps x : list nat.
Variable t s tn : nat.
Variable cost : nrxn -> Q.
Hypothesis Hcost : forall r, In r rxns -> (0 <= cost r)%Q.
Hypothesis Hcl : closed g.
Hypothesis Hdn : distinct_nodes g.
Hypothesis Hs : has g s (Precursors, x).
Hypothesis Ht : has g tn (Target, [t]).
Hypothesis HE : forall d, In d (data_edges g) <->
  (exists r, In r rxns /\ d = ((Reactants, mkset (n_reactants r)), (Products, mkset (n_products r)), Rxn r))
  \/ (exists r r', In r rxns /\ In r' rxns /\ mkset (n_products r) = mkset (n_reactants r') /\ d = ((Products, mkset (n_products r)), (Reactants, mkset (n_reactants r')), Loopback))
  \/ (exists r, In r rxns /\ is_subset (n_reactants r) ps /\ d = ((Precursors, x), (Reactants, mkset (n_reactants r)), PrecursorEdge))
  \/ (exists r, In r rxns /\ In t (n_products r) /\ d = ((Products, mkset (n_products r)), (Target, [t]), TargetEdge))
  \/ (exists r r', In r rxns /\ In r' rxns /\ is_subset (n_reactants r') (ps ++ n_products r) /\ ~ is_subset (n_reactants r') ps
        /\ d = ((Products, mkset (n_products r)), (Reactants, mkset (n_reactants r')), Loopback)).

Lemma in_mkset e l : In e (mkset l) <-> In e l.
Proof. apply set_of_mkset. Qed.

(* The entries have are on hand at a node. *)
Definition on_hand (n : node) (have : list nat) : Prop :=
  match fst n with
  | Precursors => True
  | Reactants => is_subset (snd n) (ps ++ have)
  | Products => forall e, In e (snd n) -> In e have
  | Target => In t have
  end.

Lemma step_cases i j e n : In (i, j, e) (g_edges g) -> has g i n -> exists m, has g j m /\ In (n, m, e) (data_edges g).
Proof.
  intros I Hn. destruct (Hcl _ _ _ I) as [_ (m & Hm)]. exists m. split; [exact Hm|]. exact (data_of_edge _ _ _ _ _ _ I Hn Hm).
Qed.

Lemma walk_route' i u p labels : labelled (g_edges g) i u p labels -> u = tn -> forall n have, has g i n -> on_hand n have ->
  route ps t have (rxns_of labels) /\ incl (rxns_of labels) rxns.
Proof.
  intros L. induction L as [t'|i j t' e p l He Hl IH]; intros Eu n have Hn Ho; subst t'.
  - assert (n = (Target, [t])) by (unfold has in *; congruence). subst n. cbn. split; [exact Ho|intros r []].
  - specialize (IH eq_refl). destruct (step_cases _ _ _ _ He Hn) as (m & Hm & D). apply HE in D as [D|[D|[D|[D|D]]]].
    + destruct D as (r & Ir & E). assert (n = (Reactants, mkset (n_reactants r))) by congruence. assert (m = (Products, mkset (n_products r))) by congruence. assert (e = Rxn r) by congruence. subst.
      destruct (IH _ (n_products r) Hm) as [R1 R2]; [intros z Hz; apply in_mkset; exact Hz|].
      cbn [rxns_of flat_map app route]. split; [|intros r' [<-|I]; [exact Ir|apply R2; exact I]].
      split; [|exact R1]. intros z Hz. apply Ho. apply in_mkset. exact Hz.
    + destruct D as (r & r' & Ir & Ir' & Es & E). assert (n = (Products, mkset (n_products r))) by congruence. assert (m = (Reactants, mkset (n_reactants r'))) by congruence. assert (e = Loopback) by congruence. subst.
      cbn [rxns_of flat_map app]. apply (IH _ have Hm). intros z Hz. apply in_or_app. right. apply Ho. cbn [snd] in *. rewrite Es. exact Hz.
    + destruct D as (r & Ir & Sr & E). assert (m = (Reactants, mkset (n_reactants r))) by congruence. assert (e = PrecursorEdge) by congruence. subst.
      cbn [rxns_of flat_map app]. apply (IH _ have Hm). intros z Hz. apply in_or_app. left. apply Sr. apply in_mkset. exact Hz.
    + destruct D as (r & Ir & Tr & E). assert (n = (Products, mkset (n_products r))) by congruence. assert (m = (Target, [t])) by congruence. assert (e = TargetEdge) by congruence. subst.
      cbn [rxns_of flat_map app]. apply (IH _ have Hm). cbn. apply Ho. apply in_mkset. exact Tr.
    + destruct D as (r & r' & Ir & Ir' & Sr & _ & E). assert (n = (Products, mkset (n_products r))) by congruence. assert (m = (Reactants, mkset (n_reactants r'))) by congruence. assert (e = Loopback) by congruence. subst.
      cbn [rxns_of flat_map app]. apply (IH _ have Hm). intros z Hz. apply (proj1 (in_mkset z (n_reactants r'))) in Hz. specialize (Sr z Hz). apply in_app_or in Sr as [Sr|Sr]; apply in_or_app; [left; exact Sr|right].
      apply Ho. apply in_mkset. exact Sr.
Qed.

Lemma walk_route i p labels : labelled (g_edges g) i tn p labels -> forall n have, has g i n -> on_hand n have ->
  route ps t have (rxns_of labels) /\ incl (rxns_of labels) rxns.
Proof. intros L. exact (walk_route' i tn p labels L eq_refl). Qed.

Lemma edge_at n m e i : In (n, m, e) (data_edges g) -> has g i n -> exists j, In (i, j, e) (g_edges g) /\ has g j m.
Proof. intros D Hi. destruct (edge_of_data _ _ _ _ D) as (i' & j & I & Hi' & Hj). rewrite (Hdn _ _ _ Hi Hi'). exists j. auto. Qed.

Lemma edge_between n m e i j : In (n, m, e) (data_edges g) -> has g i n -> has g j m -> In (i, j, e) (g_edges g).
Proof. intros D Hi Hj. destruct (edge_at _ _ _ _ D Hi) as (j' & I & Hj'). rewrite (Hdn _ _ _ Hj Hj'). exact I. Qed.

(* A route gives a walk that is not more expensive. *)
Lemma route_walk rs : forall have, route ps t have rs -> incl rs rxns ->
  (forall i, has g i (Products, mkset have) -> (exists r, In r rxns /\ have = n_products r) -> exists p c, walk (cost_of cost) (g_edges g) i tn p c /\ (c == price cost rs)%Q)
  \/ (exists p c, walk (cost_of cost) (g_edges g) s tn p c /\ (c <= price cost rs)%Q).
Proof.
  induction rs as [|r rs IH]; intros have R Inc.
  - left. intros i Hi (r & Ir & ->). exists [i; tn], 0%Q. split; [|reflexivity].
    assert (I : In (i, tn, TargetEdge) (g_edges g)).
    { apply (edge_between (Products, mkset (n_products r)) (Target, [t])); [|exact Hi|exact Ht]. apply HE. right. right. right. left. exists r. cbn in R. auto. }
    apply (walk_step _ _ i tn tn TargetEdge [tn] 0%Q 0%Q I); [constructor; reflexivity|reflexivity].
  - destruct R as [Sr R]. assert (Ir : In r rxns) by (apply Inc; left; reflexivity).
    assert (Dr : In ((Reactants, mkset (n_reactants r)), (Products, mkset (n_products r)), Rxn r) (data_edges g)) by (apply HE; left; exists r; auto).
    destruct (edge_of_data _ _ _ _ Dr) as (ir & jr & Ie & Hir & Hjr).
    destruct (IH (n_products r) R) as [L|(p & c & W & Le)]; [intros r' I; apply Inc; right; exact I| |].
    + destruct (L jr Hjr) as (p & c & W & Ec); [exists r; auto|].
      assert (W1 : walk (cost_of cost) (g_edges g) ir tn (ir :: p) (cost r + c)%Q) by (apply (walk_step _ _ ir jr tn (Rxn r) p c _ Ie W); reflexivity).
      destruct (subset (n_reactants r) ps) eqn:Sb.
      * right. exists (s :: ir :: p), (cost r + c)%Q. split.
        { apply (walk_step _ _ s ir tn PrecursorEdge _ (cost r + c)%Q); [|exact W1|cbn; lra].
          apply (edge_between (Precursors, x) (Reactants, mkset (n_reactants r))); [|exact Hs|exact Hir]. apply HE. right. right. left. exists r. split; [exact Ir|]. split; [|reflexivity].
          exact (proj1 (subset_iff _ _) Sb). }
        { cbn [price fold_right]. fold (price cost rs). rewrite Ec. lra. }
      * left. intros i Hi (r0 & Ir0 & ->). exists (i :: ir :: p), (cost r + c)%Q. split.
        { apply (walk_step _ _ i ir tn Loopback _ (cost r + c)%Q); [|exact W1|cbn; lra].
          apply (edge_between (Products, mkset (n_products r0)) (Reactants, mkset (n_reactants r))); [|exact Hi|exact Hir].
          apply HE. right. right. right. right. exists r0, r. split; [exact Ir0|]. split; [exact Ir|]. split; [exact Sr|]. split; [|reflexivity].
          intros Sb'. apply (proj2 (subset_iff _ _)) in Sb'. congruence. }
        { cbn [price fold_right]. fold (price cost rs). rewrite Ec. lra. }
    + right. exists p, c. split; [exact W|]. cbn [price fold_right]. fold (price cost rs). specialize (Hcost r Ir). lra.
Qed.

Lemma route_start rs : route ps t [] rs -> incl rs rxns -> exists p c, walk (cost_of cost) (g_edges g) s tn p c /\ (c <= price cost rs)%Q.
Proof.
  destruct rs as [|r rs]; intros R Inc; [destruct R|]. destruct R as [Sr R]. assert (Ir : In r rxns) by (apply Inc; left; reflexivity).
  assert (Dr : In ((Reactants, mkset (n_reactants r)), (Products, mkset (n_products r)), Rxn r) (data_edges g)) by (apply HE; left; exists r; auto).
  destruct (edge_of_data _ _ _ _ Dr) as (ir & jr & Ie & Hir & Hjr).
  destruct (route_walk rs (n_products r) R) as [L|(p & c & W & Le)]; [intros r' I; apply Inc; right; exact I| |].
  - destruct (L jr Hjr) as (p & c & W & Ec); [exists r; auto|]. exists (s :: ir :: p), (cost r + c)%Q. split.
    + apply (walk_step _ _ s ir tn PrecursorEdge _ (cost r + c)%Q); [| |cbn; lra].
      * apply (edge_between (Precursors, x) (Reactants, mkset (n_reactants r))); [|exact Hs|exact Hir]. apply HE. right. right. left. exists r. split; [exact Ir|]. split; [|reflexivity].
        intros z Hz. specialize (Sr z Hz). rewrite app_nil_r in Sr. exact Sr.
      * apply (walk_step _ _ ir jr tn (Rxn r) p c _ Ie W). reflexivity.
    + cbn [price fold_right]. fold (price cost rs). rewrite Ec. lra.
  - exists p, c. split; [exact W|]. cbn [price fold_right]. fold (price cost rs). specialize (Hcost r Ir). lra.
Qed.

(* The nodes of a walk are determined by its reactions. *)
Lemma from_target p l : labelled (g_edges g) tn tn p l -> l = [].
Proof.
  intros L. inversion L as [|i j t' e p' l' He Hl]; subst; [reflexivity|]. exfalso.
  destruct (step_cases _ _ _ _ He Ht) as (m & Hm & D). apply HE in D as [D|[D|[D|[D|D]]]].
  - destruct D as (r & _ & E). discriminate E.
  - destruct D as (r & r' & _ & _ & _ & E). discriminate E.
  - destruct D as (r & _ & _ & E). discriminate E.
  - destruct D as (r & _ & _ & E). discriminate E.
  - destruct D as (r & r' & _ & _ & _ & _ & E). discriminate E.
Qed.
Lemma from_reactants i y p l : labelled (g_edges g) i tn p l -> has g i (Reactants, y) -> exists r rest, rxns_of l = r :: rest /\ y = mkset (n_reactants r).
Proof.
  intros L Hi. inversion L as [|i' j t' e p' l' He Hl]; subst; [unfold has in *; congruence|].
  destruct (step_cases _ _ _ _ He Hi) as (m & Hm & D). apply HE in D as [D|[D|[D|[D|D]]]].
  - destruct D as (r & _ & E). assert (e = Rxn r) by congruence. subst e. exists r, (rxns_of l'). split; [reflexivity|congruence].
  - destruct D as (r & r' & _ & _ & _ & E). discriminate E.
  - destruct D as (r & _ & _ & E). discriminate E.
  - destruct D as (r & _ & _ & E). discriminate E.
  - destruct D as (r & r' & _ & _ & _ & _ & E). discriminate E.
Qed.
(* A step that is no reaction leads to reactants or to the target. *)
Lemma step_kind i j e n : In (i, j, e) (g_edges g) -> has g i n ->
  (exists r, e = Rxn r /\ fst n = Reactants /\ has g j (Products, mkset (n_products r)))
  \/ (is_rxn e = false /\ fst n <> Reactants /\ ((exists y, has g j (Reactants, y)) \/ j = tn)).
Proof.
  intros He Hn. destruct (step_cases _ _ _ _ He Hn) as (m & Hm & D). apply HE in D as [D|[D|[D|[D|D]]]].
  - destruct D as (r & _ & E). left. exists r. assert (m = (Products, mkset (n_products r))) by congruence. subst m. split; [congruence|]. split; [|exact Hm].
    assert (n = (Reactants, mkset (n_reactants r))) by congruence. subst n. reflexivity.
  - destruct D as (r & r' & _ & _ & _ & E). right. assert (n = (Products, mkset (n_products r))) by congruence. assert (m = (Reactants, mkset (n_reactants r'))) by congruence. assert (e = Loopback) by congruence. subst.
    split; [reflexivity|]. split; [discriminate|]. left. eexists. exact Hm.
  - destruct D as (r & _ & _ & E). right. assert (n = (Precursors, x)) by congruence. assert (m = (Reactants, mkset (n_reactants r))) by congruence. assert (e = PrecursorEdge) by congruence. subst.
    split; [reflexivity|]. split; [discriminate|]. left. eexists. exact Hm.
  - destruct D as (r & _ & _ & E). right. assert (n = (Products, mkset (n_products r))) by congruence. assert (m = (Target, [t])) by congruence. assert (e = TargetEdge) by congruence. subst.
    split; [reflexivity|]. split; [discriminate|]. right. exact (Hdn _ _ _ Hm Ht).
  - destruct D as (r & r' & _ & _ & _ & _ & E). right. assert (n = (Products, mkset (n_products r))) by congruence. assert (m = (Reactants, mkset (n_reactants r'))) by congruence. assert (e = Loopback) by congruence. subst.
    split; [reflexivity|]. split; [discriminate|]. left. eexists. exact Hm.
Qed.
Lemma rxns_of_other e l : is_rxn e = false -> rxns_of (e :: l) = rxns_of l.
Proof. destruct e; [discriminate| | |]; reflexivity. Qed.

Lemma nodes_determined i u p l : labelled (g_edges g) i u p l -> u = tn -> forall p' l', labelled (g_edges g) i tn p' l' -> rxns_of l = rxns_of l' -> p = p'.
Proof.
  intros L. induction L as [t'|i j t' e p l He Hl IH]; intros Eu p' l' L' E; subst t'.
  - pose proof (from_target _ _ L'). subst l'. inversion L'. reflexivity.
  - specialize (IH eq_refl). inversion L' as [|i' j' t'' e' q' m' He' Hl']; subst.
    + pose proof (from_target _ _ (labelled_step _ tn j tn e p l He Hl)). discriminate.
    + destruct (Hcl _ _ _ He) as [(n & Hn) _].
      destruct (step_kind _ _ _ _ He Hn) as [(r & -> & _ & Hj)|(K & Kn & Kj)]; destruct (step_kind _ _ _ _ He' Hn) as [(r' & -> & Kr & Hj')|(K' & Kn' & Kj')].
      * cbn [rxns_of flat_map app] in E. injection E as -> E. rewrite (Hdn _ _ _ Hj Hj') in *. f_equal. exact (IH _ _ Hl' E).
      * exfalso. apply Kn'. destruct (step_kind _ _ _ _ He Hn) as [(r0 & _ & Kr & _)|(K & _)]; [exact Kr|discriminate K].
      * exfalso. exact (Kn Kr).
      * rewrite !rxns_of_other in E by assumption. f_equal. destruct Kj as [(y & Hy)| ->].
        { destruct (from_reactants _ _ _ _ Hl Hy) as (r & rest & R1 & R2). destruct Kj' as [(y' & Hy')| ->].
          - destruct (from_reactants _ _ _ _ Hl' Hy') as (r' & rest' & R1' & R2'). assert (r = r') by congruence. subst. rewrite (Hdn _ _ _ Hy Hy') in *. exact (IH _ _ Hl' E).
          - pose proof (from_target _ _ Hl'). subst m'. rewrite R1 in E. discriminate E. }
        { pose proof (from_target _ _ Hl). subst l. destruct Kj' as [(y' & Hy')| ->]; [|exact (IH _ _ Hl' E)].
          destruct (from_reactants _ _ _ _ Hl' Hy') as (r' & rest' & R1' & R2'). rewrite R1' in E. discriminate E. }
Qed.

Lemma Forall2_nodup {A B} (R : A -> B -> Prop) l l' : Forall2 R l l' -> NoDup l -> (forall a a' b, In a l -> In a' l -> R a b -> R a' b -> a = a') -> NoDup l'.
Proof.
  induction 1 as [|a b l l' H F IH]; intros N Inj; [constructor|]. inversion N; subst. constructor.
  - intros I. destruct (Forall2_In_r _ _ _ _ F I) as (a' & Ia & Ra). assert (a = a') by (apply (Inj a a' b); [left; reflexivity|right; exact Ia|exact H|exact Ra]). subst. contradiction.
  - apply IH; [assumption|]. intros u v z Iu Iv. apply Inj; right; assumption.
Qed.

Theorem found_routes k pathways : found cost g s tn k pathways -> routes_found cost rxns ps t k pathways
  /\ (forall l rest, pathways = l :: rest -> (forall p' c', cheapest_walk (cost_of cost) (g_edges g) s tn p' -> walk (cost_of cost) (g_edges g) s tn p' c' -> tells cost g s tn p' l -> (total l == c')%Q) ->
       forall rs, incl rs rxns -> route ps t [] rs -> (total l <= price cost rs)%Q).
Proof.
  intros (paths & N & Len & Emp & Ch & F).
  assert (Form : forall p l, tells cost g s tn p l -> exists labels, labelled (g_edges g) s tn p labels /\ l = map (fun r => (Rxn r, cost r)) (rxns_of labels)).
  { intros p l (labels & L & Hf & Hc). exists labels. split; [exact L|]. rewrite rxns_filter in Hf. revert Hf Hc. generalize (rxns_of labels). clear.
    induction l as [|[e c] l IH]; intros [|r rs] Hf Hc; try discriminate Hf; [reflexivity|]. cbn [map fst] in Hf. assert (e = Rxn r) by congruence. subst e. assert (Hf' : map fst l = map Rxn rs) by congruence.
    inversion Hc as [|a b C1 C2]; subst. cbn [fst snd cost_of] in C1. subst c. cbn [map]. f_equal. exact (IH rs Hf' C2). }
  split; [split; [|split; [|split]]|].
  - apply Forall_forall. intros l Il. destruct (Forall2_In_r _ _ _ _ F Il) as (p & Ip & (_ & T)). destruct (Form p l T) as (labels & L & ->).
    exists (rxns_of labels). split; [reflexivity|]. destruct (walk_route s p labels L (Precursors, x) [] Hs I) as [R1 R2]. auto.
  - apply (Forall2_nodup _ _ _ F N). intros a a' b _ _ (_ & T) (_ & T'). destruct (Form a b T) as (l1 & L1 & E1). destruct (Form a' b T') as (l2 & L2 & E2).
    apply (nodes_determined s tn a l1 L1 eq_refl a' l2 L2). assert (E : map (fun r => (Rxn r, cost r)) (rxns_of l1) = map (fun r => (Rxn r, cost r)) (rxns_of l2)) by congruence.
    revert E. generalize (rxns_of l1) (rxns_of l2). clear. induction l as [|r l IH]; intros [|r' l'] E; try discriminate E; [reflexivity|]. cbn [map] in E. assert (r = r') by congruence. subst. f_equal. apply IH. congruence.
  - rewrite <- (Forall2_length _ _ _ F). exact Len.
  - split.
    + intros E rs Inc R. subst pathways. inversion F; subst. destruct (route_start rs R Inc) as (p & c & W & _). exact (proj1 Emp eq_refl p c W).
    + intros No. destruct pathways as [|l rest]; [reflexivity|]. exfalso. inversion F as [|p l' ps' r' (_ & T) F']; subst. destruct (Form p l T) as (labels & L & _).
      destruct (walk_route s p labels L (Precursors, x) [] Hs I) as [R1 R2]. exact (No _ R2 R1).
  - intros l rest -> Tot rs Inc R. inversion F as [|p l' ps' r' ((c & W) & T) F']; subst. pose proof (Ch p ps' eq_refl) as C. rewrite (Tot p c C W T).
    destruct C as (c0 & W0 & Min). destruct (route_start rs R Inc) as (q & d & Wq & Le).
    pose proof (Tot p c0 (ex_intro _ c0 (conj W0 Min)) W0 T) as E0. pose proof (Tot p c (ex_intro _ c0 (conj W0 Min)) W T) as E1. specialize (Min q d Wq). lra.
Qed.
End Walks.

Lemma in_node_data (g : net) n : In n (node_data g) <-> exists i, has g i n.
Proof.
  unfold node_data, has. split.
  - intros I. apply in_flat_map in I as (s & I & J). destruct s as [m|]; [|destruct J]. destruct J as [->|[]]. apply In_nth_error in I as (i & I). exists i. exact I.
  - intros (i & H). apply in_flat_map. exists (Some n). split; [exact (nth_error_In _ _ H)|left; reflexivity].
Qed.
Lemma set_unique l y : set_of l y -> y = mkset l.
Proof. intros [S1 S2]. apply sorted_unique; [exact S1|apply set_of_mkset|]. intros e. rewrite S2. symmetry. apply set_of_mkset. Qed.

Section Build.
Variable rxns : list nrxn.

Lemma build_nodes : (forall y, In (Reactants, y) (node_data (build rxns)) <-> exists r, In r rxns /\ y = mkset (n_reactants r))
  /\ (forall y, In (Products, y) (node_data (build rxns)) <-> exists r, In r rxns /\ y = mkset (n_products r)).
Proof.
  destruct (build_spec rxns) as (_ & Nodes & rxn_edges & loops & _ & F & _).
  split; intros y; rewrite in_node_data; split.
  - intros (i & H). destruct (Nodes _ _ H) as (r & Ir & [[_ S]|[Ty _]]); [|discriminate Ty]. exists r. split; [exact Ir|exact (set_unique _ _ S)].
  - intros (r & Ir & ->). destruct (Forall2_In_l _ _ _ _ F Ir) as (e & _ & i & j & a & b & _ & Hi & Sa & _). exists i. rewrite <- (set_unique _ _ Sa). exact Hi.
  - intros (i & H). destruct (Nodes _ _ H) as (r & Ir & [[Ty _]|[_ S]]); [discriminate Ty|]. exists r. split; [exact Ir|exact (set_unique _ _ S)].
  - intros (r & Ir & ->). destruct (Forall2_In_l _ _ _ _ F Ir) as (e & _ & i & j & a & b & _ & _ & _ & Hj & Sb). exists j. rewrite <- (set_unique _ _ Sb). exact Hj.
Qed.

Lemma build_edges d : In d (data_edges (build rxns)) <->
  (exists r, In r rxns /\ d = ((Reactants, mkset (n_reactants r)), (Products, mkset (n_products r)), Rxn r))
  \/ (exists r r', In r rxns /\ In r' rxns /\ mkset (n_products r) = mkset (n_reactants r') /\ d = ((Products, mkset (n_products r)), (Reactants, mkset (n_reactants r')), Loopback)).
Proof.
  destruct build_nodes as [NR NP]. destruct (build_spec rxns) as (_ & _ & rxn_edges & loops & Pm & F & _ & Lp). split.
  - destruct d as [[n m] e]. intros D. destruct (edge_of_data _ _ _ _ D) as (i & j & I & Hi & Hj). apply (Permutation_in _ Pm) in I. apply in_app_or in I as [I|I].
    + destruct (Forall2_In_r _ _ _ _ F I) as (r & Ir & i' & j' & a & b & E & Ha & Sa & Hb & Sb). left. exists r. split; [exact Ir|].
      assert (i' = i) by congruence. assert (j' = j) by congruence. assert (e = Rxn r) by congruence. subst. rewrite <- (set_unique _ _ Sa), <- (set_unique _ _ Sb). unfold has in *. congruence.
    + apply Lp in I as (i' & j' & y & E & Ha & Hb). right. assert (i' = i) by congruence. assert (j' = j) by congruence. assert (e = Loopback) by congruence. subst.
      destruct (proj1 (NP y)) as (r & Ir & Er); [apply in_node_data; eexists; exact Ha|]. destruct (proj1 (NR y)) as (r' & Ir' & Er'); [apply in_node_data; eexists; exact Hb|].
      exists r, r'. split; [exact Ir|]. split; [exact Ir'|]. split; [congruence|]. rewrite <- Er, <- Er'. unfold has in *. congruence.
  - intros [(r & Ir & ->)|(r & r' & Ir & Ir' & Es & ->)].
    + destruct (Forall2_In_l _ _ _ _ F Ir) as (e & Ie & i & j & a & b & -> & Ha & Sa & Hb & Sb). rewrite <- (set_unique _ _ Sa), <- (set_unique _ _ Sb).
      apply (data_of_edge _ i j); [|exact Ha|exact Hb]. apply (Permutation_in _ (Permutation_sym Pm)). apply in_or_app. left. exact Ie.
    + destruct (proj1 (in_node_data (build rxns) (Products, mkset (n_products r)))) as (i & Hi); [apply NP; exists r; auto|].
      destruct (proj1 (in_node_data (build rxns) (Reactants, mkset (n_reactants r')))) as (j & Hj); [apply NR; exists r'; auto|].
      apply (data_of_edge _ i j); [|exact Hi|exact Hj]. apply (Permutation_in _ (Permutation_sym Pm)). apply in_or_app. right. apply Lp.
      exists i, j, (mkset (n_products r)). split; [reflexivity|]. split; [exact Hi|]. rewrite Es. exact Hj.
Qed.
End Build.

Section Find.
Variable entries : list nat.
Variable rxns : list nrxn.
Hypothesis Hr : rxns <> [].
Variable cost : nrxn -> Q.
Hypothesis Hcost : forall r, In r rxns -> (0 <= cost r)%Q.
Variable sp : list (nat * nat * payload) -> nat -> nat -> option (list nat).
Hypothesis Hsp : shortest (cost_of cost) sp.
Notation start := (net_build (new_network entries rxns)).

Lemma run_ops_app a b : forall w, run_ops w (a ++ b) = bind (run_ops w a) (fun w' => run_ops w' b).
Proof. induction a as [|o a IH]; intros w; [reflexivity|]. cbn [app run_ops]. destruct (run_op w o); [apply IH|reflexivity]. Qed.
Lemma last_sets a t rest : precursors_of (a ++ map SetTarget rest) = precursors_of a
  /\ rev (targets_of (a ++ map SetTarget (rest ++ [t]))) = t :: rev (targets_of (a ++ map SetTarget rest)).
Proof.
  split.
  - unfold precursors_of. rewrite flat_map_app. replace (flat_map _ (map SetTarget rest)) with (@nil (list nat)); [apply app_nil_r|]. clear. induction rest as [|r rest IH]; [reflexivity|exact IH].
  - rewrite map_app, app_assoc. cbn [map]. rewrite targets_of_snoc, rev_app_distr. reflexivity.
Qed.

(* The edges of a network with one set of precursors. *)
Lemma net_edges ops w g ps t : Forall (acceptable entries) ops -> run_ops start ops = Ok w -> w_graph w = Some g ->
  nth_error (rev (precursors_of ops)) 0 = Some ps -> (forall a, In a (precursors_of ops) -> forall e, In e a <-> In e ps) ->
  nth_error (rev (targets_of ops)) 0 = Some t ->
  distinct_nodes g /\ closed g /\ forall d, In d (data_edges g) <->
  (exists r, In r rxns /\ d = ((Reactants, mkset (n_reactants r)), (Products, mkset (n_products r)), Rxn r))
  \/ (exists r r', In r rxns /\ In r' rxns /\ mkset (n_products r) = mkset (n_reactants r') /\ d = ((Products, mkset (n_products r)), (Reactants, mkset (n_reactants r')), Loopback))
  \/ (exists r, In r rxns /\ is_subset (n_reactants r) ps /\ d = ((Precursors, mkset ps), (Reactants, mkset (n_reactants r)), PrecursorEdge))
  \/ (exists r, In r rxns /\ In t (n_products r) /\ d = ((Products, mkset (n_products r)), (Target, [t]), TargetEdge))
  \/ (exists r r', In r rxns /\ In r' rxns /\ is_subset (n_reactants r') (ps ++ n_products r) /\ ~ is_subset (n_reactants r') ps
        /\ d = ((Products, mkset (n_products r)), (Reactants, mkset (n_reactants r')), Loopback)).
Proof.
  intros Ha HR Hg Hp Hc Ht.
  destruct (history_spec entries rxns Hr ops Ha) as (w0 & w2 & g0 & g2 & stale & R0 & R2 & G0 & G2 & _ & _ & _ & PE & _ & St & Dn & Cl).
  assert (w0 = w) by congruence. subst w0. assert (g0 = g) by congruence. subst g0.
  rewrite St in PE; [|intros a b Ia Ib e; rewrite (Hc a Ia), (Hc b Ib); reflexivity]. rewrite app_nil_r in PE.
  assert (Acc : ps <> [] /\ is_subset ps entries /\ In t entries).
  { rewrite Forall_forall in Ha. apply nth_error_In, in_rev in Hp, Ht. unfold precursors_of in Hp. unfold targets_of in Ht.
    apply in_flat_map in Hp as ([q|u] & Hq & Hin); [|destruct Hin]. destruct Hin as [<-|[]]. apply in_flat_map in Ht as ([q'|u] & Hq' & Hin); [destruct Hin|]. destruct Hin as [<-|[]].
    destruct (Ha _ Hq). split; [assumption|]. split; [assumption|]. exact (Ha _ Hq'). }
  assert (LC : last_calls ops = [SetPrecursors ps; SetTarget t]).
  { unfold last_calls. destruct (rev (precursors_of ops)); [discriminate Hp|]. destruct (rev (targets_of ops)); [discriminate Ht|]. cbn in Hp, Ht. injection Hp as ->. injection Ht as ->. reflexivity. }
  rewrite LC in R2. destruct Acc as (A1 & A2 & A3). destruct (setters_spec entries rxns Hr ps t A1 A2 A3) as (w3 & g3 & x & new & R3 & G3 & Sx & _ & PE3 & _ & New).
  assert (w3 = w2) by congruence. subst w3. assert (g3 = g2) by congruence. subst g3. assert (x = mkset ps) by exact (set_unique _ _ Sx). subst x.
  split; [exact Dn|]. split; [exact Cl|]. intros d. destruct (build_nodes rxns) as [NR NP].
  assert (E : In d (data_edges g) <-> In d (data_edges (build rxns)) \/ In d new).
  { rewrite <- in_app_iff. split; intros I; [exact (Permutation_in _ PE3 (Permutation_in _ PE I))|exact (Permutation_in _ (Permutation_sym PE) (Permutation_in _ (Permutation_sym PE3) I))]. }
  assert (Mk : forall e l, In e (mkset l) <-> In e l) by (intros e l; apply set_of_mkset).
  rewrite E, build_edges, New. split.
  - intros [[D|D]|[D|[D|D]]].
    + left. exact D.
    + right. left. exact D.
    + right. right. left. destruct D as (y & Iy & Sy & ->). apply NR in Iy as (r & Ir & ->). exists r. split; [exact Ir|]. split; [|reflexivity]. intros e I. apply Sy. apply Mk. exact I.
    + right. right. right. left. destruct D as (y & Iy & Sy & ->). apply NP in Iy as (r & Ir & ->). exists r. split; [exact Ir|]. split; [|reflexivity]. apply Mk. exact Sy.
    + right. right. right. right. destruct D as ((a & b & -> & J1 & J2) & Na & Nb). cbn [fst snd] in Na, Nb. apply NP in Na as (r & Ir & ->). apply NR in Nb as (r' & Ir' & ->).
      exists r, r'. split; [exact Ir|]. split; [exact Ir'|]. split; [|split; [|reflexivity]].
      * intros e I. apply in_or_app. destruct (J1 e) as [J|J]; [apply Mk; exact I|left; exact J|right; apply Mk; exact J].
      * intros Sb. apply J2. intros e I. apply Sb. apply Mk. exact I.
  - intros [D|[D|[D|[D|D]]]].
    + left. left. exact D.
    + left. right. exact D.
    + right. left. destruct D as (r & Ir & Sr & ->). exists (mkset (n_reactants r)). split; [apply NR; exists r; auto|]. split; [|reflexivity]. intros e I. apply Sr. apply Mk. exact I.
    + right. right. left. destruct D as (r & Ir & Sr & ->). exists (mkset (n_products r)). split; [apply NP; exists r; auto|]. split; [|reflexivity]. apply Mk. exact Sr.
    + right. right. right. destruct D as (r & r' & Ir & Ir' & Sr & Nr & ->). cbn [fst snd]. split; [|split; [apply NP; exists r; auto|apply NR; exists r'; auto]].
      exists (mkset (n_products r)), (mkset (n_reactants r')). split; [reflexivity|]. split.
      * intros e I. apply (proj1 (Mk e (n_reactants r'))) in I. apply Sr, in_app_or in I as [I|I]; [left; exact I|right; apply Mk; exact I].
      * intros Sb. apply Nr. intros e I. apply Sb. apply Mk. exact I.
Qed.

Theorem find_routes ops w ps targets k : Forall (acceptable entries) ops -> run_ops start ops = Ok w ->
  nth_error (rev (precursors_of ops)) 0 = Some ps -> (forall a, In a (precursors_of ops) -> forall e, In e a <-> In e ps) -> Forall (fun t => In t entries) targets ->
  exists w' per, find_pathways cost sp w targets k = Ok (w', concat per) /\ length per = length targets
  /\ forall i t pathways, nth_error targets i = Some t -> nth_error per i = Some pathways ->
       routes_found cost rxns ps t k pathways
       /\ (distinct_sides rxns -> forall l rest, pathways = l :: rest -> forall rs, incl rs rxns -> route ps t [] rs -> (total l <= price cost rs)%Q).
Proof.
  intros Ha HR Hp Hc Ht. destruct (find_pathways_spec entries rxns Hr cost Hcost sp Hsp ops w ps targets k Ha HR Hp Ht) as (w' & per & x & Sx & F1 & _ & F3 & F4).
  exists w', per. split; [exact F1|]. split; [exact F3|]. intros i t pathways Ni Np. destruct (F4 i t pathways Ni Np) as (w1 & g & s & tn & R1 & G1 & Hs & Htn & Fd).
  assert (x = mkset ps) by exact (set_unique _ _ Sx). subst x.
  set (ops1 := ops ++ map SetTarget (firstn (S i) targets)).
  assert (R2 : run_ops start ops1 = Ok w1) by (unfold ops1; rewrite run_ops_app, HR; exact R1).
  assert (Fi : firstn (S i) targets = firstn i targets ++ [t]).
  { clear -Ni. revert targets Ni. induction i as [|i IH]; intros [|u targets] Ni; try discriminate Ni; [cbn in *; congruence|]. rewrite !firstn_cons. cbn [app]. f_equal. apply IH. exact Ni. }
  destruct (last_sets ops t (firstn i targets)) as [_ LT]. rewrite <- Fi in LT. fold ops1 in LT.
  destruct (last_sets ops t (firstn (S i) targets)) as [LP _]. fold ops1 in LP.
  assert (Ha1 : Forall (acceptable entries) ops1).
  { unfold ops1. apply Forall_app. split; [exact Ha|]. apply Forall_forall. intros o I. apply in_map_iff in I as (u & <- & I). cbn. rewrite Forall_forall in Ht. apply Ht.
    rewrite <- (firstn_skipn (S i) targets). apply in_or_app. left. exact I. }
  destruct (net_edges ops1 w1 g ps t Ha1 R2 G1) as (Dn & Cl & HE); [rewrite LP; exact Hp|rewrite LP; exact Hc|rewrite LT; reflexivity|].
  destruct (found_routes rxns g ps (mkset ps) t s tn cost Hcost Cl Dn Hs Htn HE k pathways Fd) as [RF Best]. split; [exact RF|].
  intros Hd l rest E rs Inc R. apply (Best l rest E); [|exact Inc|exact R]. intros p' c' _ W T.
  destruct (run_history entries rxns Hr ops1 Ha1) as (w0 & hist & R0 & I0 & _). assert (w0 = w1) by congruence. subst w0.
  destruct (inv_typed _ _ _ _ _ _ _ I0 G1) as [Ty _].
  exact (tells_total cost g s tn p' l c' (inv_distinct _ _ _ _ _ _ _ Hd I0 G1) Ty W T).
Qed.

Theorem routes_spec ops w ps targets k : Forall (acceptable entries) ops -> run_ops start ops = Ok w ->
  nth_error (rev (precursors_of ops)) 0 = Some ps -> (forall a, In a (precursors_of ops) -> forall e, In e a <-> In e ps) -> Forall (fun t => In t entries) targets ->
  exists w' per, find_pathways cost sp w targets k = Ok (w', concat per) /\ Forall2 (fun t pathways => routes_found cost rxns ps t k pathways) targets per.
Proof.
  intros Ha HR Hp Hc Ht. destruct (find_routes ops w ps targets k Ha HR Hp Hc Ht) as (w' & per & F1 & F2 & F3). exists w', per. split; [exact F1|].
  clear -F2 F3. revert per F2 F3. induction targets as [|t targets IH]; intros [|p per] F2 F3; try discriminate F2; constructor.
  - apply (F3 0 t p eq_refl eq_refl).
  - apply IH; [cbn in F2; lia|]. intros i u q. exact (F3 (S i) u q).
Qed.

Theorem first_cheapest ops w ps t k : distinct_sides rxns -> Forall (acceptable entries) ops -> run_ops start ops = Ok w ->
  nth_error (rev (precursors_of ops)) 0 = Some ps -> (forall a, In a (precursors_of ops) -> forall e, In e a <-> In e ps) -> In t entries ->
  forall rs, incl rs rxns -> route ps t [] rs ->
  exists w' l rest, find_pathways cost sp w [t] k = Ok (w', l :: rest) /\ (total l <= price cost rs)%Q.
Proof.
  intros Hd Ha HR Hp Hc Ht rs Inc R. destruct (find_routes ops w ps [t] k Ha HR Hp Hc) as (w' & per & F1 & F2 & F3); [constructor; [exact Ht|constructor]|].
  destruct per as [|p [|q per]]; try discriminate F2. cbn [concat] in F1. rewrite app_nil_r in F1. destruct (F3 0 t p eq_refl eq_refl) as [(_ & _ & _ & E) B].
  destruct p as [|l rest]; [exfalso; exact (proj1 E eq_refl rs Inc R)|]. exists w', l, rest. split; [exact F1|]. exact (B Hd l rest eq_refl rs Inc R).
Qed.
End Find.
