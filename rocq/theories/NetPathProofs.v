(* Pathways of the network: what find_pathways returns (C36, C38). *)
From Verif Require Import Prelude NumQ ListFacts UtilsProofs EnumModel EnumProofs EnumReactProofs NetModel NetSpec NetProofs NetHistoryProofs YenModel YenSpec YenProofs YenOptProofs.
From Coq Require Import Lqa.
Open Scope nat_scope.

(* Exactly the reactions lead to product nodes. *)
Definition typed (g : net) : Prop := forall i j p, In (i, j, p) (g_edges g) ->
  exists n, has g j n /\ (is_rxn p = true <-> fst n = Products).

Lemma node_at_has (g : net) i n : has g i n -> node_at g i = Some n.
Proof. unfold has, node_at. intros ->. reflexivity. Qed.

Section Path.
Variable cost : nrxn -> Q.
Variable g : net.
Hypothesis Hty : typed g.

Lemma path_from_spec s t p l0 : labelled (g_edges g) s t p l0 -> forall rest, p = s :: rest ->
  exists l, labelled (g_edges g) s t p l /\ path_from cost g s rest = Ok (map (fun e => (e, edge_weight cost e)) (filter is_rxn l)).
Proof.
  induction 1 as [t|i j t e p l He Hl IH]; intros rest Hr; injection Hr as <-.
  - exists []. split; [constructor|reflexivity].
  - assert (Hp : exists q, p = j :: q) by (inversion Hl; subst; eexists; reflexivity). destruct Hp as (q & ->). destruct (IH q eq_refl) as (l' & L1 & L2).
    destruct (edge_data_ok _ _ _ _ He) as (e' & D1 & D2). destruct (Hty _ _ _ D2) as (n & Hn & Hiff).
    exists (e' :: l'). split; [econstructor; eassumption|]. cbn [path_from]. rewrite (node_at_has _ _ _ Hn). cbn [filter]. destruct (is_rxn e') eqn:R.
    + rewrite (proj1 Hiff eq_refl). cbn [ntype_eqb]. rewrite D1. cbn [bind]. rewrite L2. reflexivity.
    + destruct (ntype_eqb (fst n) Products) eqn:T; [apply ntype_eqb_iff in T; apply Hiff in T; discriminate|exact L2].
Qed.
Lemma path_tells s t p l0 n : labelled (g_edges g) s t p l0 -> has g s n -> fst n <> Products ->
  exists l, path_from_graph cost g p = Ok l /\ tells cost g s t p l.
Proof.
  intros Hl Hs Hn. assert (Hp : exists q, p = s :: q) by (inversion Hl; subst; eexists; reflexivity). destruct Hp as (q & ->).
  destruct (path_from_spec _ _ _ _ Hl q eq_refl) as (l & L1 & L2). exists (map (fun e => (e, edge_weight cost e)) (filter is_rxn l)). split.
  - unfold path_from_graph. cbn [path_from]. rewrite (node_at_has _ _ _ Hs). destruct (ntype_eqb (fst n) Products) eqn:T; [apply ntype_eqb_iff in T; contradiction|]. exact L2.
  - exists l. split; [exact L1|]. split; [rewrite map_map; apply map_id|]. apply Forall_forall. intros x Hx. apply in_map_iff in Hx as (e & <- & _). destruct e; reflexivity.
Qed.
End Path.

Lemma walk_labelled cost (es : list (nat * nat * payload)) s t p c : walk (cost_of cost) es s t p c -> exists l, labelled es s t p l.
Proof.
  induction 1 as [t c Hc|i j t e p c d He Hw IH Hd]; [exists []; constructor|]. destruct IH as (l & L). exists (e :: l). econstructor; eassumption.
Qed.

(* Without parallel reactions the total is the cost of the walk. *)
Lemma tells_total cost (g : net) s t p l c : (forall i j r r', In (i, j, Rxn r) (g_edges g) -> In (i, j, Rxn r') (g_edges g) -> r = r') -> typed g ->
  walk (cost_of cost) (g_edges g) s t p c -> tells cost g s t p l -> (total l == c)%Q.
Proof.
  intros Hu Hty W (labels & L & Hf & Hc).
  assert (Ht : forall labels l, map fst l = filter is_rxn labels -> Forall (fun x => snd x = cost_of cost (fst x)) l ->
    (total l == fold_right (fun e d => (cost_of cost e + d)%Q) 0%Q labels)%Q).
  { clear. induction labels as [|e labels IH]; intros l Hf Hc; cbn [filter fold_right] in *.
    - apply map_eq_nil in Hf as ->. reflexivity.
    - destruct e as [r| | |]; cbn [is_rxn] in Hf.
      + destruct l as [|x l]; [discriminate|]. cbn [map] in Hf. injection Hf as Hx Hf. inversion Hc as [|? ? C1 C2]; subst. cbn [total fold_right]. rewrite C1, Hx. fold (total l).
        rewrite (IH l Hf C2). reflexivity.
      + rewrite (IH l Hf Hc). cbn [cost_of]. ring.
      + rewrite (IH l Hf Hc). cbn [cost_of]. ring.
      + rewrite (IH l Hf Hc). cbn [cost_of]. ring. }
  rewrite (Ht labels l Hf Hc). clear Ht Hf Hc. revert c W. induction L as [t|i j t e p l' He Hl IH]; intros c W.
  - inversion W as [? ? Hc|? ? ? ? ? ? ? Hi Hw]; subst; [symmetry; exact Hc|inversion Hw].
  - inversion W as [? ? Hc|? j' ? e' ? c' ? Hi Hw Hd]; subst; [inversion Hl|].
    assert (j' = j) as -> by (inversion Hl; subst; inversion Hw; subst; congruence).
    cbn [fold_right]. rewrite (IH c' Hw), Hd. apply Qplus_comp; [|reflexivity].
    destruct (Hty _ _ _ He) as (n & Hn & T1). destruct (Hty _ _ _ Hi) as (n' & Hn' & T2). assert (n' = n) as -> by (unfold has in *; congruence).
    destruct (is_rxn e) eqn:R.
    + destruct (is_rxn e') eqn:R'; [|exfalso; assert (fst n = Products) as Q by (apply T1; reflexivity); apply T2 in Q; discriminate].
      destruct e as [r| | |]; try discriminate. destruct e' as [r'| | |]; try discriminate. rewrite (Hu _ _ _ _ He Hi). reflexivity.
    + destruct (is_rxn e') eqn:R'; [exfalso; assert (fst n = Products) as Q by (apply T2; reflexivity); apply T1 in Q; discriminate|].
      destruct e as [r| | |]; try discriminate; destruct e' as [r'| | |]; try discriminate; reflexivity.
Qed.

(* --- histories give typed graphs --- *)
Section Net.
Variable entries : list nat.
Variable rxns : list nrxn.
Hypothesis Hr : rxns <> [].
Let base := fst (rxn_nodes_and_edges rxns).
Let E0 := g_edges (build rxns).

Lemma E0_kind i j p : In (i, j, p) E0 -> exists n, nth_error base j = Some n /\ (is_rxn p = true <-> fst n = Products).
Proof.
  destruct (rxn_nodes_spec rxns) as (_ & _ & N3). destruct (build_parts rxns) as (_ & _ & S3). fold base in N3, S3. unfold E0. rewrite S3. intros He. apply in_rev in He.
  apply in_app_iff in He as [He|He].
  - destruct (Forall2_In_r _ _ _ _ N3 He) as (r & _ & (a & b & E & Hi & Hj)). injection E as -> -> ->. eexists. split; [exact Hj|]. simpl. tauto.
  - apply (proj2 (loopback_spec base)) in He as (a & b & x & E & Hi & Hj). injection E as -> -> ->. eexists. split; [exact Hj|]. simpl. split; discriminate.
Qed.
Lemma E0_rxn i j r : In (i, j, Rxn r) E0 -> In r rxns /\ nth_error base i = Some (Reactants, mkset (n_reactants r)) /\ nth_error base j = Some (Products, mkset (n_products r)).
Proof.
  destruct (rxn_nodes_spec rxns) as (_ & _ & N3). destruct (build_parts rxns) as (_ & _ & S3). fold base in N3, S3. unfold E0. rewrite S3. intros He. apply in_rev in He.
  apply in_app_iff in He as [He|He].
  - destruct (Forall2_In_r _ _ _ _ N3 He) as (r' & Hin & (a & b & E & Hi & Hj)). injection E as -> -> ->. auto.
  - apply (proj2 (loopback_spec base)) in He as (a & b & x & E & Hi & Hj). discriminate.
Qed.
Lemma iP_kind ps k i j p : In (i, j, p) (iP base ps k) -> is_rxn p = false /\ exists x, nth_error base j = Some (Reactants, x).
Proof.
  intros H. apply in_flat_map in H as ([a [ty x]] & Ha & H). cbn [fst snd] in H. destruct ty; try destruct H. destruct (subset x ps); [|destruct H]. destruct H as [H|[]]. injection H as <- <- <-.
  apply in_enumerate in Ha. split; [reflexivity|]. exists x. exact Ha.
Qed.
Lemma iL_kind ps i j p : In (i, j, p) (iL base ps) -> is_rxn p = false /\ exists x, nth_error base j = Some (Reactants, x).
Proof.
  intros H. apply in_flat_map in H as ([a [ty x]] & Ha & H). cbn [fst snd] in H. destruct ty; try destruct H. apply in_flat_map in H as ([b y] & Hb & H). cbn [fst snd] in H.
  destruct (ntype_eqb (fst y) Reactants) eqn:T; [|destruct H]. apply ntype_eqb_iff in T. destruct (negb (subset (snd y) ps) && subset (snd y) (ps ++ x)) eqn:C.
  - cbn [andb] in H. rewrite C in H. destruct H as [H|[]]. injection H as <- <- <-. apply in_enumerate in Hb. split; [reflexivity|]. destruct y as [ty y]. cbn [fst] in T. subst ty. exists y. exact Hb.
  - cbn [andb] in H. rewrite C in H. destruct H.
Qed.
Lemma iT_kind t k i j p : In (i, j, p) (iT base t k) -> is_rxn p = false /\ j = k.
Proof.
  intros H. apply in_flat_map in H as ([a x] & Ha & H). cbn [fst snd] in H. destruct (ntype_eqb (fst x) Products && inb t (snd x)); [|destruct H]. destruct H as [H|[]]. injection H as <- <- <-. auto.
Qed.
Lemma inv_typed w P T hist g : inv base entries rxns E0 w P T hist -> w_graph w = Some g ->
  typed g /\ (forall i j r, In (i, j, Rxn r) (g_edges g) -> In r rxns /\ has g i (Reactants, mkset (n_reactants r)) /\ has g j (Products, mkset (n_products r))).
Proof.
  intros (b & g' & ext & -> & Hs & Hf & Hp & He) Hg. cbn [w_graph] in Hg. injection Hg as ->.
  assert (Hb : forall i n, nth_error base i = Some n -> has g i n) by (intros i n Hi; unfold has; rewrite Hs; apply slots_base; exact Hi).
  assert (Hx : forall k ext' pre, ext = pre ++ ext' -> k = length base + length pre -> forall i j p, In (i, j, p) (extE base k ext') ->
     is_rxn p = false /\ exists n, has g j n /\ fst n <> Products).
  { intros k ext'. revert k. induction ext' as [|n ext' IH]; intros k pre Hpre Hk i j p H; [destruct H|]. cbn [extE] in H. apply in_app_iff in H as [H|H].
    - assert (Hkn : has g k n). { unfold has. rewrite Hs. apply nth_map_some. rewrite Hpre, Hk, nth_error_app2 by lia. replace (length base + length pre - length base) with (length pre) by lia.
        rewrite nth_error_app2, Nat.sub_diag by lia. reflexivity. }
      destruct n as [ty x]. cbn [edges_of] in H. destruct ty; try destruct H.
      + apply iP_kind in H as (K1 & y & K2). split; [exact K1|]. exists (Reactants, y). split; [apply Hb; exact K2|discriminate].
      + destruct x as [|t [|]]; try destruct H. apply iT_kind in H as (K1 & ->). split; [exact K1|]. exists (Target, [t]). split; [exact Hkn|discriminate].
    - apply (IH (S k) (pre ++ [n])) in H; [exact H|rewrite Hpre, <- app_assoc; reflexivity|rewrite app_length; simpl; lia]. }
  assert (Hsplit : forall i j p, In (i, j, p) (g_edges g) -> In (i, j, p) E0 \/ is_rxn p = false /\ exists n, has g j n /\ fst n <> Products).
  { intros i j p H. apply (Permutation_in _ He) in H. apply in_app_iff in H as [H|H]; [apply in_app_iff in H as [H|H]; [left; exact H|]|].
    - right. apply in_flat_map in H as (ps & _ & H). apply iL_kind in H as (K1 & y & K2). split; [exact K1|]. exists (Reactants, y). split; [apply Hb; exact K2|discriminate].
    - right. apply (Hx (length base) ext []) in H; [exact H|reflexivity|simpl; lia]. }
  split.
  - intros i j p H. apply Hsplit in H as [H|(K1 & n & K2 & K3)].
    + apply E0_kind in H as (n & Hn & Hiff). exists n. split; [apply Hb; exact Hn|exact Hiff].
    + exists n. split; [exact K2|]. rewrite K1. split; [discriminate|contradiction].
  - intros i j r H. apply Hsplit in H as [H|(K1 & _)]; [|discriminate]. apply E0_rxn in H as (H1 & H2 & H3). auto.
Qed.

Lemma inv_distinct w P T hist g : distinct_sides rxns -> inv base entries rxns E0 w P T hist -> w_graph w = Some g ->
  forall i j r r', In (i, j, Rxn r) (g_edges g) -> In (i, j, Rxn r') (g_edges g) -> r = r'.
Proof.
  intros Hd Hi Hg i j r r' H H'. destruct (inv_typed _ _ _ _ _ Hi Hg) as [_ K]. destruct (K _ _ _ H) as (I1 & A1 & B1). destruct (K _ _ _ H') as (I2 & A2 & B2).
  unfold has in *. rewrite A1 in A2. rewrite B1 in B2. injection A2 as A. injection B2 as B. apply In_nth_error in I1 as (a & I1). apply In_nth_error in I2 as (b & I2).
  assert (a = b); [|congruence]. apply (Hd a b r r' I1 I2); intros e.
  - rewrite <- (proj2 (set_of_mkset (n_reactants r)) e), A. apply set_of_mkset.
  - rewrite <- (proj2 (set_of_mkset (n_products r)) e), B. apply set_of_mkset.
Qed.

Lemma find_node_has (g : net) i n : distinct_nodes g -> has g i n -> find_node node_eqb g n = Some i.
Proof.
  intros Hd Hi. unfold find_node. destruct (find (fun x => node_eqb (snd x) n) (nodes g)) as [[j m]|] eqn:F.
  - apply find_some in F as [F1 F2]. cbn [snd] in F2. apply node_eqb_iff in F2 as ->. apply nodes_iff in F1. cbn [option_map fst]. f_equal. exact (Hd j i n F1 Hi).
  - exfalso. apply nodes_iff in Hi. pose proof (find_none _ _ F _ Hi) as C. cbn [snd] in C. rewrite (proj2 (node_eqb_iff n n) eq_refl) in C. discriminate.
Qed.

Variable cost : nrxn -> Q.
Hypothesis Hcost : forall r, In r rxns -> (0 <= cost r)%Q.
Variable sp : list (nat * nat * payload) -> nat -> nat -> option (list nat).
Hypothesis Hsp : shortest (cost_of cost) sp.

Lemma k_shortest_found w x t hist k : inv base entries rxns E0 w (Some x) (Some t) hist ->
  exists g s tn pathways, w_graph w = Some g /\ has g s (Precursors, x) /\ has g tn (Target, [t])
  /\ k_shortest_paths cost sp w k = Ok pathways /\ found cost g s tn k pathways.
Proof.
  intros Hi. destruct (inv_data base (base_types rxns) entries rxns E0 (E0_inside rxns) (base_nodup rxns) _ _ _ _ Hi) as (g & G1 & G2 & G3 & G4 & _ & G6 & G7).
  destruct (inv_typed _ _ _ _ _ Hi G1) as [Ty Tr].
  assert (Hin : forall n, In n (node_data g) -> exists i, has g i n).
  { intros n Hn. unfold node_data in Hn. apply in_flat_map in Hn as ([m|] & Hm & Hn); [|destruct Hn]. destruct Hn as [<-|[]]. apply In_nth_error in Hm as (i & Hm). exists i. exact Hm. }
  destruct (Hin (Precursors, x)) as (s & Hs); [apply (Permutation_in _ (Permutation_sym G4)), in_app_iff; right; left; reflexivity|].
  destruct (Hin (Target, [t])) as (tn & Ht); [apply (Permutation_in _ (Permutation_sym G4)), in_app_iff; right; right; left; reflexivity|].
  assert (Hst : s <> tn) by (intros ->; unfold has in *; congruence).
  assert (Hnn : non_negative (cost_of cost) (g_edges g)).
  { intros [[i j] p] He. cbn [snd]. destruct p as [r| | |]; cbn [cost_of]; try lra. apply Hcost. apply (Tr _ _ _ He). }
  destruct (yens_general (cost_of cost) sp Hsp (g_edges g) s tn Hnn Hst k) as (paths & Y1 & Y2 & Y3 & Y4 & Y5 & Y6).
  assert (HM : exists pathways, mapM (path_from_graph cost g) paths = Ok pathways
     /\ Forall2 (fun p l => (exists c, walk (cost_of cost) (g_edges g) s tn p c) /\ tells cost g s tn p l) paths pathways).
  { clear Y1 Y3 Y4 Y5 Y6. induction paths as [|p paths IH]; [exists []; split; [reflexivity|constructor]|]. inversion Y2 as [|? ? (c & W) Y2']; subst.
    destruct (IH Y2') as (pw & I1 & I2). destruct (walk_labelled _ _ _ _ _ _ W) as (l0 & L0). destruct (path_tells cost g Ty s tn p l0 _ L0 Hs) as (l & P1 & P2); [discriminate|].
    exists (l :: pw). split; [cbn [mapM]; rewrite P1; cbn [bind]; rewrite I1; reflexivity|]. constructor; [|exact I2]. split; [exists c; exact W|exact P2]. }
  destruct HM as (pathways & M1 & M2). exists g, s, tn, pathways. split; [exact G1|]. split; [exact Hs|]. split; [exact Ht|]. split.
  - destruct Hi as (b & g' & ext & Ew & Hsl & _). unfold k_shortest_paths. rewrite (get_graph_inv base (base_nonempty rxns Hr) w g G1 ext).
    + cbn [bind]. rewrite G2, G3, (find_node_has g s _ G6 Hs), (find_node_has g tn _ G6 Ht).
      change (edge_weight cost) with (cost_of cost). rewrite Y1. cbn [bind]. exact M1.
    + rewrite Ew in G1. cbn [w_graph] in G1. injection G1 as <-. exact Hsl.
  - exists paths. auto 8.
Qed.

Lemma find_loop_found k x targets : forall w T hist, inv base entries rxns E0 w (Some x) T hist -> Forall (fun t => In t entries) targets ->
  exists w' per, find_loop cost sp w k targets = Ok (w', concat per) /\ run_ops w (map SetTarget targets) = Ok w' /\ length per = length targets
  /\ forall i t pathways, nth_error targets i = Some t -> nth_error per i = Some pathways ->
       exists w1 g s tn, run_ops w (map SetTarget (firstn (S i) targets)) = Ok w1 /\ w_graph w1 = Some g /\ has g s (Precursors, x) /\ has g tn (Target, [t]) /\ found cost g s tn k pathways.
Proof.
  induction targets as [|t targets IH]; intros w T hist Hi Ha; cbn [find_loop map run_ops].
  - exists w, []. split; [reflexivity|]. split; [reflexivity|]. split; [reflexivity|]. intros [|i] t p H; discriminate.
  - inversion Ha as [|? ? Ht Ha']; subst. destruct (step_target base (base_types rxns) entries rxns E0 (E0_inside rxns) (base_nonempty rxns Hr) w _ _ hist t Hi Ht) as (w1 & R1 & I1 & _).
    cbn [run_op] in R1. rewrite R1. cbn [bind run_op]. destruct (k_shortest_found w1 x t hist k I1) as (g & s & tn & pw & K1 & K2 & K3 & K4 & K5). rewrite K4. cbn [bind].
    destruct (IH w1 _ hist I1 Ha') as (w' & per & F1 & F2 & F3 & F4). rewrite F1. cbn [bind fst snd]. exists w', (pw :: per). split; [reflexivity|]. rewrite R1. cbn [bind].
    split; [exact F2|]. split; [simpl; f_equal; exact F3|]. intros [|i] t' p Hn Hp.
    + injection Hn as <-. injection Hp as <-. exists w1, g, s, tn. cbn [firstn map run_ops run_op]. rewrite R1. cbn [bind]. auto.
    + destruct (F4 i t' p Hn Hp) as (w2 & g2 & s2 & tn2 & L1 & L2). exists w2, g2, s2, tn2. split; [|exact L2]. rewrite firstn_cons. cbn [map run_ops run_op]. rewrite R1. exact L1.
Qed.

Theorem find_pathways_spec ops w ps targets k : Forall (acceptable entries) ops -> run_ops (net_build (new_network entries rxns)) ops = Ok w ->
  nth_error (rev (precursors_of ops)) 0 = Some ps -> Forall (fun t => In t entries) targets ->
  exists w' per x, set_of ps x /\ find_pathways cost sp w targets k = Ok (w', concat per) /\ run_ops w (map SetTarget targets) = Ok w' /\ length per = length targets
  /\ forall i t pathways, nth_error targets i = Some t -> nth_error per i = Some pathways ->
       exists w1 g s tn, run_ops w (map SetTarget (firstn (S i) targets)) = Ok w1 /\ w_graph w1 = Some g /\ has g s (Precursors, x) /\ has g tn (Target, [t]) /\ found cost g s tn k pathways.
Proof.
  intros Ha HR Hps Ht. destruct (run_history entries rxns Hr ops Ha) as (w0 & hist & R & I & _). rewrite HR in R. injection R as <-.
  assert (L : last_set ops = Some (mkset ps)) by (unfold last_set; destruct (rev (precursors_of ops)); [discriminate|injection Hps as ->; reflexivity]). rewrite L in I.
  destruct (find_loop_found k (mkset ps) targets w _ hist I Ht) as (w' & per & F). exists w', per, (mkset ps). split; [apply set_of_mkset|].
  destruct F as (F1 & F2). split; [|exact F2]. unfold find_pathways. destruct I as (b & g & ext & Ew & _). rewrite Ew at 1. cbn [w_precursors].
  assert (Hne : mkset ps <> []).
  { apply mkset_nonempty. apply nth_error_In in Hps. apply in_rev in Hps. unfold precursors_of in Hps. apply in_flat_map in Hps as ([q|t] & Hq & Hin); [|destruct Hin]. destruct Hin as [<-|[]].
    rewrite Forall_forall in Ha. apply (Ha _ Hq). }
  destruct (mkset ps) as [|e l] eqn:Em; [contradiction|]. cbn [truthy]. exact F1.
Qed.

Theorem pathway_cost ops w g s n t p c : Forall (acceptable entries) ops -> run_ops (net_build (new_network entries rxns)) ops = Ok w -> w_graph w = Some g ->
  has g s n -> fst n = Precursors -> walk (cost_of cost) (g_edges g) s t p c ->
  exists l, path_from_graph cost g p = Ok l /\ tells cost g s t p l /\ (distinct_sides rxns -> (total l == c)%Q).
Proof.
  intros Ha HR Hg Hs Hn W. destruct (run_history entries rxns Hr ops Ha) as (w0 & hist & R & I & _). rewrite HR in R. injection R as <-.
  destruct (inv_typed _ _ _ _ _ I Hg) as [Ty _]. destruct (walk_labelled _ _ _ _ _ _ W) as (l0 & L0). destruct (path_tells cost g Ty s t p l0 n L0 Hs) as (l & P1 & P2); [rewrite Hn; discriminate|].
  exists l. split; [exact P1|]. split; [exact P2|]. intros Hd. apply (tells_total cost g s t p l c (inv_distinct _ _ _ _ _ Hd I Hg) Ty W P2).
Qed.
End Net.

(* --- networks without loop-back edges (C37) --- *)
Lemma rank_levelled {E} (weight : E -> Q) es s t (rank : nat -> nat) : (forall i j e, In (i, j, e) es -> rank j = S (rank i)) -> levelled weight es s t.
Proof.
  intros Hr. assert (H : forall s t p c, walk weight es s t p c -> forall i x, nth_error p i = Some x -> rank x = rank s + i).
  { induction 1 as [t' c Hc|i j t' e p c d He W IH Hd]; intros k x Hk.
    - destruct k as [|[|k]]; [injection Hk as <-; lia|discriminate|discriminate].
    - destruct k as [|k]; [injection Hk as <-; lia|]. cbn [nth_error] in Hk. rewrite (IH k x Hk), (Hr _ _ _ He). lia. }
  intros p c q d i j x Wp Wq Hi Hj. pose proof (H _ _ _ _ Wp i x Hi). pose proof (H _ _ _ _ Wq j x Hj). lia.
Qed.
Lemma NoDup_fst_flat {A B C} (f : nat * A -> list (B * C)) (l : list A) (key : B -> nat) :
  (forall x y, In y (f x) -> key (fst y) = fst x) -> (forall x, length (f x) <= 1) -> NoDup (map fst (flat_map f (enumerate l))).
Proof.
  intros Hk Hl. unfold enumerate. assert (K : forall n, NoDup (map fst (flat_map f (combine (seq n (length l)) l))) /\ forall y, In y (flat_map f (combine (seq n (length l)) l)) -> n <= key (fst y)).
  { induction l as [|a l IH]; intros n; cbn [length seq combine flat_map]; [split; [constructor|intros y []]|]. destruct (IH (S n)) as [I1 I2].
    rewrite map_app. split.
    - apply NoDup_app_intro; [|exact I1|].
      + pose proof (Hl (n, a)) as L. destruct (f (n, a)) as [|y [|z r]]; simpl in *; [constructor|repeat constructor; intros []|lia].
      + intros b Hb Hb'. apply in_map_iff in Hb as (y & <- & Hy). apply in_map_iff in Hb' as (y' & Ey & Hy'). apply Hk in Hy. cbn [fst] in Hy. apply I2 in Hy'. rewrite Ey in Hy'. lia.
    - intros y Hy. apply in_app_iff in Hy as [Hy|Hy]; [apply Hk in Hy; cbn [fst] in Hy; lia|apply I2 in Hy; lia]. }
  apply (K 0).
Qed.
Lemma nodup_dec_perm {A B} (f : A -> B) l l' : Permutation l l' -> NoDup (map f l') -> NoDup (map f l).
Proof. intros H. apply Permutation_NoDup, Permutation_map, Permutation_sym. exact H. Qed.

Section OneStep.
Variable entries : list nat.
Variable rxns : list nrxn.
Hypothesis Hr : rxns <> [].
Let base := fst (rxn_nodes_and_edges rxns).
Let E0 := g_edges (build rxns).

Lemma rxn_edges_nodup : distinct_sides rxns -> NoDup (map fst (snd (rxn_nodes_and_edges rxns))).
Proof.
  intros Hd. destruct (rxn_nodes_spec rxns) as (_ & _ & N3). fold base in N3. apply NoDup_nth_error. intros a b Ha Hab. rewrite map_length in Ha.
  rewrite !nth_error_map in Hab. destruct (nth_error (snd (rxn_nodes_and_edges rxns)) a) as [ea|] eqn:Ea; [|apply nth_error_None in Ea; lia].
  destruct (nth_error (snd (rxn_nodes_and_edges rxns)) b) as [eb|] eqn:Eb; [|discriminate]. simpl in Hab. injection Hab as Hab.
  assert (K : forall i e (l : list nrxn) es, Forall2 (rxn_edge base) l es -> nth_error es i = Some e -> exists r, nth_error l i = Some r /\ rxn_edge base r e).
  { clear. intros i e l es H. revert i. induction H as [|r e' l es H1 H2 IH]; intros i Hi; [destruct i; discriminate|]. destruct i as [|i]; [injection Hi as ->; exists r; auto|apply IH; exact Hi]. }
  destruct (K _ _ _ _ N3 Ea) as (r & Hra & (i & j & -> & Hi & Hj)). destruct (K _ _ _ _ N3 Eb) as (r' & Hrb & (i' & j' & -> & Hi' & Hj')). cbn [fst] in Hab. injection Hab as <- <-.
  rewrite Hi in Hi'. rewrite Hj in Hj'. injection Hi' as A. injection Hj' as B. apply (Hd a b r r' Hra Hrb); intros e.
  - rewrite <- (proj2 (set_of_mkset (n_reactants r)) e), A. apply set_of_mkset.
  - rewrite <- (proj2 (set_of_mkset (n_products r)) e), B. apply set_of_mkset.
Qed.
Lemma iP_nodup ps k : NoDup (map fst (iP base ps k)).
Proof.
  unfold iP. apply (NoDup_fst_flat _ base (fun b => snd b)).
  - intros [i [ty x]] y. cbn [fst snd]. destruct ty; try (intros []). destruct (subset x ps); [|intros []]. intros [<-|[]]. reflexivity.
  - intros [i [ty x]]. cbn [fst snd]. destruct ty; simpl; try lia. destruct (subset x ps); simpl; lia.
Qed.
Lemma iT_nodup t k : NoDup (map fst (iT base t k)).
Proof.
  unfold iT. apply (NoDup_fst_flat _ base (fun b => fst b)).
  - intros [i x] y. cbn [fst snd]. destruct (ntype_eqb (fst x) Products && inb t (snd x)); [|intros []]. intros [<-|[]]. reflexivity.
  - intros [i x]. cbn [fst snd]. destruct (ntype_eqb (fst x) Products && inb t (snd x)); simpl; lia.
Qed.
Lemma extE_nodup ext : forall k, length base <= k -> NoDup (map fst (extE base k ext)).
Proof.
  induction ext as [|n ext IH]; intros k Hk; [constructor|]. cbn [extE]. rewrite map_app. apply NoDup_app_intro.
  - destruct n as [[]]; cbn [edges_of]; try constructor; [apply iP_nodup|]. destruct l as [|t [|]]; try constructor. apply iT_nodup.
  - apply IH. lia.
  - intros b Hb Hb'. apply in_map_iff in Hb as ([[i j] p] & <- & Hy). apply in_map_iff in Hb' as ([[i' j'] p'] & Ey & Hy'). cbn [fst] in Ey. injection Ey as -> ->.
    apply edges_of_ends in Hy. apply extE_in in Hy' as (m & n' & Hm & Hy'). apply edges_of_ends in Hy'. lia.
Qed.

Lemma no_loopback_plain w P T hist g : distinct_sides rxns -> inv base entries rxns E0 w P T hist -> w_graph w = Some g ->
  (forall i j, ~ In (i, j, Loopback) (g_edges g)) -> no_parallel (g_edges g).
Proof.
  intros Hd (b & g' & ext & -> & Hs & Hf & Hp & He) Hg Hno. cbn [w_graph] in Hg. injection Hg as ->.
  assert (HL : flat_map (iL base) hist = []).
  { apply incl_l_nil. intros [[i j] p] Hin. exfalso. assert (p = Loopback).
    { apply in_flat_map in Hin as (ps & _ & H). apply in_flat_map in H as ([a [ty x]] & Ha & H). cbn [fst snd] in H. destruct ty; try destruct H.
      apply in_flat_map in H as ([c y] & _ & H). match type of H with In _ (if ?c then _ else _) => destruct c; [|destruct H] end. destruct H as [H|[]]. injection H as _ _ <-. reflexivity. }
    subst p. apply (Hno i j). apply (Permutation_in _ (Permutation_sym He)). apply in_app_iff. left. apply in_app_iff. right. exact Hin. }
  assert (HE : Permutation E0 (snd (rxn_nodes_and_edges rxns))).
  { destruct (build_parts rxns) as (_ & _ & S3). unfold E0. fold base in S3. rewrite S3. eapply perm_trans; [apply Permutation_sym, Permutation_rev|].
    assert (Hl : loopback_edges base = []).
    { apply incl_l_nil. intros e Hin. exfalso. pose proof Hin as Hin'. apply (proj2 (loopback_spec base)) in Hin' as (i & j & x & -> & _). apply (Hno i j).
      apply (Permutation_in _ (Permutation_sym He)). apply in_app_iff. left. apply in_app_iff. left. unfold E0. rewrite S3. apply -> in_rev. apply in_app_iff. right. exact Hin. }
    rewrite Hl, app_nil_r. apply Permutation_refl. }
  unfold no_parallel. apply (nodup_dec_perm fst _ _ He). rewrite HL, app_nil_r, map_app. apply NoDup_app_intro.
  - apply (nodup_dec_perm fst _ _ HE). apply rxn_edges_nodup. exact Hd.
  - apply extE_nodup. lia.
  - intros b' Hb Hb'. apply in_map_iff in Hb as ([[i j] p] & <- & Hy). apply in_map_iff in Hb' as ([[i' j'] p'] & Ey & Hy'). cbn [fst] in Ey. injection Ey as -> ->.
    pose proof (E0_inside rxns) as Hin. rewrite Forall_forall in Hin. destruct (Hin _ Hy) as [A B]. cbn [fst snd] in A, B. fold base in A, B.
    apply extE_in in Hy' as (m & n' & Hm & Hy'). apply edges_of_ends in Hy'. lia.
Qed.
Definition level (g : net) (i : nat) : nat :=
  match node_at g i with Some (Precursors, _) => 0 | Some (Reactants, _) => 1 | Some (Products, _) => 2 | _ => 3 end.
Lemma no_loopback_level w P T hist g : inv base entries rxns E0 w P T hist -> w_graph w = Some g ->
  (forall i j, ~ In (i, j, Loopback) (g_edges g)) -> forall i j e, In (i, j, e) (g_edges g) -> level g j = S (level g i).
Proof.
  intros (b & g' & ext & -> & Hs & Hf & Hp & He) Hg Hno i j e Hin. cbn [w_graph] in Hg. injection Hg as ->.
  assert (Hb : forall i n, nth_error base i = Some n -> node_at g i = Some n) by (intros a n Ha; apply node_at_has; unfold has; rewrite Hs; apply slots_base; exact Ha).
  assert (Hx : forall ext' k pre, ext = pre ++ ext' -> k = length base + length pre -> In (i, j, e) (extE base k ext') -> level g j = S (level g i)).
  { induction ext' as [|n ext' IH]; intros k pre Hpre Hk H; [destruct H|]. cbn [extE] in H. apply in_app_iff in H as [H|H].
    - assert (Hkn : node_at g k = Some n). { apply node_at_has. unfold has. rewrite Hs. apply nth_map_some. rewrite Hpre, Hk, nth_error_app2 by lia. replace (length base + length pre - length base) with (length pre) by lia.
        rewrite nth_error_app2, Nat.sub_diag by lia. reflexivity. }
      destruct n as [ty x]. cbn [edges_of] in H. destruct ty; try destruct H.
      + apply in_flat_map in H as ([a [ty y]] & Ha & H). cbn [fst snd] in H. destruct ty; try destruct H. destruct (subset y x); [|destruct H]. destruct H as [H|[]]. injection H as <- <- <-.
        apply in_enumerate in Ha. unfold level. rewrite Hkn, (Hb _ _ Ha). reflexivity.
      + destruct x as [|t [|]]; try destruct H. apply in_flat_map in H as ([a y] & Ha & H). cbn [fst snd] in H. destruct (ntype_eqb (fst y) Products) eqn:T'; [|destruct H].
        apply ntype_eqb_iff in T'. cbn [andb] in H. destruct (inb t (snd y)); [|destruct H]. destruct H as [H|[]]. injection H as <- <- <-. apply in_enumerate in Ha.
        unfold level. rewrite Hkn, (Hb _ _ Ha). destruct y as [ty y]. cbn [fst] in T'. subst ty. reflexivity.
    - apply (IH (S k) (pre ++ [n])) in H; [exact H|rewrite Hpre, <- app_assoc; reflexivity|rewrite app_length; simpl; lia]. }
  pose proof Hin as Hin0. apply (Permutation_in _ He) in Hin. apply in_app_iff in Hin as [Hin|Hin]; [|apply (Hx ext (length base) []); [reflexivity|simpl; lia|exact Hin]].
  assert (Hn : e <> Loopback) by (intros ->; exact (Hno i j Hin0)). apply in_app_iff in Hin as [Hin|Hin].
  - destruct (rxn_nodes_spec rxns) as (_ & _ & N3). destruct (build_parts rxns) as (_ & _ & S3). fold base in N3, S3. unfold E0 in Hin. rewrite S3 in Hin. apply in_rev in Hin.
    apply in_app_iff in Hin as [Hin|Hin].
    + destruct (Forall2_In_r _ _ _ _ N3 Hin) as (r & _ & (a & c & E & Hi & Hj)). injection E as -> -> ->. unfold level. rewrite (Hb _ _ Hi), (Hb _ _ Hj). reflexivity.
    + apply (proj2 (loopback_spec base)) in Hin as (a & c & x & E & _). injection E as -> -> ->. contradiction.
  - exfalso. apply in_flat_map in Hin as (ps & _ & H). apply in_flat_map in H as ([a [ty x]] & Ha & H). cbn [fst snd] in H. destruct ty; try destruct H.
    apply in_flat_map in H as ([c y] & _ & H). match type of H with In _ (if ?c then _ else _) => destruct c; [|destruct H] end. destruct H as [H|[]]. injection H as _ _ <-. contradiction.
Qed.

Theorem one_step_cheapest (cost : nrxn -> Q) sp ops w g s t k : (forall r, In r rxns -> (0 <= cost r)%Q) -> shortest (cost_of cost) sp -> distinct_sides rxns ->
  Forall (acceptable entries) ops -> run_ops (net_build (new_network entries rxns)) ops = Ok w -> w_graph w = Some g ->
  (forall i j, ~ In (i, j, Loopback) (g_edges g)) -> s <> t ->
  exists paths, yens_ksp (edge_weight cost) sp (g_edges g) k s t = Ok paths /\ k_cheapest (cost_of cost) (g_edges g) s t (Nat.max 1 k) paths.
Proof.
  intros Hc Hsp Hd Ha HR Hg Hno Hst. destruct (run_history entries rxns Hr ops Ha) as (w0 & hist & R & I & _). rewrite HR in R. injection R as <-.
  destruct (inv_typed entries rxns _ _ _ _ _ I Hg) as [_ Tr]. apply (yens_optimal (cost_of cost) sp Hsp).
  - intros [[i j] p] He. cbn [snd]. destruct p as [r| | |]; cbn [cost_of]; try lra. apply Hc. apply (Tr _ _ _ He).
  - exact Hst.
  - exact (no_loopback_plain _ _ _ _ _ Hd I Hg Hno).
  - exact (rank_levelled _ _ _ _ (level g) (no_loopback_level _ _ _ _ _ I Hg Hno)).
Qed.

(* --- building again (C72) --- *)
Theorem rebuilt ops w ps qs : Forall (acceptable entries) ops -> run_ops (net_build (new_network entries rxns)) ops = Ok w ->
  nth_error (rev (precursors_of ops)) 0 = Some ps -> is_subset qs entries ->
  ((forall e, In e qs <-> In e ps) -> set_precursors (net_build w) qs = Ok (net_build w))
  /\ (~ (forall e, In e qs <-> In e ps) -> set_precursors (net_build w) qs = Err ValueError).
Proof.
  intros Ha HR Hps Hq. destruct (run_history entries rxns Hr ops Ha) as (w0 & hist & R & I & (_ & _ & H3)). rewrite HR in R. injection R as <-.
  assert (L : last_set ops = Some (mkset ps)) by (unfold last_set; destruct (rev (precursors_of ops)); [discriminate|injection Hps as ->; reflexivity]). rewrite L in I.
  assert (Hne : mkset ps <> []) by (apply (last_set_nonempty entries ops _ Ha L)).
  assert (Hls : w_listed w = false).
  { clear -HR. assert (K : forall ops w0 w, w_listed w0 = false -> run_ops w0 ops = Ok w -> w_listed w = false).
    { clear. induction ops as [|o ops IH]; intros w0 w H0 H; [injection H as <-; exact H0|]. cbn [run_ops] in H. destruct (run_op w0 o) as [w1|] eqn:Eo; [|discriminate]. cbn [bind] in H.
      apply (IH w1 w); [|exact H]. clear -H0 Eo. destruct o as [ps|t]; cbn [run_op] in Eo.
      - unfold set_precursors in Eo. destruct (get_graph w0) as [g|]; [|discriminate]. cbn [bind] in Eo.
        destruct (match w_precursors w0 with Some old => negb (w_listed w0) && list_eqb (mkset ps) old | None => false end); [injection Eo as <-; exact H0|].
        destruct (negb (subset (mkset ps) (w_entries w0))); [discriminate|].
        destruct (if truthy (w_precursors w0) then _ else Ok g) as [g1|]; [|discriminate]. cbn [bind] in Eo.
        destruct (add_node g1 (Precursors, mkset ps)). injection Eo as <-. reflexivity.
      - unfold set_target in Eo. destruct (get_graph w0) as [g|]; [|discriminate]. cbn [bind] in Eo.
        destruct (match w_target w0 with Some old => Nat.eqb t old | None => false end); [injection Eo as <-; exact H0|].
        destruct (negb (inb t (w_entries w0))); [discriminate|].
        destruct (match w_target w0 with Some _ => _ | None => Ok g end) as [g1|]; [|discriminate]. cbn [bind] in Eo.
        destruct (add_node g1 (Target, [t])). injection Eo as <-. exact H0. }
    exact (K ops (net_build (new_network entries rxns)) w eq_refl HR). }
  destruct I as (b & g & ext & Ew & _). assert (Er : w_rxns w = rxns) by (rewrite Ew; reflexivity). assert (Ee : w_entries w = entries) by (rewrite Ew; reflexivity).
  assert (Ep : w_precursors w = Some (mkset ps)) by (rewrite Ew; reflexivity). clear Ew.
  destruct (build_parts rxns) as (S1 & _ & _). fold base in S1.
  assert (Hg : get_graph (net_build w) = Ok (build rxns)).
  { apply (get_graph_inv base (base_nonempty rxns Hr) (net_build w) (build rxns)) with (ext := []); [unfold net_build; cbn [w_graph]; rewrite Er; reflexivity|rewrite app_nil_r; exact S1]. }
  unfold set_precursors. rewrite Hg. cbn [bind]. replace (w_precursors (net_build w)) with (Some (mkset ps)) by (symmetry; exact Ep). replace (w_listed (net_build w)) with false by (symmetry; exact Hls).
  replace (w_entries (net_build w)) with entries by (symmetry; exact Ee). cbn [negb andb].
  assert (Heq : list_eqb (mkset qs) (mkset ps) = true <-> forall e, In e qs <-> In e ps).
  { rewrite list_eqb_iff. split.
    - intros E e. rewrite <- (proj2 (set_of_mkset qs) e), <- (proj2 (set_of_mkset ps) e), E. reflexivity.
    - intros H. apply sorted_unique; [apply set_of_mkset|apply set_of_mkset|]. intros e. rewrite (proj2 (set_of_mkset qs) e), (proj2 (set_of_mkset ps) e). apply H. }
  split; intros H.
  - rewrite (proj2 Heq H). reflexivity.
  - destruct (list_eqb (mkset qs) (mkset ps)) eqn:Q; [exfalso; apply H, Heq; reflexivity|].
    assert (Hsub : subset (mkset qs) entries = true) by (apply subset_iff; intros x Hx; apply Hq, (proj2 (set_of_mkset qs)); exact Hx). rewrite Hsub. cbn [negb].
    assert (Ht : truthy (Some (mkset ps)) = true) by (destruct (mkset ps); [contradiction|reflexivity]). rewrite Ht.
    assert (Hf : first_of_type Precursors (build rxns) = None).
    { unfold first_of_type. rewrite (nodes_full _ _ S1). destruct (find _ (enumerate base)) as [[i n]|] eqn:F; [|reflexivity]. exfalso. apply find_some in F as [F1 F2]. cbn [snd] in F2.
      apply ntype_eqb_iff in F2. apply in_enumerate, nth_error_In in F1. destruct (base_types rxns n F1) as [E|E]; congruence. }
    rewrite Hf. reflexivity.
Qed.
Theorem rebuilt_target ops w t u : Forall (acceptable entries) ops -> run_ops (net_build (new_network entries rxns)) ops = Ok w ->
  nth_error (rev (targets_of ops)) 0 = Some t -> In u entries ->
  w_target (net_build w) = Some t /\ set_target (net_build w) t = Ok (net_build w) /\ (u <> t -> set_target (net_build w) u = Err ValueError).
Proof.
  intros Ha HR Hl Hu. assert (Ht : last_target ops = Some t) by (unfold last_target; destruct (rev (targets_of ops)); [discriminate|injection Hl as ->; reflexivity]). clear Hl.
  destruct (run_history entries rxns Hr ops Ha) as (w0 & hist & R & I & _). rewrite HR in R. injection R as <-. rewrite Ht in I.
  destruct I as (b & g & ext & Ew & _). assert (Er : w_rxns w = rxns) by (rewrite Ew; reflexivity). assert (Ee : w_entries w = entries) by (rewrite Ew; reflexivity).
  assert (Et : w_target w = Some t) by (rewrite Ew; reflexivity). clear Ew.
  destruct (build_parts rxns) as (S1 & _ & _). fold base in S1.
  assert (Hg : get_graph (net_build w) = Ok (build rxns)).
  { apply (get_graph_inv base (base_nonempty rxns Hr) (net_build w) (build rxns)) with (ext := []); [unfold net_build; cbn [w_graph]; rewrite Er; reflexivity|rewrite app_nil_r; exact S1]. }
  split; [exact Et|]. unfold set_target. rewrite Hg. cbn [bind]. replace (w_target (net_build w)) with (Some t) by (symmetry; exact Et).
  replace (w_entries (net_build w)) with entries by (symmetry; exact Ee). rewrite Nat.eqb_refl. split; [reflexivity|].
  intros D. destruct (Nat.eqb_spec u t) as [E|_]; [contradiction|].
  assert (Hin : inb u entries = true) by (apply inb_iff; exact Hu). rewrite Hin. cbn [negb].
  assert (Hf : first_of_type Target (build rxns) = None).
  { unfold first_of_type. rewrite (nodes_full _ _ S1). destruct (find _ (enumerate base)) as [[i n]|] eqn:F; [|reflexivity]. exfalso. apply find_some in F as [F1 F2]. cbn [snd] in F2.
    apply ntype_eqb_iff in F2. apply in_enumerate, nth_error_In in F1. destruct (base_types rxns n F1) as [E|E]; congruence. }
  rewrite Hf. reflexivity.
Qed.
End OneStep.
