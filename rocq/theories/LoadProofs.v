(* Proofs about networks that are saved and loaded, and about the nodes of a network. *)
From Coq Require Import String.
From Verif Require Import Prelude NumQ ListFacts UtilsProofs EnumModel EnumProofs EnumReactProofs NetModel NetSpec NetProofs NetHistoryProofs YenModel YenSpec YenProofs YenOptProofs NetPathProofs RouteSpec RouteProofs LoadModel LoadSpec.
Local Open Scope string_scope. Open Scope nat_scope. Open Scope list_scope.

Definition erase_v (v : value) : nat := match v with Obj e | Raw e => e end.
Definition erase (l : lnetwork) : network :=
  {| w_entries := l_entries l; w_rxns := l_rxns l; w_precursors := option_map (map erase_v) (l_precursors l); w_listed := l_listed l; w_target := option_map erase_v (l_target l); w_graph := l_graph l |}.
Lemma erase_obj es : map erase_v (map Obj es) = es.
Proof. rewrite map_map. apply map_id. Qed.
Lemma entries_are_obj es : forall qs, entries_are es (map Obj qs) = list_eqb es qs.
Proof.
  induction es as [|e es IH]; intros [|q qs]; try reflexivity. cbn [entries_are map entry_is]. rewrite IH. apply eq_true_iff_eq. rewrite andb_true_iff, Nat.eqb_eq, !list_eqb_iff.
  split; [intros [-> ->]; reflexivity|intros H; injection H; auto].
Qed.
Lemma truthy_erase p : truthy (option_map (map erase_v) p) = ltruthy p.
Proof. destruct p as [[|v vs]|]; reflexivity. Qed.
Lemma graph_erase l : get_graph (erase l) = lgraph l.
Proof. reflexivity. Qed.

Definition sound (l : lnetwork) : Prop := l_listed l = false -> exists P, l_precursors l = option_map (map Obj) P.

Lemma set_precursors_sim l ps w : sound l -> set_precursors (erase l) ps = Ok w ->
  exists l', lset_precursors l ps = Ok l' /\ erase l' = w /\ l_listed l' = false /\ l_precursors l' = Some (map Obj (mkset ps)) /\ l_target l' = l_target l.
Proof.
  intros So. unfold set_precursors, lset_precursors. rewrite graph_erase. destruct (lgraph l) as [g|]; [|discriminate]. cbn [bind].
  change (w_precursors (erase l)) with (option_map (map erase_v) (l_precursors l)). change (w_listed (erase l)) with (l_listed l). change (w_entries (erase l)) with (l_entries l).
  assert (Ec : match option_map (map erase_v) (l_precursors l) with Some old => negb (l_listed l) && list_eqb (mkset ps) old | None => false end
             = match l_precursors l with Some old => negb (l_listed l) && entries_are (mkset ps) old | None => false end).
  { destruct (l_listed l) eqn:B; [destruct (l_precursors l); reflexivity|]. destruct (So B) as (P & HP). rewrite HP. destruct P as [qs|]; [|reflexivity]. cbn [option_map]. rewrite erase_obj, entries_are_obj. reflexivity. }
  rewrite Ec. destruct (match l_precursors l with Some old => negb (l_listed l) && entries_are (mkset ps) old | None => false end) eqn:Same.
  - intros H. injection H as <-. exists l. split; [reflexivity|]. split; [reflexivity|]. destruct (l_precursors l) as [old|] eqn:Hp; [|discriminate]. apply andb_true_iff in Same as [Sb Same]. apply negb_true_iff in Sb.
    split; [exact Sb|]. split; [|reflexivity]. destruct (So Sb) as (P & HP). destruct P as [qs|]; cbn [option_map] in HP; [|congruence]. assert (old = map Obj qs) by congruence. subst old.
    rewrite entries_are_obj in Same. apply list_eqb_iff in Same as <-. reflexivity.
  - destruct (negb (subset (mkset ps) (l_entries l))); [discriminate|]. rewrite truthy_erase.
    destruct (if ltruthy (l_precursors l) then match first_of_type Precursors g with Some i => Ok (remove_node g i) | None => Err ValueError end else Ok g) as [g1|]; [|discriminate].
    cbn [bind]. destruct (add_node g1 (Precursors, mkset ps)) as [g2 pn]. intros H. injection H as <-. eexists. split; [reflexivity|]. unfold erase. cbn. rewrite erase_obj. auto.
Qed.

Lemma set_target_sim l t w : (forall e, l_target l <> Some (Raw e)) -> set_target (erase l) t = Ok w ->
  exists l', lset_target l t = Ok l' /\ erase l' = w /\ l_listed l' = l_listed l /\ l_precursors l' = l_precursors l /\ l_target l' = Some (Obj t).
Proof.
  intros Nr. unfold set_target, lset_target. rewrite graph_erase. destruct (lgraph l) as [g|]; [|discriminate]. cbn [bind].
  change (w_target (erase l)) with (option_map erase_v (l_target l)). change (w_entries (erase l)) with (l_entries l).
  destruct (l_target l) as [[e|e]|] eqn:Ht; [| |].
  - cbn [option_map erase_v entry_is]. destruct (Nat.eqb t e) eqn:Q.
    + apply Nat.eqb_eq in Q as ->. intros H. injection H as <-. exists l. auto.
    + destruct (negb (inb t (l_entries l))); [discriminate|]. destruct (match first_of_type Target g with Some i => Ok (remove_node g i) | None => Err ValueError end) as [g1|]; [|discriminate].
      cbn [bind]. destruct (add_node g1 (Target, [t])) as [g2 pn]. intros H. injection H as <-. eexists. split; [reflexivity|]. cbn. auto.
  - destruct (Nr e eq_refl).
  - cbn [option_map]. destruct (negb (inb t (l_entries l))); [discriminate|]. cbn [bind]. destruct (add_node g (Target, [t])) as [g2 pn]. intros H. injection H as <-. eexists. split; [reflexivity|]. cbn. auto.
Qed.

Section Net.
Variable entries : list nat.
Variable rxns : list nrxn.
Hypothesis Hr : rxns <> [].
Let base := fst (rxn_nodes_and_edges rxns).
Let E0 := g_edges (build rxns).
Notation Inv := (inv base entries rxns E0).
Let Hbt := base_types rxns.
Let Hin := E0_inside rxns.
Let Hne := base_nonempty rxns Hr.

(* A target that is a dictionary is replaced, whatever the new target. *)
Lemma retarget l t0 P T hist t : l_target l = Some (Raw t0) -> Inv (erase l) P T hist -> In t entries ->
  exists l', lset_target l t = Ok l' /\ Inv (erase l') P (Some t) hist /\ l_listed l' = l_listed l /\ l_precursors l' = l_precursors l /\ l_target l' = Some (Obj t).
Proof.
  intros Hraw (b & g & ext & Ew & Hs & Hf & Hp & He) Ht. unfold lset_target. rewrite <- graph_erase. rewrite (get_graph_inv base Hne (erase l) g (f_equal w_graph Ew) ext Hs). cbn [bind]. rewrite Hraw. cbn [entry_is].
  assert (HT : T = Some t0) by (apply (f_equal w_target) in Ew; cbn in Ew; rewrite Hraw in Ew; cbn in Ew; congruence). subst T.
  assert (Hen : l_entries l = entries) by exact (f_equal w_entries Ew).
  assert (Hrx : l_rxns l = rxns) by exact (f_equal w_rxns Ew).
  assert (Hpr : option_map (map erase_v) (l_precursors l) = P) by exact (f_equal w_precursors Ew).
  rewrite Hen, (proj2 (inb_iff t entries) Ht). cbn [negb].
  pose proof (hist_inside base E0 Hin hist) as Hins. set (ins := E0 ++ flat_map (iL base) hist) in *.
  cbn [tnode] in Hp. assert (Hp' : Permutation ext ((Target, [t0]) :: pnode P)) by (eapply perm_trans; [exact Hp|apply Permutation_app_comm]).
  destruct (pick_special _ _ _ Hp') as (l1 & l2 & -> & Hl & Hl1). { intros m Hm. destruct P; [destruct Hm as [<-|[]]|destruct Hm]. cbn [fst]. discriminate. }
  rewrite (find_first base Hbt Target l1 (Target, [t0]) l2 eq_refl (or_intror eq_refl) Hl1 g Hs). cbn [bind].
  destruct (replace_node base g ins l1 _ l2 (Target, [t]) Hs Hf Hins He) as (R1 & R2 & R3 & R4).
  destruct (add_node (remove_node g (length base + length l1)) (Target, [t])) as [g2 tn]. cbn [fst snd] in R1, R2, R3, R4. subst tn. eexists. split; [reflexivity|]. split; [|cbn; auto].
  exists (l_listed l), (add_edges_from g2 (target_edges t (length base + length l1) g2)), (l1 ++ (Target, [t]) :: l2).
  assert (Qp : Permutation (l1 ++ (Target, [t]) :: l2) (pnode P ++ tnode (Some t))).
  { eapply perm_trans; [apply Permutation_sym, Permutation_middle|]. eapply perm_trans; [|apply Permutation_app_comm]. cbn [tnode app]. constructor. exact Hl. }
  split; [unfold erase; cbn; f_equal; [exact Hrx|exact Hpr]|]. unfold add_edges_from. cbn [g_slots g_free g_edges]. split; [exact R2|]. split; [exact R3|]. split; [exact Qp|].
  rewrite (target_edges_eq base g2 _ t _ R2 (ext_special _ _ _ Qp)).
  eapply perm_trans; [apply Permutation_app; [apply Permutation_sym, Permutation_rev|exact R4]|]. fold ins.
  eapply perm_trans; [|apply Permutation_app_head, Permutation_sym, extE_mid]. cbn [edges_of].
  rewrite !app_assoc. do 2 apply Permutation_app_tail. apply Permutation_app_comm.
Qed.

Lemma set_target_inv l P T hist t : Inv (erase l) P T hist -> In t entries ->
  exists l', lset_target l t = Ok l' /\ Inv (erase l') P (Some t) hist /\ l_listed l' = l_listed l /\ l_precursors l' = l_precursors l /\ l_target l' = Some (Obj t).
Proof.
  intros Hi Ht. destruct (l_target l) as [[e|e]|] eqn:HT.
  2: { exact (retarget l e P T hist t HT Hi Ht). }
  all: destruct (step_target base Hbt entries rxns E0 Hin Hne (erase l) P T hist t Hi Ht) as (w' & R & I & _); cbn [run_op] in R;
    (destruct (set_target_sim l t w') as (l' & L1 & L2 & L3 & L4 & L5); [rewrite HT; discriminate|exact R|]); exists l'; rewrite L2; auto.
Qed.
Lemma set_precursors_inv l P T hist ps : sound l -> Inv (erase l) P T hist -> (forall q, P = Some q -> q <> []) -> ps <> [] -> is_subset ps entries ->
  exists l' hist', lset_precursors l ps = Ok l' /\ Inv (erase l') (Some (mkset ps)) T hist' /\ (hist' = hist /\ P = Some (mkset ps) \/ hist' = hist ++ [mkset ps])
  /\ l_listed l' = false /\ l_precursors l' = Some (map Obj (mkset ps)) /\ l_target l' = l_target l.
Proof.
  intros So Hi HP Hps Hsub. destruct (step_precursors base Hbt entries rxns E0 Hin Hne (erase l) P T hist ps Hi HP Hps Hsub) as (w' & R & I & B). cbn [run_op] in R.
  destruct (set_precursors_sim l ps w' So R) as (l' & L1 & L2 & L3 & L4 & L5). exists l'. eexists. rewrite L2. split; [exact L1|]. split; [exact I|]. split; [|auto].
  destruct (negb (w_listed (erase l)) && match P with Some old => list_eqb (mkset ps) old | None => false end) eqn:Q; [left|right; reflexivity].
  split; [reflexivity|]. apply andb_true_iff in Q as [_ Q]. destruct P as [old|]; [|discriminate]. apply list_eqb_iff in Q as ->. reflexivity.
Qed.

(* A network that was not loaded. *)
Definition clean (l : lnetwork) : Prop := l_listed l = false /\ (exists P, l_precursors l = option_map (map Obj) P) /\ exists T, l_target l = option_map Obj T.
Lemma run_sim ops : forall l w, clean l -> run_ops (erase l) ops = Ok w -> exists l', lrun_ops l ops = Ok l' /\ erase l' = w /\ clean l'.
Proof.
  induction ops as [|o ops IH]; intros l w C R; cbn [run_ops lrun_ops] in *; [injection R as <-; exists l; auto|].
  destruct (run_op (erase l) o) as [w1|] eqn:R1; [|discriminate]. cbn [bind] in R. destruct C as (C1 & C2 & (T & C3)).
  assert (S : exists l1, lrun_op l o = Ok l1 /\ erase l1 = w1 /\ clean l1).
  { destruct o as [ps|t]; cbn [run_op lrun_op] in *.
    - destruct (set_precursors_sim l ps w1 (fun _ => C2) R1) as (l1 & L1 & L2 & L3 & L4 & L5). exists l1. split; [exact L1|]. split; [exact L2|]. split; [exact L3|]. split; [exists (Some (mkset ps)); exact L4|exists T; congruence].
    - destruct (set_target_sim l t w1) as (l1 & L1 & L2 & L3 & L4 & L5); [rewrite C3; destruct T; discriminate|exact R1|]. exists l1. split; [exact L1|]. split; [exact L2|]. split; [congruence|].
      split; [rewrite L4; exact C2|exists (Some t); exact L5]. }
  destruct S as (l1 & L1 & <- & C'). rewrite L1. cbn [bind]. exact (IH l1 w C' R).
Qed.

Definition start : lnetwork := lbuild (lnew entries rxns).
Lemma run_clean ops : Forall (acceptable entries) ops ->
  exists l hist, lrun_ops start ops = Ok l /\ Inv (erase l) (last_set ops) (last_target ops) hist /\ hist_ok true ops hist /\ clean l.
Proof.
  intros Ha. destruct (run_history entries rxns Hr ops Ha) as (w & hist & R & I & H).
  destruct (run_sim ops start w) as (l & L1 & L2 & L3); [split; [reflexivity|split; exists None; reflexivity]|exact R|]. exists l, hist. rewrite L2. auto.
Qed.
Lemma clean_parts l P T hist : clean l -> Inv (erase l) P T hist -> l_precursors l = option_map (map Obj) P /\ l_target l = option_map Obj T.
Proof.
  intros (_ & (P' & C2) & (T' & C3)) (b & g & ext & Ew & _). pose proof (f_equal w_precursors Ew) as E1. pose proof (f_equal w_target Ew) as E2. cbn in E1, E2. rewrite C2 in E1. rewrite C3 in E2. rewrite C2, C3, <- E1, <- E2.
  split; [destruct P'; cbn [option_map]; rewrite ?erase_obj; reflexivity|destruct T'; reflexivity].
Qed.
Definition kept (file : bool) (e : nat) : value := if file then Raw e else Obj e.
Lemma reload_inv file order l P T hist : (forall x, Permutation (order x) x) -> clean l -> (forall q, P = Some q -> q <> []) -> Inv (erase l) P T hist ->
  exists d l' g, stored file order l = Ok d /\ reloaded file order l = Ok l' /\ Inv (erase l') P T hist /\ l_listed l' = true
  /\ l_precursors l' = option_map (map (kept file)) P /\ l_target l' = option_map (kept file) T /\ l_graph l' = Some g
  /\ net_from_dict d = Ok (l', {| y_entries := entries; y_rxns := rxns; y_precursors := None; y_target := None; y_graph := None |}).
Proof.
  intros Ho C HP Hi. destruct (clean_parts l P T hist C Hi) as [E1 E2]. destruct (inv_reload entries rxns order (erase l) P T hist Ho HP Hi) as (w' & R & I).
  unfold net_round_trip in R. change (w_graph (erase l)) with (l_graph l) in R. destruct (l_graph l) as [g|] eqn:G; [|discriminate].
  destruct (graph_from_dict node_eqb (graph_as_dict order g)) as [g'|] eqn:Gd; [|discriminate]. cbn [bind] in R. injection R as <-.
  assert (Hlt : ltruthy (option_map (map Obj) P) = match P with Some _ => true | None => false end) by (destruct P as [[|q qs]|]; [destruct (HP [] eq_refl eq_refl)|reflexivity|reflexivity]).
  assert (Een : l_entries l = entries) by (destruct Hi as (b & g0 & ext & Ew & _); exact (f_equal w_entries Ew)).
  assert (Erx : l_rxns l = rxns) by (destruct Hi as (b & g0 & ext & Ew & _); exact (f_equal w_rxns Ew)).
  assert (St : stored file order l = Ok {| y_entries := entries; y_rxns := rxns; y_precursors := option_map (map (kept file)) P; y_target := option_map (kept file) T; y_graph := Some (graph_as_dict order g) |}).
  { unfold stored, net_as_dict. rewrite G, E1, E2, Hlt, Een, Erx. cbn [bind]. destruct file; unfold in_json; cbn [y_entries y_rxns y_precursors y_target y_graph kept].
    - f_equal. f_equal; [destruct P as [qs|]; [cbn; rewrite map_map; reflexivity|reflexivity]|destruct T; reflexivity].
    - f_equal. f_equal. destruct P; reflexivity. }
  eexists. eexists. exists g'. split; [exact St|]. unfold reloaded. rewrite St. cbn [bind]. unfold net_from_dict. cbn [y_entries y_rxns y_precursors y_target y_graph]. rewrite Gd. cbn [bind fst].
  split; [reflexivity|]. split; [|cbn; auto 8]. destruct I as (b & g1 & ext & Ew & I). pose proof (f_equal w_graph Ew) as Eg. cbn in Eg. injection Eg as <-.
  exists true, g', ext. split; [|exact I]. unfold erase. cbn. f_equal.
  - destruct P as [qs|]; [|reflexivity]. cbn. rewrite map_map. f_equal. rewrite <- (map_id qs) at 2. apply map_ext. intros e. destruct file; reflexivity.
  - destruct T as [e|]; [destruct file; reflexivity|reflexivity].
Qed.

Variable cost : nrxn -> Q.
Hypothesis Hcost : forall r, In r rxns -> (0 <= cost r)%Q.
Variable sp : list (nat * nat * payload) -> nat -> nat -> option (list nat).
Hypothesis Hsp : shortest (cost_of cost) sp.

Lemma in_flat_same {A B} (f : A -> list B) a l d : l <> [] -> (forall x, In x l -> x = a) -> In d (flat_map f l) <-> In d (f a).
Proof.
  intros N H. rewrite in_flat_map. split; [intros (x & I & J); rewrite <- (H x I); exact J|]. intros J. destruct l as [|x l]; [contradiction|]. exists x. split; [left; reflexivity|]. rewrite (H x (or_introl eq_refl)). exact J.
Qed.
Lemma inv_routes w ps t hist k g s tn pathways : Inv w (Some (mkset ps)) (Some t) hist -> ps <> [] -> is_subset ps entries -> In t entries -> hist <> [] -> (forall x, In x hist -> x = mkset ps) ->
  w_graph w = Some g -> has g s (Precursors, mkset ps) -> has g tn (Target, [t]) -> found cost g s tn k pathways -> routes_found cost rxns ps t k pathways.
Proof.
  intros Hi Hps Hsub Ht Hh1 Hh2 G Hs Htn F. set (ops := [SetPrecursors ps; SetTarget t]).
  assert (Ha : Forall (acceptable entries) ops) by (constructor; [split; assumption|constructor; [exact Ht|constructor]]).
  destruct (run_history entries rxns Hr ops Ha) as (w2 & hist2 & R2 & I2 & (_ & _ & H3)).
  assert (E2 : hist2 = [mkset ps]) by (apply (H3 eq_refl); intros a b [<-|[]] [<-|[]]; reflexivity).
  destruct (inv_data base Hbt entries rxns E0 Hin (base_nodup rxns) _ _ _ _ Hi) as (g' & G1 & _ & _ & _ & D1 & Dn & Cl). assert (g' = g) by congruence. subst g'.
  destruct (inv_data base Hbt entries rxns E0 Hin (base_nodup rxns) _ _ _ _ I2) as (g2 & G2 & _ & _ & _ & D2 & _).
  destruct (net_edges entries rxns Hr ops w2 g2 ps t Ha R2 G2 eq_refl) as (_ & _ & HE); [intros a [<-|[]] e; reflexivity|reflexivity|].
  refine (proj1 (found_routes rxns g ps (mkset ps) t s tn cost Hcost Cl Dn Hs Htn _ k pathways F)). intros d. rewrite <- HE.
  transitivity (In d (flat_map (D (map Some base)) E0 ++ flat_map (dL base) hist ++ flat_map (dedges_of base) (pnode (Some (mkset ps)) ++ tnode (Some t)))).
  { split; apply Permutation_in; [exact D1|exact (Permutation_sym D1)]. }
  symmetry. transitivity (In d (flat_map (D (map Some base)) E0 ++ flat_map (dL base) hist2 ++ flat_map (dedges_of base) (pnode (Some (mkset ps)) ++ tnode (Some t)))).
  { split; apply Permutation_in; [exact D2|exact (Permutation_sym D2)]. }
  rewrite !in_app_iff. rewrite (in_flat_same (dL base) (mkset ps) hist d Hh1 Hh2). rewrite E2. cbn [flat_map]. rewrite app_nil_r. reflexivity.
Qed.

Lemma as_entries es : mapM as_entry (map Obj es) = Ok es.
Proof. induction es as [|e es IH]; [reflexivity|]. cbn [map mapM as_entry bind]. rewrite IH. reflexivity. Qed.
Lemma mkset_mkset ps : mkset (mkset ps) = mkset ps.
Proof. symmetry. apply set_unique. exact (conj (proj1 (set_of_mkset ps)) (fun e => conj (fun H => H) (fun H => H))). Qed.
Lemma k_sim l ps t k : l_precursors l = Some (map Obj (mkset ps)) -> l_target l = Some (Obj t) -> lk_shortest_paths cost sp l k = k_shortest_paths cost sp (erase l) k.
Proof.
  intros E1 E2. unfold lk_shortest_paths, k_shortest_paths. rewrite graph_erase. destruct (lgraph l) as [g|]; [|reflexivity]. cbn [bind].
  change (w_precursors (erase l)) with (option_map (map erase_v) (l_precursors l)). change (w_target (erase l)) with (option_map erase_v (l_target l)). rewrite E1, E2. cbn [option_map erase_v].
  unfold node_of_values. rewrite as_entries, erase_obj. cbn [bind mapM as_entry]. rewrite mkset_mkset.
  replace (mkset [t]) with [t] by (symmetry; reflexivity). reflexivity.
Qed.
Lemma loop_routes ps hist k targets : ps <> [] -> is_subset ps entries -> hist <> [] -> (forall x, In x hist -> x = mkset ps) -> Forall (fun t => In t entries) targets ->
  forall l T, Inv (erase l) (Some (mkset ps)) T hist -> l_precursors l = Some (map Obj (mkset ps)) ->
  exists l' per, lfind_loop cost sp l k targets = Ok (l', concat per) /\ Forall2 (fun t pathways => routes_found cost rxns ps t k pathways) targets per.
Proof.
  intros Hps Hsub Hh1 Hh2. induction targets as [|t targets IH]; intros Ht l T Hi Hp; cbn [lfind_loop]; [exists l, []; split; [reflexivity|constructor]|].
  inversion Ht as [|? ? Ht1 Ht2]; subst. destruct (set_target_inv l _ _ hist t Hi Ht1) as (l1 & L1 & I1 & _ & L2 & L3). rewrite L1. cbn [bind]. rewrite (k_sim l1 ps t k) by congruence.
  destruct (k_shortest_found entries rxns Hr cost Hcost sp Hsp (erase l1) (mkset ps) t hist k I1) as (g & s & tn & pw & K1 & K2 & K3 & K4 & K5). rewrite K4. cbn [bind].
  destruct (IH Ht2 l1 (Some t) I1) as (l' & per & F1 & F2); [congruence|]. rewrite F1. cbn [bind fst snd]. exists l', (pw :: per). split; [reflexivity|]. constructor; [|exact F2].
  exact (inv_routes _ ps t hist k g s tn pw I1 Hps Hsub Ht1 Hh1 Hh2 K1 K2 K3 K5).
Qed.
Lemma find_routes_loaded l ps T hist k targets : Inv (erase l) (Some (mkset ps)) T hist -> l_precursors l = Some (map Obj (mkset ps)) -> ps <> [] -> is_subset ps entries -> hist <> [] -> (forall x, In x hist -> x = mkset ps) ->
  Forall (fun t => In t entries) targets ->
  exists l' per, lfind_pathways cost sp l targets k = Ok (l', concat per) /\ Forall2 (fun t pathways => routes_found cost rxns ps t k pathways) targets per.
Proof.
  intros Hi Hp Hps Hsub Hh1 Hh2 Ht. unfold lfind_pathways. rewrite Hp. assert (Hm : mkset ps <> []) by exact (mkset_nonempty ps Hps). destruct (mkset ps) as [|e es] eqn:E; [contradiction|]. cbn [map ltruthy]. rewrite <- E in *.
  apply (loop_routes ps hist k targets Hps Hsub Hh1 Hh2 Ht l T); [exact Hi|exact Hp].
Qed.

Lemma last_given ops ps : nth_error (rev (precursors_of ops)) 0 = Some ps -> last_set ops = Some (mkset ps).
Proof. unfold last_set. destruct (rev (precursors_of ops)) as [|q l]; [discriminate|]. intros H. injection H as ->. reflexivity. Qed.
Lemma last_ok ops ps : Forall (acceptable entries) ops -> nth_error (rev (precursors_of ops)) 0 = Some ps -> ps <> [] /\ is_subset ps entries.
Proof.
  intros Ha H. apply nth_error_In, in_rev in H. unfold precursors_of in H. apply in_flat_map in H as ([q|t] & Hq & Hi); [|destruct Hi]. destruct Hi as [<-|[]]. rewrite Forall_forall in Ha. exact (Ha _ Hq).
Qed.
Lemma hist_all ops hist ps : hist_ok true ops hist -> (forall a, In a (precursors_of ops) -> forall e, In e a <-> In e ps) -> forall x, In x hist -> x = mkset ps.
Proof.
  intros (H1 & _) Hc x I. apply H1 in I. apply in_map_iff in I as (a & <- & I). apply set_unique. split; [apply set_of_mkset|]. intros e. rewrite (proj2 (set_of_mkset a) e). exact (Hc a I e).
Qed.

(* With the dictionary kept in memory the pathways are found as before. *)
Theorem memory_routes order ops l ps targets k : (forall x, Permutation (order x) x) -> Forall (acceptable entries) ops -> lrun_ops (lbuild (lnew entries rxns)) ops = Ok l ->
  nth_error (rev (precursors_of ops)) 0 = Some ps -> (forall a, In a (precursors_of ops) -> forall e, In e a <-> In e ps) -> Forall (fun t => In t entries) targets ->
  exists l' l'' per, reloaded false order l = Ok l' /\ lfind_pathways cost sp l' targets k = Ok (l'', concat per) /\ Forall2 (fun t pathways => routes_found cost rxns ps t k pathways) targets per.
Proof.
  intros Ho Ha HR Hps Hc Ht. destruct (run_clean ops Ha) as (l0 & hist & R & I & H & C). unfold start in R. rewrite HR in R. injection R as <-.
  destruct (last_ok ops ps Ha Hps) as [N S]. destruct (reload_inv false order l _ _ hist Ho C (fun q => last_set_nonempty entries ops q Ha) I) as (d & l' & g & _ & R2 & I2 & _ & P2 & _).
  rewrite (last_given ops ps Hps) in *. cbn [option_map kept] in P2.
  assert (Hn : hist <> []). { destruct H as (_ & H & _). rewrite (last_given ops ps Hps) in H. destruct H as (pre & H). intros ->. apply Permutation_nil in H. discriminate. }
  destruct (find_routes_loaded l' ps _ hist k targets I2 P2 N S Hn (hist_all ops hist ps H Hc) Ht) as (l'' & per & F1 & F2). exists l', l'', per. auto.
Qed.

(* From a file they are found once the precursors are set again. *)
Theorem file_routes file order ops l ps targets k : (forall x, Permutation (order x) x) -> Forall (acceptable entries) ops -> lrun_ops (lbuild (lnew entries rxns)) ops = Ok l ->
  ps <> [] -> is_subset ps entries -> (forall a, In a (precursors_of ops) -> forall e, In e a <-> In e ps) -> Forall (fun t => In t entries) targets ->
  exists l' l1 l2 per, reloaded file order l = Ok l' /\ lset_precursors l' ps = Ok l1 /\ lfind_pathways cost sp l1 targets k = Ok (l2, concat per)
  /\ Forall2 (fun t pathways => routes_found cost rxns ps t k pathways) targets per.
Proof.
  intros Ho Ha HR N S Hc Ht. destruct (run_clean ops Ha) as (l0 & hist & R & I & H & C). unfold start in R. rewrite HR in R. injection R as <-.
  destruct (reload_inv file order l _ _ hist Ho C (fun q => last_set_nonempty entries ops q Ha) I) as (d & l' & g & _ & R2 & I2 & Li & _).
  destruct (set_precursors_inv l' (last_set ops) (last_target ops) hist ps) as (l1 & hist' & S1 & I3 & Hh & _ & P3 & _); [intros E; congruence|exact I2|exact (fun q => last_set_nonempty entries ops q Ha)|exact N|exact S|].
  pose proof (hist_all ops hist ps H Hc) as Ha2.
  destruct (find_routes_loaded l1 ps _ hist' k targets I3 P3 N S) as (l2 & per & F1 & F2); [| |exact Ht|exists l', l1, l2, per; auto].
  - destruct Hh as [[-> Hl]| ->]; [|destruct hist; discriminate]. intros ->. destruct H as (_ & H & _). rewrite Hl in H. destruct H as (pre & H). apply Permutation_nil in H. discriminate.
  - intros x Ix. destruct Hh as [[-> _]| ->]; [exact (Ha2 x Ix)|]. apply in_app_iff in Ix as [Ix|[<-|[]]]; [exact (Ha2 x Ix)|reflexivity].
Qed.
End Net.

Section Fails.
Variable entries : list nat.
Variable rxns : list nrxn.
Hypothesis Hr : rxns <> [].
(* Without that, nothing is found. *)
Theorem file_fails order ops l ps : (forall x, Permutation (order x) x) -> Forall (acceptable entries) ops -> lrun_ops (lbuild (lnew entries rxns)) ops = Ok l ->
  nth_error (rev (precursors_of ops)) 0 = Some ps ->
  exists l', reloaded true order l = Ok l' /\ forall cost sp t targets k, In t entries -> lfind_pathways cost sp l' (t :: targets) k = Err TypeError.
Proof.
  intros Ho Ha HR Hps. destruct (run_clean entries rxns Hr ops Ha) as (l0 & hist & R & I & H & C). unfold start in R. rewrite HR in R. injection R as <-.
  destruct (last_ok entries ops ps Ha Hps) as [N S].
  destruct (reload_inv entries rxns true order l _ _ hist Ho C (fun q => last_set_nonempty entries ops q Ha) I) as (d & l' & g & _ & R2 & I2 & _ & P2 & _).
  exists l'. split; [exact R2|]. intros cost sp t targets k Ht. rewrite (last_given ops ps Hps) in *. cbn [option_map kept] in P2. unfold lfind_pathways. rewrite P2.
  assert (Hm : mkset ps <> []) by exact (mkset_nonempty ps N). destruct (mkset ps) as [|e es] eqn:E; [contradiction|]. cbn [map ltruthy lfind_loop].
  destruct (set_target_inv entries rxns Hr l' _ _ hist t I2 Ht) as (l1 & L1 & I1 & _ & L2 & L3). rewrite L1. cbn [bind]. unfold lk_shortest_paths.
  destruct I1 as (b & g1 & ext & Ew & Hs & _). rewrite <- graph_erase, (get_graph_inv _ (base_nonempty rxns Hr) (erase l1) g1 (f_equal w_graph Ew) ext Hs). cbn [bind].
  rewrite L2, P2. reflexivity.
Qed.
(* The dictionary is used up by reading it. *)
Theorem read_once file order ops l : (forall x, Permutation (order x) x) -> Forall (acceptable entries) ops -> lrun_ops (lbuild (lnew entries rxns)) ops = Ok l ->
  exists d l' d' l2 d2, stored file order l = Ok d /\ net_from_dict d = Ok (l', d') /\ l_graph l' <> None /\ net_from_dict d' = Ok (l2, d2)
  /\ l_precursors l2 = None /\ l_target l2 = None /\ l_graph l2 = None.
Proof.
  intros Ho Ha HR. destruct (run_clean entries rxns Hr ops Ha) as (l0 & hist & R & I & H & C). unfold start in R. rewrite HR in R. injection R as <-.
  destruct (reload_inv entries rxns file order l _ _ hist Ho C (fun q => last_set_nonempty entries ops q Ha) I) as (d & l' & g & S & _ & _ & _ & _ & _ & G & F).
  eexists _, _, _, _, _. split; [exact S|]. split; [exact F|]. split; [congruence|]. split; [reflexivity|]. cbn. auto.
Qed.
(* A network that was loaded and is built again has no node for its precursors and its
   target, but still refers to both. *)
Lemma first_none ty : ty = Precursors \/ ty = Target -> first_of_type ty (build rxns) = None.
Proof.
  intros Hty. destruct (build_parts rxns) as (S1 & _ & _). unfold first_of_type. rewrite (nodes_full _ _ S1). destruct (find _ _) as [[i n]|] eqn:F; [|reflexivity].
  exfalso. apply find_some in F as [F1 F2]. cbn [snd] in F2. apply ntype_eqb_iff in F2. apply in_enumerate, nth_error_In in F1. destruct (base_types rxns n F1) as [E|E], Hty; congruence.
Qed.
Theorem rebuilt_loaded file order ops l l' : (forall x, Permutation (order x) x) -> Forall (acceptable entries) ops -> lrun_ops (lbuild (lnew entries rxns)) ops = Ok l ->
  reloaded file order l = Ok l' ->
  (precursors_of ops <> [] -> forall ps, lset_precursors (lbuild l') ps = Err ValueError)
  /\ forall t, nth_error (rev (targets_of ops)) 0 = Some t -> l_target (lbuild l') = Some (if file then Raw t else Obj t)
     /\ forall u, u <> t \/ file = true -> lset_target (lbuild l') u = Err ValueError.
Proof.
  intros Ho Ha HR Hl. destruct (run_clean entries rxns Hr ops Ha) as (l0 & hist & R & I & H & C). unfold start in R. rewrite HR in R. injection R as <-.
  destruct (reload_inv entries rxns file order l _ _ hist Ho C (fun q => last_set_nonempty entries ops q Ha) I) as (d & l2 & g & _ & R2 & I2 & Li & P2 & T2 & _).
  rewrite Hl in R2. injection R2 as <-. destruct I2 as (b & g1 & ext & Ew & _). assert (Er : l_rxns l' = rxns) by (exact (f_equal w_rxns Ew)).
  destruct (build_parts rxns) as (S1 & _ & _).
  assert (Hg : lgraph (lbuild l') = Ok (build rxns)).
  { rewrite <- graph_erase. apply (get_graph_inv _ (base_nonempty rxns Hr) (erase (lbuild l')) (build rxns)) with (ext := []); [unfold erase, lbuild; cbn; rewrite Er; reflexivity|rewrite app_nil_r; exact S1]. }
  split.
  - intros Hp ps. destruct (rev (precursors_of ops)) as [|q qs] eqn:Eq; [apply (f_equal (@rev _)) in Eq; rewrite rev_involutive in Eq; contradiction|].
    assert (Hq : nth_error (rev (precursors_of ops)) 0 = Some q) by (rewrite Eq; reflexivity). destruct (last_ok entries ops q Ha Hq) as [N _].
    rewrite (last_given ops q Hq) in P2. cbn [option_map] in P2. unfold lset_precursors. rewrite Hg. cbn [bind].
    change (l_precursors (lbuild l')) with (l_precursors l'). change (l_listed (lbuild l')) with (l_listed l'). rewrite P2, Li. cbn [negb andb].
    destruct (negb _); [reflexivity|]. pose proof (mkset_nonempty q N) as M. destruct (mkset q) as [|e es]; [contradiction|]. cbn [map ltruthy].
    rewrite (first_none Precursors (or_introl eq_refl)). reflexivity.
  - intros t Ht. assert (Lt : last_target ops = Some t) by (unfold last_target; destruct (rev (targets_of ops)); [discriminate|injection Ht as ->; reflexivity]).
    rewrite Lt in T2. cbn [option_map] in T2. split; [exact T2|]. intros u Hu. unfold lset_target. rewrite Hg. cbn [bind]. change (l_target (lbuild l')) with (l_target l'). rewrite T2.
    assert (En : entry_is u (kept file t) = false) by (destruct file; [reflexivity|]; cbn; apply Nat.eqb_neq; destruct Hu; [assumption|discriminate]). rewrite En.
    destruct (negb _); [reflexivity|]. rewrite (first_none Target (or_intror eq_refl)). reflexivity.
Qed.
Theorem unbuilt file order : stored file order (lnew entries rxns) = Err AttributeError.
Proof. reflexivity. Qed.
End Fails.

(* --- nodes --- *)
Lemma concat_letters l : String.length (String.concat "-" l) = letters l + (List.length l - 1).
Proof.
  induction l as [|s [|s2 l] IH]; [reflexivity|cbn; lia|].
  change (String.concat "-" (s :: s2 :: l)) with (String.append s (String.append "-" (String.concat "-" (s2 :: l)))).
  assert (A : forall a b, String.length (String.append a b) = String.length a + String.length b) by (clear; induction a as [|c a IH]; intros b; cbn; [reflexivity|rewrite IH; reflexivity]).
  rewrite !A, IH. cbn [String.length letters fold_right List.length]. unfold letters. cbn [fold_right]. lia.
Qed.

Section Node.
Context {E : Type}.
Variable eqe : E -> E -> bool.
Variable elems : E -> list string.
Variable order : list string -> list string.
Notation make := (network_entry E eqe elems order).
Theorem dim_letters es k : let n := make es k in
  ne_dim E n = letters (ne_elements E n) + (List.length (ne_elements E n) - 1).
Proof. cbn. apply concat_letters. Qed.
Theorem dim_wrong es k : let n := make es k in Forall (fun s => s <> ""%string) (ne_elements E n) -> ne_elements E n <> [] ->
  (ne_dim E n = List.length (ne_elements E n) <-> exists s, ne_elements E n = [s] /\ String.length s = 1).
Proof.
  cbn. set (el := order (flat_map elems es)). intros Hs Hn. rewrite concat_letters.
  assert (L : forall l, Forall (fun s => s <> ""%string) l -> List.length l <= letters l).
  { induction l as [|s l IH]; intros F; [cbn; lia|]. inversion F; subst. specialize (IH H2). cbn. fold (letters l). destruct s; [contradiction|]. cbn. lia. }
  destruct el as [|s [|s2 l]]; [contradiction| |].
  - cbn. split; [intros H; exists s; split; [reflexivity|lia]|intros (s' & H & H'); injection H as <-; lia].
  - specialize (L _ Hs). split; [cbn [List.length] in *; intros H; exfalso; lia|intros (s' & H & _); discriminate].
Qed.

Hypothesis Heq : equivalence eqe.
Lemma existsb_cov x l : existsb (eqe x) l = true <-> exists y, In y l /\ eqe x y = true.
Proof. apply existsb_exists. Qed.
Lemma dedup_step : forall l acc, covered eqe acc (fold_left (fun acc e => if existsb (eqe e) acc then acc else acc ++ [e]) l acc)
  /\ covered eqe l (fold_left (fun acc e => if existsb (eqe e) acc then acc else acc ++ [e]) l acc)
  /\ incl (fold_left (fun acc e => if existsb (eqe e) acc then acc else acc ++ [e]) l acc) (acc ++ l).
Proof.
  destruct Heq as (Hrf & Hsy & Htr).
  induction l as [|e l IH]; intros acc; cbn [fold_left].
  - split; [intros x I; exists x; auto|]. split; [intros x []|]. rewrite app_nil_r. apply incl_refl.
  - destruct (existsb (eqe e) acc) eqn:Q.
    + destruct (IH acc) as (A & B & C). split; [exact A|]. split; [|intros x I; apply C in I; apply in_app_iff in I; apply in_app_iff; cbn; tauto].
      intros x [<-|I]; [|exact (B x I)]. apply existsb_cov in Q as (y & Iy & Qy). destruct (A y Iy) as (z & Iz & Qz). exists z. split; [exact Iz|exact (Htr _ _ _ Qy Qz)].
    + destruct (IH (acc ++ [e])) as (A & B & C). split; [intros x I; apply A; apply in_app_iff; auto|]. split; [|intros x I; apply C in I; rewrite !in_app_iff in I; apply in_app_iff; cbn in *; tauto].
      intros x [<-|I]; [|exact (B x I)]. apply A. apply in_app_iff. right. left. reflexivity.
Qed.
Lemma dedup_cov l : covered eqe l (dedup E eqe l) /\ incl (dedup E eqe l) l.
Proof. destruct (dedup_step l []) as (_ & B & C). split; [exact B|exact C]. Qed.
Lemma covered_trans a b c : covered eqe a b -> covered eqe b c -> covered eqe a c.
Proof. intros H1 H2 x I. destruct (H1 x I) as (y & Iy & Q). destruct (H2 y Iy) as (z & Iz & Q'). exists z. split; [exact Iz|]. destruct Heq as (_ & _ & Htr). exact (Htr _ _ _ Q Q'). Qed.
Lemma incl_covered a b : incl a b -> covered eqe a b.
Proof. intros H x I. exists x. split; [exact (H x I)|]. apply Heq. Qed.
Lemma same_entries_iff a b : same_entries E eqe a b = true <-> covered eqe a b /\ covered eqe b a.
Proof.
  unfold same_entries. rewrite andb_true_iff, !forallb_forall. unfold covered.
  split; intros [H1 H2]; (split; intros x I; [specialize (H1 x I)|specialize (H2 x I)]); apply existsb_cov; assumption.
Qed.

(* Equal nodes: the same kind and the same entries. *)
Hypothesis Hel : forall a b, eqe a b = true -> forall s, In s (elems a) <-> In s (elems b).
Hypothesis Hord : forall a b, (forall s, In s a <-> In s b) -> order a = order b.
Lemma covered_elems a b : covered eqe a b -> forall s, In s (flat_map elems a) -> In s (flat_map elems b).
Proof. intros H s I. apply in_flat_map in I as (x & I & J). destruct (H x I) as (y & Iy & Q). apply in_flat_map. exists y. split; [exact Iy|]. apply (Hel x y Q). exact J. Qed.
Theorem node_equal es k es' k' same : nentry_eq E eqe same (make es k) (make es' k') = true <-> k = k' /\ covered eqe es es' /\ covered eqe es' es.
Proof.
  unfold nentry_eq. cbn [ne_dummy make network_entry orb ne_kind ne_chemsys ne_entries]. rewrite !andb_true_iff, same_entries_iff, String.eqb_eq.
  assert (K : kind_eqb k k' = true <-> k = k') by (destruct k, k'; split; intros H; try reflexivity; discriminate H). rewrite K.
  destruct (dedup_cov es) as [A B]. destruct (dedup_cov es') as [A' B']. split.
  - intros ((-> & _) & H1 & H2). split; [reflexivity|]. split.
    + exact (covered_trans _ _ _ A (covered_trans _ _ _ H1 (incl_covered _ _ B'))).
    + exact (covered_trans _ _ _ A' (covered_trans _ _ _ H2 (incl_covered _ _ B))).
  - intros (-> & H1 & H2). split; [split; [reflexivity|]|split].
    + f_equal. apply Hord. intros s. split; apply covered_elems; assumption.
    + exact (covered_trans _ _ _ (incl_covered _ _ B) (covered_trans _ _ _ H1 A')).
    + exact (covered_trans _ _ _ (incl_covered _ _ B') (covered_trans _ _ _ H2 A)).
Qed.
Theorem node_reload es k : exists n, nentry_round_trip E eqe elems order (make es k) = Ok n
  /\ nentry_eq E eqe false (make es k) n = true /\ ne_chemsys E n = ne_chemsys E (make es k) /\ ne_elements E n = ne_elements E (make es k) /\ ne_kind E n = k.
Proof.
  eexists. split; [reflexivity|]. cbn [ne_entries make network_entry ne_kind]. destruct (dedup_cov es) as [A B].
  assert (O : order (flat_map elems (dedup E eqe es)) = order (flat_map elems es)) by (apply Hord; intros s; split; apply covered_elems; [exact (incl_covered _ _ B)|exact A]).
  split; [apply node_equal; split; [reflexivity|]; split; [exact A|exact (incl_covered _ _ B)]|]. cbn. rewrite O. auto.
Qed.
End Node.

(* What is not there. *)
Lemma unknown_precursor l ps e : In e ps -> ~ In e (l_entries l) -> (forall vs, l_precursors l = Some vs -> ~ In (Obj e) vs) -> lset_precursors l ps = Err ValueError.
Proof.
  intros Ie Ne Np. unfold lset_precursors, lgraph. destruct (l_graph l) as [g|]; [|reflexivity]. destruct (is_nil (nodes g)); [reflexivity|]. cbn [bind].
  assert (Ae : forall es vs, entries_are es vs = true -> In e es -> In (Obj e) vs).
  { induction es as [|a es IH]; intros [|v vs] H I; try discriminate; [destruct I|]. cbn [entries_are] in H. apply andb_prop in H as (H1 & H2). destruct I as [->|I]; [|right; exact (IH vs H2 I)].
    left. destruct v; [|discriminate]. apply Nat.eqb_eq in H1. congruence. }
  assert (Im : In e (mkset ps)) by (apply RouteProofs.in_mkset; exact Ie).
  destruct (match l_precursors l with Some old => _ | None => _ end) eqn:E.
  - exfalso. destruct (l_precursors l) as [old|]; [|discriminate]. apply andb_prop in E as (_ & E). exact (Np old eq_refl (Ae _ _ E Im)).
  - destruct (subset (mkset ps) (l_entries l)) eqn:S; [|reflexivity]. exfalso. apply Ne. unfold subset in S. rewrite forallb_forall in S. specialize (S e Im). unfold inb in S. apply existsb_exists in S as (x & Ix & Ex). apply Nat.eqb_eq in Ex as <-. exact Ix.
Qed.
Lemma search_without cost sp l targets k : l_precursors l = None \/ l_precursors l = Some [] -> lfind_pathways cost sp l targets k = Err AttributeError.
Proof. intros H. unfold lfind_pathways. destruct H as [-> | ->]; reflexivity. Qed.
