From Verif Require Import Prelude NumQ ListFacts UtilsModel UtilsSpec RxnSetModel RxnSetSpec RxnSetBaseProofs RxnSetProofs RxnSetFilterProofs RxnSetParProofs NetModel NetSpec NetHistoryProofs YenModel YenSpec RouteSpec RouteProofs FlowModel NetJobModel NetJobSpec.
From Verif Require EntrySetModel EntrySetSpec EntrySetProofs.
From Coq Require Import Lqa.
Open Scope nat_scope.

Lemma ltb_iff a b : Qlt_bool a b = true <-> (a < b)%Q.
Proof.
  unfold Qlt_bool. rewrite negb_true_iff. split; intros H.
  - apply Qnot_le_lt. intros L. apply Qle_bool_iff in L. congruence.
  - destruct (Qle_bool b a) eqn:E; [|reflexivity]. apply Qle_bool_iff in E. lra.
Qed.

(* --- multiples --- *)
Lemma multiples_sym a b : multiples a b -> multiples b a.
Proof.
  intros (k & l & Hk & [A1 A2] & H). exists (/ k)%Q, (map (fun t => (fst (fst t), snd t, snd (fst t))) l). split; [apply Qinv_lt_0_compat; exact Hk|].
  split; [split; rewrite map_map; assumption|]. intros e x y I. apply in_map_iff in I as ([[e' x'] y'] & E & I). cbn in E. injection E as <- <- <-.
  rewrite (H e' x' y' I). field. lra.
Qed.
Lemma multiples_mu m m' a b : multiples a b -> multiples (with_mu m a) (with_mu m' b).
Proof. exact (fun H => H). Qed.

Lemma ordpairs_sym {A} (R : A -> A -> Prop) (l l' : list A) : (forall a b, R a b -> R b a) -> Permutation l l' -> ForallOrdPairs R l -> ForallOrdPairs R l'.
Proof.
  intros S P. induction P as [|x l l' P IH|x y l|l l' l'' P1 IH1 P2 IH2]; intros F.
  - exact F.
  - inversion F; subst. constructor; [|apply IH; assumption]. apply Forall_forall. intros z Hz. apply (Permutation_in _ (Permutation_sym P)) in Hz.
    match goal with H : Forall _ l |- _ => rewrite Forall_forall in H; exact (H z Hz) end.
  - inversion F as [|? ? F1 F2]; subst. inversion F2 as [|? ? F3 F4]; subst. inversion F1; subst. constructor; [constructor; [apply S; assumption|assumption]|]. constructor; assumption.
  - apply IH2, IH1, F.
Qed.
Lemma ordpairs_nth {A} (R : A -> A -> Prop) (l : list A) : ForallOrdPairs R l -> forall i j a b, i < j -> nth_error l i = Some a -> nth_error l j = Some b -> R a b.
Proof.
  intros F. induction F as [|x l F1 F2 IH]; intros i j a b L Hi Hj; [destruct i; discriminate|]. destruct j as [|j]; [lia|]. destruct i as [|i].
  - cbn in Hi, Hj. injection Hi as <-. rewrite Forall_forall in F1. apply F1. exact (nth_error_In _ _ Hj).
  - apply (IH i j); [lia|exact Hi|exact Hj].
Qed.

(* --- the reactions of the network --- *)
Lemma reactants_iff r e : In e (reactant_entries r) <-> uses r e.
Proof.
  unfold reactant_entries, uses, takes_part. rewrite in_map_iff. split.
  - intros ([e' c] & <- & H). apply filter_In in H as [H1 H2]. exists c. split; [exact H1|apply ltb_iff; exact H2].
  - intros (c & H1 & H2). exists (e, c). split; [reflexivity|]. apply filter_In. split; [exact H1|apply ltb_iff; exact H2].
Qed.
Lemma products_iff r e : In e (product_entries r) <-> makes r e.
Proof.
  unfold product_entries, makes, takes_part. rewrite in_map_iff. split.
  - intros ([e' c] & <- & H). apply filter_In in H as [H1 H2]. exists c. split; [exact H1|apply ltb_iff; exact H2].
  - intros (c & H1 & H2). exists (e, c). split; [reflexivity|]. apply filter_In. split; [exact H1|apply ltb_iff; exact H2].
Qed.
Lemma uses_entry r e : uses r e -> In e (x_entries r).
Proof. intros (c & H & _). exact (in_combine_l _ _ _ _ H). Qed.
Lemma makes_entry r e : makes r e -> In e (x_entries r).
Proof. intros (c & H & _). exact (in_combine_l _ _ _ _ H). Qed.

Lemma nth_combine_seq {A} (l : list A) : forall k i x, In (i, x) (combine (seq k (length l)) l) <-> k <= i /\ nth_error l (i - k) = Some x.
Proof.
  induction l as [|y l IH]; intros k i x; cbn [length seq combine].
  - split; [intros []|]. intros [_ H]. destruct (i - k); discriminate.
  - cbn [In]. rewrite IH. split.
    + intros [E|[L H]]; [injection E as <- <-; rewrite Nat.sub_diag; auto|]. split; [lia|]. replace (i - k) with (S (i - S k)) by lia. exact H.
    + intros [L H]. destruct (i - k) as [|n] eqn:E; [left; cbn in H; injection H as ->; f_equal; lia|right]. split; [lia|]. replace (i - S k) with n by lia. exact H.
Qed.
Lemma in_net_rxns rs n : In n (net_rxns rs) <-> exists x, nth_error rs (n_id n) = Some x /\ n = net_rxn (n_id n) x.
Proof.
  unfold net_rxns, enumerate. rewrite in_map_iff. split.
  - intros ([i x] & <- & H). apply nth_combine_seq in H as [_ H]. rewrite Nat.sub_0_r in H. exists x. split; [exact H|reflexivity].
  - intros (x & H & E). exists (n_id n, x). split; [symmetry; exact E|]. apply nth_combine_seq. rewrite Nat.sub_0_r. split; [lia|exact H].
Qed.

Definition stands (rs : list srxn) (n : nrxn) (x : srxn) : Prop := nth_error rs (n_id n) = Some x /\ n = net_rxn (n_id n) x.

Lemma stands_all rs ns : incl ns (net_rxns rs) -> exists xs, Forall2 (stands rs) ns xs /\ incl xs rs.
Proof.
  induction ns as [|n ns IH]; intros H; [exists []; split; [constructor|intros x []]|]. destruct IH as (xs & F & I); [intros z Hz; apply H; right; exact Hz|].
  destruct (proj1 (in_net_rxns rs n) (H n (or_introl eq_refl))) as (x & E1 & E2). exists (x :: xs). split; [constructor; [split; assumption|exact F]|].
  intros z [<-|Hz]; [exact (nth_error_In _ _ E1)|exact (I z Hz)].
Qed.
Lemma stands_back rs xs : incl xs rs -> exists ns, Forall2 (stands rs) ns xs /\ incl ns (net_rxns rs).
Proof.
  induction xs as [|x xs IH]; intros H; [exists []; split; [constructor|intros z []]|]. destruct IH as (ns & F & I); [intros z Hz; apply H; right; exact Hz|].
  destruct (In_nth_error _ _ (H x (or_introl eq_refl))) as [i Hi]. exists (net_rxn i x :: ns). split; [constructor; [split; [exact Hi|reflexivity]|exact F]|].
  intros z [<-|Hz]; [apply in_net_rxns; exists x; split; [exact Hi|reflexivity]|exact (I z Hz)].
Qed.

Section Route.
Variable rs : list srxn.
Variable es : list sentry.
Hypothesis Hinj : forall x y, In x es -> In y es -> uid x = uid y -> x = y.
Hypothesis Hes : forall r e, In r rs -> In e (x_entries r) -> In e es.

Lemma in_uids e l : In e es -> incl l es -> (In (uid e) (map uid l) <-> In e l).
Proof.
  intros He Hl. rewrite in_map_iff. split; [|intros H; exists e; auto]. intros (e' & E & H). rewrite <- (Hinj e' e (Hl e' H) He E). exact H.
Qed.

Lemma route_leads ps t : incl ps es -> In t es -> forall ns xs, Forall2 (stands rs) ns xs -> forall have hl, incl hl es -> (forall e, In e hl <-> have e) ->
  (route (map uid ps) (uid t) (map uid hl) ns <-> leads ps t have xs).
Proof.
  intros Hps Ht ns xs F. induction F as [|n x ns xs [S1 S2] F IH]; intros have hl Hhl Hh; cbn [route leads].
  - rewrite (in_uids t hl Ht Hhl). apply Hh.
  - assert (Hx : forall e, In e (x_entries x) -> In e es) by (intros e; apply Hes; exact (nth_error_In _ _ S1)).
    rewrite <- (IH (makes x) (product_entries x)); [|intros e He; apply Hx, makes_entry, products_iff; exact He|intros e; apply products_iff].
    assert (E1 : n_reactants n = map uid (reactant_entries x)) by (rewrite S2; reflexivity). assert (E2 : n_products n = map uid (product_entries x)) by (rewrite S2; reflexivity).
    rewrite E1, E2, <- map_app. apply and_iff_compat_r. assert (Ha : incl (ps ++ hl) es) by (apply incl_app; assumption). split.
    + intros H e U. pose proof (Hx e (uses_entry x e U)) as He. assert (I : In e (ps ++ hl)).
      { apply (in_uids e _ He Ha). apply H. apply in_map, reactants_iff, U. }
      apply in_app_or in I as [I|I]; [left; exact I|right; apply Hh; exact I].
    + intros H u Hu. apply in_map_iff in Hu as (e & <- & He). apply in_map. apply in_or_app. destruct (H e (proj1 (reactants_iff x e) He)) as [I|I]; [left; exact I|right; apply Hh; exact I].
Qed.

Variable cost : srxn -> Q.
Lemma found_pathways ps t k pathways : incl ps es -> In t es -> 0 < k ->
  routes_found (cost_at cost rs) (net_rxns rs) (map uid ps) (uid t) k pathways -> pathways_to cost rs ps t k pathways.
Proof.
  intros Hps Ht Hk (R1 & R2 & R3 & R4).
  assert (EQ : forall ns xs, Forall2 (stands rs) ns xs -> (route (map uid ps) (uid t) [] ns <-> leads ps t nothing xs)).
  { intros ns xs F. apply (route_leads ps t Hps Ht ns xs F nothing []); [intros e []|intros e; reflexivity]. }
  split; [|split; [exact R2|split; [lia|]]].
  - apply Forall_forall. intros p Hp. rewrite Forall_forall in R1. destruct (R1 p Hp) as (ns & -> & I & R). destruct (stands_all rs ns I) as (xs & F & Ix).
    exists xs. split; [|split; [exact Ix|apply (EQ ns xs F), R]]. clear -F. unfold goes_through. induction F as [|n x ns xs [S1 S2] F IH]; constructor; [|exact IH].
    cbn [fst snd]. split; [exists n; split; [reflexivity|exact S1]|]. unfold cost_at. rewrite S1. reflexivity.
  - rewrite R4. split.
    + intros H xs Ix L. destruct (stands_back rs xs Ix) as (ns & F & I). exact (H ns I (proj2 (EQ ns xs F) L)).
    + intros H ns I R. destruct (stands_all rs ns I) as (xs & F & Ix). exact (H xs Ix (proj1 (EQ ns xs F) R)).
Qed.
End Route.

Lemma parallel_entries argsort shuffle cpus wait s ensure s' : filter_duplicates_parallel argsort shuffle cpus wait s ensure = Ok s' -> r_entries s' = r_entries s.
Proof.
  unfold filter_duplicates_parallel. destruct (filter_duplicates_parallel_idxs _ _ _ _ _ _) as [i|]; [|discriminate]. cbn [bind]. unfold get_rxn_set_by_indices.
  do 3 (destruct (mapM _ i); [|discriminate]; cbn [bind]). intros H. injection H as <-. reflexivity.
Qed.

Section Job.
Variable arrange : list sentry -> list sentry.
Hypothesis Harr : arranges arrange.
Variable argsort : list Q -> list nat.
Hypothesis Hsort : forall l, Permutation (argsort l) (seq 0 (length l)).
Variable shuffle : list nat -> list nat.
Hypothesis Hshuf : forall l, Permutation (shuffle l) l.
Variable cpus : nat.
Hypothesis Hcpus : 2 <= cpus.
Variable wait : nat -> list (nat * list (option (list nat)) * result (list nat)) ->
  list (nat * list (option (list nat)) * result (list nat)) * list (nat * list (option (list nat)) * result (list nat)).
Hypothesis Hwait : valid_schedule wait.

(* The reaction set of the network. *)
Lemma set_built given oe mu : (forall x y, In x (all_entries given) -> In y (all_entries given) -> uid x = uid y -> x = y) ->
  (forall r, In r given -> plain r) -> sharp given ->
  exists s s' rs m, from_rxns arrange given [] oe mu = Ok s /\ filter_duplicates_parallel argsort shuffle cpus wait s [] = Ok s' /\ get_rxns s' = Ok rs
  /\ families m given rs /\ (forall e, In e (r_entries s') <-> In e (all_entries given))
  /\ (forall el, oe = Some el -> m = Some [(el, mu)]) /\ (oe = None -> (forall r, In r given -> x_mu r = None) -> given <> [] -> m = None).
Proof.
  intros Hu Hp Hs. destruct (from_rxns_spec arrange given [] oe mu Harr (or_introl eq_refl) Hu) as (s & out & E1 & E2 & E3 & E4 & _ & _ & E7 & E8).
  { intros r Hr. destruct (Hp r Hr) as (_ & L & _). exact L. }
  set (m := mu_dict s) in *.
  assert (Hout : forall r, In r out -> exists r0, In r0 given /\ r = with_mu m r0).
  { intros r Hr. apply (Permutation_in _ E4) in Hr. apply in_map_iff in Hr as (r0 & <- & H). exists r0. auto. }
  assert (Pout : forall r, In r out -> plain r) by (intros r Hr; destruct (Hout r Hr) as (r0 & H & ->); exact (Hp r0 H)).
  assert (Sout : sharp out).
  { intros r r' Hr Hr'. destruct (Hout r Hr) as (r0 & H & ->). destruct (Hout r' Hr') as (r1 & H1 & ->). exact (Hs r0 r1 H H1). }
  assert (NE : NoDup (r_entries s)) by (rewrite E7; apply Harr).
  destruct (no_ensured_families argsort shuffle Hsort Hshuf s E2 NE out E3 Pout Sout) as (s1 & o1 & F1 & F2 & F3 & (rest & F4) & F5 & F6).
  pose proof (parallel_spec argsort shuffle s cpus wait [] E2 Hcpus Hwait) as P. rewrite F1 in P.
  destruct (filter_duplicates_parallel argsort shuffle cpus wait s []) as [s'|] eqn:Ep; [|destruct P]. destruct P as (ra & rb & P1 & P2 & P3).
  assert (ra = o1) by congruence. subst ra. exists s, s', rb, m. split; [exact E1|]. split; [exact Ep|]. split; [exact P2|]. split; [|split; [|split]].
  - split; [|split].
    + intros r Hr. destruct (F5 (with_mu m r)) as (r' & H1 & H2); [apply (Permutation_in _ (Permutation_sym E4)), in_map; exact Hr|].
      exists r'. split; [exact (Permutation_in _ P3 H1)|exact H2].
    + intros r' Hr'. apply Hout. apply (Permutation_in _ (Permutation_sym F4)), in_or_app. left. exact (Permutation_in _ (Permutation_sym P3) Hr').
    + assert (O : ForallOrdPairs (fun r r' => ~ multiples r r') rb).
      { apply (ordpairs_sym _ o1 rb); [|exact P3|exact F6]. intros a b H M. apply H, multiples_sym, M. }
      intros i j r r' Hi Hj M. destruct (Nat.lt_trichotomy i j) as [L|[L|L]]; [|exact L|].
      * destruct (ordpairs_nth _ _ O i j r r' L Hi Hj M).
      * destruct (ordpairs_nth _ _ O j i r' r L Hj Hi (multiples_sym _ _ M)).
  - intros e. rewrite (parallel_entries _ _ _ _ _ _ _ Ep), E7. apply Harr.
  - intros el ->. rewrite E8. reflexivity.
  - intros -> Hm Hne. rewrite E8. unfold spec_mu, common_mu. destruct given as [|r given]; [destruct (Hne eq_refl)|]. cbn [forallb]. rewrite (Hm r (or_introl eq_refl)). reflexivity.
Qed.

Variable formula : nat -> nat.
Variable epa : nat -> Q.
Variable cost : srxn -> Q.
Hypothesis Hcost : forall r, (0 <= cost r)%Q.
Variable sp : (payload -> Q) -> list (nat * nat * payload) -> nat -> nat -> option (list nat).
Hypothesis Hsp : forall weight, shortest weight (sp weight).

Lemma named_all es given fs w : w_entries w = map uid es -> (forall e, In e es <-> In e (all_entries given)) ->
  (forall e, In e es -> form e = formula (uid e)) ->
  (forall f, In f fs -> exists r e, In r given /\ In e (x_entries r) /\ form e = f) ->
  exists ps, mapM (named formula epa w) fs = Ok (map uid ps) /\ incl ps es /\ Forall2 (lowest epa given) fs ps.
Proof.
  intros Hw He Hf. induction fs as [|f fs IH]; intros H; [exists []; split; [reflexivity|split; [intros x []|constructor]]|].
  destruct IH as (ps & I1 & I2 & I3); [intros g Hg; apply H; right; exact Hg|]. destruct (H f (or_introl eq_refl)) as (r & e & Hr & Hx & Ef).
  assert (Hall : forall r e, In r given -> In e (x_entries r) -> In e es) by (intros r' e' H1 H2; apply He, in_flat_map; exists r'; auto).
  destruct (EntrySetProofs.min_entry_spec formula epa (map uid es) f) as (A & B & D).
  destruct (EntrySetModel.get_min_entry formula epa (map uid es) f) as [u|x] eqn:G.
  - destruct (A u eq_refl) as (A1 & A2 & A3). apply in_map_iff in A2 as (e0 & <- & A2). exists (e0 :: ps). split; [cbn [mapM map]; unfold named at 1; rewrite Hw, G; cbn [bind]; rewrite I1; reflexivity|].
    split; [intros z [<-|Hz]; [exact A2|exact (I2 z Hz)]|]. constructor; [|exact I3]. split; [rewrite (Hf e0 A2); exact A1|]. split.
    + apply He, in_flat_map in A2. exact A2.
    + intros r' e' H1 H2 H3. apply A3; [apply in_map, (Hall r'); assumption|]. rewrite A1, <- (Hf e' (Hall r' e' H1 H2)). exact H3.
  - exfalso. rewrite (D x eq_refl) in B. apply (proj1 B eq_refl (uid e)); [apply in_map, (Hall r); assumption|]. rewrite <- (Hf e (Hall r e Hr Hx)). exact Ef.
Qed.

Theorem job_spec mk sets ls fs ts k :
  Forall2 (fun s l => get_rxns s = Ok l) sets ls -> let given := concat ls in
  (forall x y, In x (all_entries given) -> In y (all_entries given) -> uid x = uid y -> x = y) ->
  (forall r, In r given -> plain r) -> sharp given ->
  (forall r e, In r given -> In e (x_entries r) -> form e = formula (uid e)) ->
  nm_precursors mk = Some fs -> fs <> [] -> nm_targets mk = Some ts -> ts <> [] -> nm_k mk = Some k -> 0 < k ->
  (forall f, In f (fs ++ ts) -> exists r e, In r given /\ In e (x_entries r) /\ form e = f) ->
  exists w rs m ps tes per, network_job arrange argsort shuffle cpus wait formula epa cost sp mk sets = Ok (w, rs, Some (concat per))
  /\ families m given rs /\ ((forall el, nm_open mk = Some el -> m = Some [(el, nm_chempot mk)]) /\ (nm_open mk = None -> (forall r, In r given -> x_mu r = None) -> m = None))
  /\ Forall2 (lowest epa given) fs ps /\ Forall2 (lowest epa given) ts tes
  /\ Forall2 (fun t pathways => pathways_to cost rs ps t k pathways) tes per.
Proof.
  intros HL given Hu Hp Hs Hf Ep Hfs Et Hts Ek Hk Hin.
  destruct (set_built given (nm_open mk) (nm_chempot mk) Hu Hp Hs) as (s & s' & rs & m & B1 & B2 & B3 & B4 & B5 & B6 & B7).
  pose proof (proj2 (mapM_Forall2 _ _ _) HL) as EL.
  set (es := r_entries s') in *.
  assert (Hinj : forall x y, In x es -> In y es -> uid x = uid y -> x = y) by (intros x y Hx Hy; apply Hu; apply B5; assumption).
  assert (Hform : forall e, In e es -> form e = formula (uid e)).
  { intros e He. apply B5, in_flat_map in He as (r & H1 & H2). exact (Hf r e H1 H2). }
  assert (Hes : forall r e, In r rs -> In e (x_entries r) -> In e es).
  { intros r e Hr He. destruct (proj1 (proj2 B4) r Hr) as (r0 & H0 & ->). apply B5, in_flat_map. exists r0. auto. }
  set (w0 := net_build (new_network (map uid es) (net_rxns rs))).
  destruct (named_all es given fs w0 eq_refl B5 Hform) as (ps & P1 & P2 & P3); [intros f H; apply Hin, in_or_app; left; exact H|].
  destruct ts as [|t0 ts0] eqn:Ets; [destruct (Hts eq_refl)|]. rewrite <- Ets in *.
  assert (Hps : map uid ps <> []) by (destruct P3; [destruct (Hfs eq_refl)|discriminate]).
  assert (Hrs : net_rxns rs <> []).
  { destruct fs as [|f fs']; [destruct (Hfs eq_refl)|]. destruct (Hin f (or_introl eq_refl)) as (r & _ & Hr & _). destruct (proj1 B4 r Hr) as (r' & Hr' & _). destruct rs as [|a rs']; [destruct Hr'|discriminate]. }
  assert (Hgiven : given <> []).
  { destruct fs as [|f fs']; [destruct (Hfs eq_refl)|]. destruct (Hin f (or_introl eq_refl)) as (r & _ & Hr & _). intros E0. rewrite E0 in Hr. destruct Hr. }
  assert (HT : forall w, w_entries w = map uid es -> exists tes, mapM (named formula epa w) ts = Ok (map uid tes) /\ incl tes es /\ Forall2 (lowest epa given) ts tes).
  { intros w Hw. apply (named_all es given ts w Hw B5 Hform). intros f H. apply Hin, in_or_app. right. exact H. }
  destruct (HT w0 eq_refl) as (tes & T1 & T2 & T3). rewrite Ets in T1, T3. cbn [mapM] in T1.
  destruct tes as [|te tes]; [inversion T3|]. destruct (named formula epa w0 t0) as [u0|] eqn:N0; [|discriminate T1]. cbn [bind] in T1. destruct (mapM (named formula epa w0) ts0) as [us|] eqn:N1; [|discriminate T1]. cbn [bind map] in T1.
  assert (u0 = uid te) by congruence. assert (us = map uid tes) by congruence. subst u0 us.
  assert (Sub : is_subset (map uid ps) (map uid es)) by (intros u H; apply in_map_iff in H as (e & <- & He); apply in_map, P2, He).
  assert (Int : In (uid te) (map uid es)) by (apply in_map, T2; left; reflexivity).
  destruct (setters_spec (map uid es) (net_rxns rs) Hrs (map uid ps) (uid te) Hps Sub Int) as (w & g & x & new & W1 & _).
  assert (Acc : Forall (acceptable (map uid es)) [SetPrecursors (map uid ps); SetTarget (uid te)]) by (constructor; [split; assumption|constructor; [exact Int|constructor]]).
  destruct (routes_spec (map uid es) (net_rxns rs) Hrs (cost_at cost rs)) with (sp := sp (weight_at cost rs)) (ops := [SetPrecursors (map uid ps); SetTarget (uid te)]) (w := w) (ps := map uid ps) (targets := map uid (te :: tes)) (k := k)
    as (w' & per & R1 & R2).
  - intros r _. unfold cost_at. destruct (nth_error rs (n_id r)); [apply Hcost|lra].
  - exact (Hsp (weight_at cost rs)).
  - exact Acc.
  - exact W1.
  - reflexivity.
  - intros a [<-|[]] e. reflexivity.
  - apply Forall_forall. intros u H. apply in_map_iff in H as (e & <- & He). apply in_map, T2, He.
  - fold w0 in W1. cbn [run_ops run_op] in W1. destruct (set_precursors w0 (map uid ps)) as [w1|] eqn:SP; [|discriminate W1]. cbn [bind] in W1.
    destruct (set_target w1 (uid te)) as [w2|] eqn:ST; [|discriminate W1]. cbn [bind] in W1. assert (w2 = w) by congruence. subst w2.
    assert (Ew1 : w_entries w1 = map uid es /\ truthy (w_precursors w1) = true).
    { clear -SP Hps. unfold set_precursors in SP. destruct (get_graph w0) as [g|]; [|discriminate]. cbn [bind] in SP. cbn [w_precursors w0 net_build new_network] in SP.
      destruct (negb _); [discriminate|]. cbn [truthy bind] in SP. destruct (add_node _ _) as [g2 pn]. injection SP as <-. split; [reflexivity|]. cbn [w_precursors truthy].
      pose proof (mkset_nonempty _ Hps) as N. destruct (mkset (map uid ps)); [destruct (N eq_refl)|reflexivity]. }
    assert (Ew : w_entries w = map uid es /\ truthy (w_precursors w) = true).
    { destruct Ew1 as [A B]. clear -ST A B. unfold set_target in ST. destruct (get_graph w1) as [g|]; [|discriminate]. cbn [bind] in ST.
      destruct (match w_target w1 with Some old => _ | None => _ end); [injection ST as <-; auto|]. destruct (negb _); [discriminate|].
      destruct (match w_target w1 with Some _ => _ | None => _ end) as [g1|]; [|discriminate]. cbn [bind] in ST. destruct (add_node _ _) as [g2 tn]. injection ST as <-. auto. }
    assert (G0 : exists g0, get_graph w0 = Ok g0) by (clear -SP; unfold set_precursors in SP; destruct (get_graph w0) as [g0|]; [exists g0; reflexivity|discriminate SP]).
    assert (G1 : exists g1, get_graph w1 = Ok g1) by (clear -ST; unfold set_target in ST; destruct (get_graph w1) as [g1|]; [exists g1; reflexivity|discriminate ST]).
    destruct G0 as [g0 G0]. destruct G1 as [g1 G1].
    assert (Nw : forall v f, w_entries v = map uid es -> named formula epa v f = named formula epa w0 f) by (intros v f H; unfold named; rewrite H; reflexivity).
    assert (Mw : mapM (named formula epa w) (t0 :: ts0) = Ok (uid te :: map uid tes)).
    { rewrite (mapM_ext _ (named formula epa w0)); [cbn [mapM]; rewrite N0; cbn [bind]; rewrite N1; reflexivity|]. intros f _. exact (Nw w f (proj1 Ew)). }
    exists w', rs, m, ps, (te :: tes), per. split; [|split; [exact B4|split; [split; [exact B6|intros Eo Hx; apply (B7 Eo Hx); exact Hgiven]|split; [exact P3|split; [rewrite Ets; exact T3|]]]]].
    + unfold network_job. rewrite EL. cbn [bind]. fold given. rewrite B1. cbn [bind]. rewrite B2. cbn [bind]. rewrite B3. cbn [bind]. fold es. fold w0. rewrite Ep, Et, Ek.
      destruct fs as [|f fs']; [destruct (Hfs eq_refl)|]. rewrite G0. cbn [bind]. rewrite P1. cbn [bind]. rewrite SP. cbn [bind]. rewrite Ets, G1. cbn [bind].
      rewrite (Nw w1 t0 (proj1 Ew1)), N0. cbn [bind]. rewrite ST. cbn [bind]. destruct k as [|k]; [lia|]. rewrite (proj2 Ew), Mw. cbn [bind]. change (uid te :: map uid tes) with (map uid (te :: tes)). rewrite R1. reflexivity.
    + clear -R2 T2 P2 Hinj Hes Hk. revert per R2. induction (te :: tes) as [|t l IH]; intros per R2; inversion R2; subst; constructor.
      * apply (found_pathways rs es Hinj Hes cost ps t k); [exact P2|apply T2; left; reflexivity|exact Hk|assumption].
      * apply IH; [intros z Hz; apply T2; right; exact Hz|assumption].
Qed.
End Job.
