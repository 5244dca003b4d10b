From Coq Require Import Lqa.
From Verif Require Import Prelude NumQ SumQ ListFacts UtilsModel UtilsSpec ReactionModel ReactionSpec ReactionBaseProofs RxnSetModel RxnSetSpec RxnSetBaseProofs RxnSetProofs PathModel PathSpec PathProofs
  SolverModel SolverSpec SolverSolveProofs SolverMoreProofs NetModel YenModel YenSpec ShortestPath FlowModel NetJobModel NetJobSpec SolveJobModel SolveJobSpec SolveJobProofs ChainModel ChainSpec.
From Verif Require NetJobProofs RxnSetRowProofs.
Open Scope nat_scope.

(* --- the network keeps its entries --- *)
Lemma target_entries w t w' : set_target w t = Ok w' -> w_entries w' = w_entries w.
Proof.
  unfold set_target. destruct (get_graph w) as [g|]; [|discriminate]. cbn [bind]. destruct (match w_target w with Some old => _ | None => _ end); [intros [= <-]; reflexivity|].
  destruct (negb _); [discriminate|]. destruct (match w_target w with Some _ => _ | None => _ end) as [g1|]; [|discriminate]. cbn [bind]. destruct (add_node _ _) as [g2 tn]. intros [= <-]. reflexivity.
Qed.
Lemma precursors_entries w l w' : set_precursors w l = Ok w' -> w_entries w' = w_entries w.
Proof.
  unfold set_precursors. destruct (get_graph w) as [g|]; [|discriminate]. cbn [bind]. intros H.
  repeat match type of H with
         | (if ?b then _ else _) = _ => destruct b; try discriminate
         | bind ?x _ = _ => destruct x; cbn [bind] in H; try discriminate
         | (let '(_, _) := ?x in _) = _ => destruct x
         | Ok _ = Ok _ => injection H as <-; reflexivity
         end.
Qed.
Lemma find_entries cost sp k : forall ts w w' ps, find_loop cost sp w k ts = Ok (w', ps) -> w_entries w' = w_entries w.
Proof.
  induction ts as [|t ts IH]; intros w w' ps H; cbn [find_loop] in H; [injection H as <- _; reflexivity|].
  destruct (set_target w t) as [w1|] eqn:E; [|discriminate]. cbn [bind] in H. destruct (k_shortest_paths cost sp w1 k); [|discriminate]. cbn [bind] in H.
  destruct (find_loop cost sp w1 k ts) as [[w2 q]|] eqn:F; [|discriminate]. cbn [bind fst snd] in H. injection H as <- _. rewrite (IH _ _ _ F). exact (target_entries _ _ _ E).
Qed.
Lemma find_pathways_entries cost sp w ts k w' ps : find_pathways cost sp w ts k = Ok (w', ps) -> w_entries w' = w_entries w.
Proof. unfold find_pathways. destruct (truthy (w_precursors w)); [|discriminate]. apply find_entries. Qed.

Lemma network_entries arrange argsort shuffle cpus wait formula epa cost sp mk sets w rs found :
  network_job arrange argsort shuffle cpus wait formula epa cost sp mk sets = Ok (w, rs, found) ->
  exists ls s s', mapM get_rxns sets = Ok ls /\ from_rxns arrange (concat ls) [] (nm_open mk) (nm_chempot mk) = Ok s
  /\ filter_duplicates_parallel argsort shuffle cpus wait s [] = Ok s' /\ get_rxns s' = Ok rs /\ w_entries w = map uid (r_entries s').
Proof.
  unfold network_job. destruct (mapM get_rxns sets) as [ls|] eqn:E0; [|discriminate]. cbn [bind].
  destruct (from_rxns arrange (concat ls) [] (nm_open mk) (nm_chempot mk)) as [s|] eqn:E1; [|discriminate]. cbn [bind].
  destruct (filter_duplicates_parallel argsort shuffle cpus wait s []) as [s'|] eqn:E2; [|discriminate]. cbn [bind].
  destruct (get_rxns s') as [l|] eqn:E3; [|discriminate]. cbn [bind]. set (w0 := net_build _). intros H.
  assert (Ew : w_entries w0 = map uid (r_entries s')) by reflexivity. clearbody w0.
  match type of H with bind ?x _ = _ => destruct x as [w1|] eqn:F1; [|discriminate]; cbn [bind] in H end.
  match type of H with bind ?x _ = _ => destruct x as [w2|] eqn:F2; [|discriminate]; cbn [bind] in H end.
  assert (E4 : w_entries w1 = w_entries w0).
  { destruct (nm_precursors mk) as [[|f fs]|]; try (injection F1 as <-; reflexivity). destruct (get_graph w0); [|discriminate]. cbn [bind] in F1.
    destruct (mapM _ (f :: fs)); [|discriminate]. cbn [bind] in F1. exact (precursors_entries _ _ _ F1). }
  assert (E5 : w_entries w2 = w_entries w1).
  { destruct (nm_targets mk) as [[|f fs]|]; try (injection F2 as <-; reflexivity). destruct (get_graph w1); [|discriminate]. cbn [bind] in F2.
    destruct (named _ _ _ f); [|discriminate]. cbn [bind] in F2. exact (target_entries _ _ _ F2). }
  assert (E6 : rs = l /\ w_entries w = w_entries w2).
  { destruct (nm_k mk) as [[|k]|]; try (injection H as <- <- _; split; reflexivity). destruct (nm_targets mk) as [[|f fs]|]; try (injection H as <- <- _; split; reflexivity).
    destruct (truthy (w_precursors w2)); [|discriminate]. destruct (mapM _ (f :: fs)) as [ts|]; [|discriminate]. cbn [bind] in H.
    destruct (find_pathways _ _ w2 ts (S k)) as [[w3 ps]|] eqn:F; [|discriminate]. cbn [bind fst snd] in H. injection H as <- <- _. split; [reflexivity|]. exact (find_pathways_entries _ _ _ _ _ _ _ F). }
  destruct E6 as (-> & E6). exists ls, s, s'. split; [reflexivity|]. split; [exact E1|]. split; [exact E2|]. split; [exact E3|]. congruence.
Qed.

Lemma get_rxns_mu s rs r : get_rxns s = Ok rs -> In r rs -> x_mu r = mu_dict s.
Proof.
  unfold get_rxns. destruct (mapM _ (map fst (r_indices s))) as [ls|] eqn:E; [|discriminate]. cbn [bind]. intros [= <-] H. apply in_concat in H as (l & Hl & H).
  apply mapM_Forall2 in E. destruct (Forall2_In_r _ _ _ _ E Hl) as (n & _ & F). destruct (rows_of_size s n) as [rows|]; [|discriminate]. cbn [bind] in F. apply mapM_Forall2 in F.
  destruct (Forall2_In_r _ _ _ _ F H) as ([[idx co] da] & _ & G). unfold rxn_of_row in G. destruct (mapM _ idx); [|discriminate]. cbn [bind] in G. injection G as <-. reflexivity.
Qed.

(* --- positions --- *)
Lemma nodup_map_on {A B} (g : A -> B) l : NoDup l -> (forall a b, In a l -> In b l -> g a = g b -> a = b) -> NoDup (map g l).
Proof.
  induction l as [|a l IH]; intros N H; [constructor|]. inversion N; subst. cbn. constructor; [|apply IH; [assumption|intros x y Hx Hy; apply H; right; assumption]].
  intros I. apply in_map_iff in I as (b & E & I). assert (b = a) by (apply H; [right|left|]; auto). subst. contradiction.
Qed.

Lemma position_nth u l : In u l -> nth_error l (position u l) = Some u.
Proof.
  induction l as [|v l IH]; intros H; [destruct H|]. cbn [position]. destruct (Nat.eqb_spec v u) as [->|N]; [reflexivity|]. destruct H as [->|H]; [destruct (N eq_refl)|]. exact (IH H).
Qed.
Lemma nth_position l : NoDup l -> forall i u, nth_error l i = Some u -> position u l = i.
Proof.
  intros N i u H. assert (I : In u l) by (eapply nth_error_In; exact H). pose proof (position_nth u l I) as P.
  apply (proj1 (NoDup_nth_error l) N); [apply nth_error_Some; congruence|congruence].
Qed.

(* --- what solve says about the steps --- *)
Section Steps.
Variable C : chem.
Hypothesis W : wf_chem C.
Variable lsq : list nat -> list nat -> list nat -> list Q.
Variable rank : list nat -> list nat -> nat.
Hypothesis Hlsq : forall r p c, length (lsq r p c) = length r + length p.
Variable ents : list entry.
Variable members : list nat.
Hypothesis Hid : forall i e, nth_error ents i = Some e -> e_id e = i.
Hypothesis Hmem : Permutation members (seq 0 (length ents)).
Variable req : rxn -> rxn -> bool.
Variable pinv : matrix -> list Q -> list Q.
Variable waits1 waits2 : nat -> nat -> list nat -> list nat * list nat.
Variable uniq : list (path rxn) -> list (path rxn).
Variable clean : list rxn -> list rxn.
Variable cost : rxn -> Q.
Variable inter : list entry -> list rxn -> rxn -> result (list rxn).
Variable chunk cpus : nat.
Hypothesis Hw1 : forall k, valid_schedule (waits1 k).
Hypothesis Hw2 : forall k, valid_schedule (waits2 k).
Hypothesis Hpinv : forall M v, length (pinv M v) = length M.
Hypothesis Huniq : forall l p, In p (uniq l) -> In p l.

Lemma parts_ids r c v : computed_of r = Some c -> vector_of ents r = Ok v -> map (fun ek => e_id (fst ek)) (parts r) = map e_id (c_entries c).
Proof.
  intros E H. unfold vector_of in H. rewrite E in H. unfold get_entry_idx_vector in H. destruct (Nat.eqb_spec (length (c_entries c)) (length (coeffs (c_base c)))) as [L|]; [|discriminate].
  assert (P : parts r = combine (c_entries c) (coeffs (c_base c))) by (destruct r; cbn in E; [discriminate| |]; injection E as <-; reflexivity).
  rewrite P, <- (map_map fst e_id), combine_fst by exact L. reflexivity.
Qed.

Lemma parts_turnover r v : vector_of ents r = Ok v -> NoDup (map (fun ek => e_id (fst ek)) (parts r)) -> forall i, (nth i v 0 == turnover r i)%Q.
Proof.
  intros H N. destruct (computed_of r) as [c|] eqn:E; [|unfold vector_of in H; rewrite E in H; discriminate]. rewrite (parts_ids r c v E H) in N. exact (vector_turnover ents r c v E N H).
Qed.

Lemma trim_nth row i : nth i (trim row) 0%Q = nth i row 0%Q \/ (Qabs (nth i row 0) <= 1 # 100000000)%Q /\ nth i (trim row) 0%Q = 0%Q.
Proof.
  revert i. induction row as [|c row IH]; intros i; cbn [trim map]; [left; reflexivity|]. destruct i as [|i]; [|exact (IH i)]. cbn [nth].
  destruct (Qle_bool (Qabs c) (1 # 100000000)) eqn:E; [right; split; [apply Qle_bool_iff; exact E|reflexivity]|left; reflexivity].
Qed.

Lemma in_add_new (l : list (rxn * Q)) : forall acc s, In s (fold_left (add_new req) l acc) -> In s acc \/ In s l.
Proof.
  induction l as [|x l IH]; intros acc s H; [left; exact H|]. cbn [fold_left] in H. apply IH in H as [H|H]; [|right; right; exact H].
  unfold add_new in H. destruct (memb req (fst x) (map fst acc)); [left; exact H|]. apply in_app_or in H as [H|[<-|[]]]; [left; exact H|right; left; reflexivity].
Qed.

Theorem job_steps mk max find fi pathways net0 paths :
  (forall p r, In p pathways -> In r (p_rxns p) -> NoDup (map (fun ek => e_id (fst ek)) (parts r))) ->
  (forall l r, inter ents (map fst (solver_init req pathways)) net0 = Ok l -> In r l -> NoDup (map (fun ek => e_id (fst ek)) (parts r))) ->
  NoDup (map (fun ek => e_id (fst ek)) (parts net0)) ->
  solve_job C lsq rank ents members req pinv waits1 waits2 uniq clean cost inter chunk cpus mk max find fi pathways = Ok (net0, paths) ->
  forall p, In p paths -> exists steps ms, p_coeffs p = Some ms /\ length ms = length steps /\ 1 <= length steps <= max /\ Forall (fun m => (1 # 1000000 <= m)%Q) ms
  /\ Forall2 (fun r s => makes_amounts r (turnover s)) (p_rxns p) steps
  /\ (forall s, In s steps -> (exists q, In q pathways /\ In s (p_rxns q)) \/ (find = true /\ exists l, inter ents (map fst (solver_init req pathways)) net0 = Ok l /\ In s l))
  /\ forall i, (Qabs (overall ms steps i - turnover net0 i) <= (1 # 100000000) + (1 # 100000) * Qabs (turnover net0 i))%Q.
Proof.
  intros Hn1 Hn2 Hn3 H p Ip. unfold solve_job in H. destruct (post_init C lsq rank mk) as [b|]; [|discriminate]. cbn [bind] in H. cbv zeta in H.
  destruct (net_rxn_of C lsq rank ents members (sm_open mk) (sm_chempot mk) b) as [net1|]; [|discriminate]. cbn [bind] in H.
  destruct (negb (balanced (base_of net1))); [discriminate|]. match type of H with bind ?s _ = _ => destruct s as [rxns|] eqn:Er; [|discriminate] end. cbn [bind] in H.
  match type of H with bind ?s _ = _ => destruct s as [ps|] eqn:Es; [|discriminate] end. cbn [bind] in H. assert (net1 = net0 /\ ps = paths) as (-> & ->) by (split; congruence). clear H.
  destruct (solve_sound req (vector_of ents) _ _ _ _ _ pinv waits1 waits2 uniq _ rxns net0 chunk None cpus max fi Hw1 Hw2 Hpinv true paths Huniq Es) as (_ & Hp).
  destruct (Hp p Ip) as (steps & rows & netv & ms & Ev & Hsub & Hlen & Hrows & (HL & Hm & Hbal) & Hco & _ & Hrx & _). clear Hp Es.
  assert (Hs : forall s, In s steps -> (exists q, In q pathways /\ In (fst s) (p_rxns q)) \/ (find = true /\ exists l, inter ents (map fst (solver_init req pathways)) net0 = Ok l /\ In (fst s) l)).
  { intros s I. apply (UtilsProofs.subseq_In _ _ _ Hsub) in I. unfold pool in I. apply filter_In in I as (I & _).
    assert (G : forall s, In s (solver_init req pathways) -> exists q, In q pathways /\ In (fst s) (p_rxns q)).
    { intros t It. unfold solver_init in It. apply in_add_new in It as [[]|It]. apply in_flat_map in It as (q & Iq & It). exists q. split; [exact Iq|]. destruct t as [t k]. exact (in_combine_l _ _ _ _ It). }
    destruct find; [|injection Er as <-; left; exact (G s I)]. destruct (inter ents (map fst (solver_init req pathways)) net0) as [l|] eqn:El; [|discriminate]. cbn [bind] in Er. injection Er as <-. unfold with_intermediates in I.
    apply in_add_new in I as [I|I]; [left; exact (G s I)|right]. split; [reflexivity|]. exists l. split; [reflexivity|]. apply in_map_iff in I as (r & <- & I). exact I. }
  assert (Hnd : forall s, In s steps -> NoDup (map (fun ek => e_id (fst ek)) (parts (fst s)))).
  { intros s I. destruct (Hs s I) as [(q & Iq & Is)|(_ & l & El & Is)]; [exact (Hn1 q _ Iq Is)|exact (Hn2 l _ El Is)]. }
  assert (Ht : Forall2 (fun s row => length row = length ents /\ forall i, (nth i row 0 == turnover (fst s) i)%Q) steps rows).
  { clear - Hrows Hnd. induction Hrows as [|s row ss rs H _ IH]; [constructor|]. constructor; [|apply IH; intros t It; apply Hnd; right; exact It].
    split; [|exact (parts_turnover _ _ H (Hnd s (or_introl eq_refl)))]. unfold vector_of in H. destruct (computed_of (fst s)); [|discriminate]. exact (vector_length _ _ _ H). }
  exists (map fst steps), ms. rewrite map_length. split; [exact Hco|]. split; [rewrite HL; symmetry; exact (Forall2_length _ _ _ Hrows)|]. split; [exact Hlen|]. split; [exact Hm|]. split; [|split].
  - clear - Hrx Ht Hid W. revert steps Ht. induction Hrx as [|r row l1 l2 (_ & ->) _ IH]; intros steps Ht; inversion Ht as [|s ? ss ? (Hl & Hs) Ht']; subst; cbn [map]; constructor; [|apply IH; exact Ht'].
    intros i. pose proof (rebuilt_row C ents row Hl Hid) as Hv. assert (T : (turnover (rebuilt C ents (sm_open mk) (sm_chempot mk) (large row)) i == nth i (trim row) 0)%Q).
    { symmetry. apply (vector_turnover ents _ (rebuild_computed C ents (large row))); [apply computed_rebuilt|apply rebuilt_nodup; assumption|]. unfold vector_of. rewrite computed_rebuilt. exact Hv. }
    rewrite T. rewrite <- (Hs i). destruct (trim_nth row i) as [E|(E1 & E2)]; [left; rewrite E; reflexivity|right]. split; [exact E1|rewrite E2; reflexivity].
  - intros s I. apply in_map_iff in I as (t & <- & I). exact (Hs t I).
  - intros i. assert (Ew : (weighted ms rows i == overall ms (map fst steps) i)%Q).
    { apply weighted_overall. clear - Ht. induction Ht as [|s row ss rs (_ & H) _ IH]; cbn [map]; constructor; assumption. }
    rewrite <- Ew, <- (parts_turnover net0 netv Ev Hn3 i). assert (Lv : length netv = length ents) by (unfold vector_of in Ev; destruct (computed_of net0); [exact (vector_length _ _ _ Ev)|discriminate]).
    destruct (Nat.lt_ge_cases i (length netv)) as [Li|Li]; [exact (Hbal i Li)|].
    rewrite (nth_overflow netv) by exact Li. assert (Zw : (weighted ms rows i == 0)%Q).
    { unfold weighted. rewrite Qsum_map. apply sumQ_all_zero. intros [m row] I. apply in_combine_r in I. destruct (Forall2_In_r _ _ _ _ Ht I) as (s & _ & (Lr & _)).
      cbn [fst snd]. rewrite nth_overflow; [ring|]. lia. }
    rewrite Zw. vm_compute. discriminate.
Qed.
End Steps.

(* --- both jobs --- *)
Section Chain.
Variable C : chem.
Hypothesis W : wf_chem C.
Variable comp_of : nat -> nat.
Variable energy_of : nat -> Q.
Variable listed members : list nat -> list nat.
Hypothesis Hlisted : forall us, NoDup us -> Permutation (listed us) us.
Hypothesis Hmembers : forall us, Permutation (members us) (seq 0 (length us)).
Variable arrange : list sentry -> list sentry.
Hypothesis Harr : arranges arrange.
Variable argsort : list Q -> list nat.
Hypothesis Hsort : forall l, Permutation (argsort l) (seq 0 (length l)).
Variable shuffle : list nat -> list nat.
Hypothesis Hshuf : forall l, Permutation (shuffle l) l.
Variable cpus : nat.
Hypothesis Hcpus : 2 <= cpus.
Variable wait : nat -> list (nat * list (option (list nat)) * result (list nat)) ->
  list (nat * list (option (list nat)) * result (list nat)) * list (nat * list (option (list nat)) * result (list nat)).
Hypothesis Hwait : valid_schedule wait.
Variable xcost : srxn -> Q.
Hypothesis Hcost : forall r, (0 <= xcost r)%Q.
Variable sp : (payload -> Q) -> list (nat * nat * payload) -> nat -> nat -> option (list nat).
Hypothesis Hsp : forall weight, shortest weight (sp weight).
Variable xeq : srxn -> srxn -> bool.
Hypothesis Hxeq : forall r, xeq r r = true.

Notation epa := (fun u => energy_of u / natoms C (comp_of u))%Q.

Section Numbers.
Variable us : list nat.
Hypothesis Nus : NoDup us.
Let lus := listed us.
Lemma Nlus : NoDup lus.
Proof. apply (Permutation_NoDup (Permutation_sym (Hlisted us Nus))). exact Nus. Qed.
Lemma in_lus u : In u lus <-> In u us.
Proof. split; apply Permutation_in; [|apply Permutation_sym]; apply Hlisted; exact Nus. Qed.
Lemma numbered_ids i e : nth_error (numbered comp_of energy_of listed us) i = Some e -> e_id e = i.
Proof.
  unfold numbered. intros H. rewrite nth_error_map in H. fold lus in H. destruct (nth_error lus i) as [u|] eqn:E; [|discriminate]. injection H as <-.
  cbn [e_id entry_of]. exact (nth_position lus Nlus i u E).
Qed.
Lemma numbered_members : Permutation (members us) (seq 0 (length (numbered comp_of energy_of listed us))).
Proof. unfold numbered. rewrite map_length, (Permutation_length (Hlisted us Nus)). apply Hmembers. Qed.

Lemma rxn_parts x : parts (rxn_of C comp_of energy_of listed us x) = combine (map (fun e => entry_of comp_of energy_of listed us (uid e)) (x_entries x)) (x_coeffs x).
Proof. unfold rxn_of. destruct (x_mu x); reflexivity. Qed.
Lemma rxn_turnover x : (forall e, In e (x_entries x) -> In (uid e) us) -> amounts_of lus x (turnover (rxn_of C comp_of energy_of listed us x)).
Proof.
  intros H i. unfold turnover. rewrite rxn_parts, RxnSetRowProofs.combine_map_fst, sumQ_map. cbn [fst snd e_id entry_of].
  destruct (nth_error lus i) as [u|] eqn:E.
  - unfold amount. apply sumQ_ext. intros [e k] I. apply in_combine_l in I. cbn [fst snd]. apply H in I.
    destruct (Nat.eqb_spec (uid e) u) as [->|N]; [fold lus; rewrite (nth_position lus Nlus i u E), Nat.eqb_refl; reflexivity|]. destruct (Nat.eqb_spec (position (uid e) (listed us)) i) as [<-|_]; [|reflexivity].
    exfalso. apply N. fold lus in E. rewrite (position_nth (uid e) lus) in E by (apply in_lus; exact I). congruence.
  - apply sumQ_all_zero. intros [e k] I. apply in_combine_l in I. cbn [fst snd]. apply H in I. destruct (Nat.eqb_spec (position (uid e) (listed us)) i) as [<-|_]; [|reflexivity].
    exfalso. fold lus in E. rewrite (position_nth (uid e) lus) in E by (apply in_lus; exact I). discriminate.
Qed.
Lemma rxn_nodup x : plain x -> (forall e e', In e (x_entries x) -> In e' (x_entries x) -> uid e = uid e' -> e = e') -> (forall e, In e (x_entries x) -> In (uid e) us) ->
  NoDup (map (fun ek => e_id (fst ek)) (parts (rxn_of C comp_of energy_of listed us x))).
Proof.
  intros (N & L & _) Hu H. rewrite rxn_parts. rewrite <- (map_map fst e_id), combine_fst by (rewrite map_length; symmetry; exact L). rewrite map_map. cbn [e_id entry_of]. clear L.
  induction (x_entries x) as [|e l IH]; [constructor|]. inversion N as [|? ? Hn N']; subst. cbn [map]. constructor.
  - intros I. apply in_map_iff in I as (e' & E & I). apply Hn. assert (Ee : uid e' = uid e); [|rewrite <- (Hu e' e (or_intror I) (or_introl eq_refl) Ee); exact I].
    pose proof (position_nth (uid e) lus (proj2 (in_lus _) (H e (or_introl eq_refl)))) as P1. pose proof (position_nth (uid e') lus (proj2 (in_lus _) (H e' (or_intror I)))) as P2. unfold lus in *. rewrite E in P2. congruence.
  - apply IH; [exact N'|intros a b Ia Ib; apply Hu; right; assumption|intros a Ia; apply H; right; exact Ia].
Qed.
End Numbers.

Variable lsq : list nat -> list nat -> list nat -> list Q.
Variable rank : list nat -> list nat -> nat.
Hypothesis Hlsq : forall r p c, length (lsq r p c) = length r + length p.
Variable req : rxn -> rxn -> bool.
Variable pinv : matrix -> list Q -> list Q.
Variable waits1 waits2 : nat -> nat -> list nat -> list nat * list nat.
Variable uniq : list (path rxn) -> list (path rxn).
Variable clean : list rxn -> list rxn.
Variable cost : rxn -> Q.
Variable inter : list entry -> list rxn -> rxn -> result (list rxn).
Variable chunk : nat.
Hypothesis Hw1 : forall k, valid_schedule (waits1 k).
Hypothesis Hw2 : forall k, valid_schedule (waits2 k).
Hypothesis Hpinv : forall M v, length (pinv M v) = length M.
Hypothesis Huniq : forall l p, In p (uniq l) -> In p l.

Lemma basic_paths rs l : (forall p, In p l -> exists xs, goes_through xcost rs p xs) ->
  exists ps, mapM (basic_path rs) l = Ok ps /\ Forall2 (fun p q => goes_through xcost rs p (p_rxns q) /\ p_costs q = map snd p /\ p_coeffs q = None) l ps.
Proof.
  induction l as [|p l IH]; intros H; [exists []; split; [reflexivity|constructor]|]. destruct IH as (ps & E & F); [intros q Hq; apply H; right; exact Hq|].
  destruct (H p (or_introl eq_refl)) as (xs & G). exists ({| p_rxns := xs; p_costs := map snd p; p_coeffs := None; p_balanced := false |} :: ps). split.
  - cbn [mapM]. assert (M : basic_path rs p = Ok {| p_rxns := xs; p_costs := map snd p; p_coeffs := None; p_balanced := false |}).
    { unfold basic_path. rewrite (proj2 (mapM_Forall2 _ p xs)); [reflexivity|]. clear - G. induction G as [|pc x p xs ((n & E1 & E2) & _) _ IH]; constructor; [|exact IH]. rewrite E1. unfold index. rewrite E2. reflexivity. }
    rewrite M. cbn [bind]. rewrite E. reflexivity.
  - constructor; [|exact F]. cbn. auto.
Qed.

(* the first job gives the second one the pathways and the entries *)
Theorem passed_on nmk smk max find fi sets ls fs ts k :
  Forall2 (fun s l => get_rxns s = Ok l) sets ls -> let given := concat ls in
  (forall x y, In x (all_entries given) -> In y (all_entries given) -> uid x = uid y -> x = y) ->
  (forall r, In r given -> plain r) -> sharp given ->
  (forall r e, In r given -> In e (x_entries r) -> comp e = comp_of (uid e) /\ form e = red C (comp e)) ->
  nm_precursors nmk = Some fs -> fs <> [] -> nm_targets nmk = Some ts -> ts <> [] -> nm_k nmk = Some k -> 0 < k ->
  (forall f, In f (fs ++ ts) -> exists r e, In r given /\ In e (x_entries r) /\ form e = f) ->
  exists us rs m ps tes per qs, NoDup us /\ (forall u, In u us <-> exists e, In e (all_entries given) /\ uid e = u)
  /\ families m given rs /\ ((forall el, nm_open nmk = Some el -> m = Some [(el, nm_chempot nmk)]) /\ (nm_open nmk = None -> (forall r, In r given -> x_mu r = None) -> m = None))
  /\ Forall2 (lowest epa given) fs ps /\ Forall2 (lowest epa given) ts tes /\ Forall2 (fun t pathways => pathways_to xcost rs ps t k pathways) tes per
  /\ Forall2 (fun p q => exists xs, goes_through xcost rs p xs /\ Forall2 (fun x x' => xeq x' x = true /\ on_pathways xcost rs (concat per) x') xs (p_rxns q) /\ p_costs q = map snd p /\ p_coeffs q = None) (concat per) qs
  /\ both_jobs C comp_of energy_of listed members arrange argsort shuffle cpus wait xcost sp xeq lsq rank req pinv waits1 waits2 uniq clean cost inter chunk nmk smk max find fi sets
     = solve_job C lsq rank (numbered comp_of energy_of listed us) (members us) req pinv waits1 waits2 uniq clean cost inter chunk cpus smk max find fi (map (path_of C comp_of energy_of listed us) qs).
Proof.
  intros HL given Hu Hp Hs Hf Ep Hfs Et Hts Ek Hk Hin.
  destruct (NetJobProofs.job_spec arrange Harr argsort Hsort shuffle Hshuf cpus Hcpus wait Hwait (formula_of C comp_of) (epa_of C comp_of energy_of) xcost Hcost sp Hsp nmk sets ls fs ts k HL Hu Hp Hs)
    as (w & rs & m & ps & tes & per & J & Fam & Hm & Hps & Hte & Hper); try assumption.
  { intros r e Hr He. destruct (Hf r e Hr He) as (E1 & E2). unfold formula_of. rewrite <- E1. exact E2. }
  destruct (network_entries _ _ _ _ _ _ _ _ _ _ _ _ _ _ J) as (ls' & s & s' & L0 & L1 & L2 & L3 & L4).
  assert (ls' = ls) as -> by (pose proof (proj2 (mapM_Forall2 _ _ _) HL); congruence). fold given in L1.
  destruct (from_rxns_spec arrange given [] (nm_open nmk) (nm_chempot nmk) Harr (or_introl eq_refl) Hu) as (s0 & out & G1 & _ & _ & _ & _ & _ & G2 & _).
  { intros r Hr. apply (Hp r Hr). }
  assert (s0 = s) as -> by congruence. pose proof (NetJobProofs.parallel_entries _ _ _ _ _ _ _ L2) as L5. cbn [RxnSetProofs.given] in G2.
  assert (He : NoDup (r_entries s') /\ forall e, In e (r_entries s') <-> In e (all_entries given)) by (rewrite L5, G2; apply Harr). destruct He as (He1 & He2).
  assert (Nus : NoDup (w_entries w)).
  { rewrite L4. apply nodup_map_on; [exact He1|]. intros x y Hx Hy. apply Hu; apply He2; assumption. }
  assert (Ius : forall u, In u (w_entries w) <-> exists e, In e (all_entries given) /\ uid e = u).
  { intros u. rewrite L4, in_map_iff. split; intros (e & H1 & H2); exists e; [split; [apply He2; exact H2|exact H1]|split; [exact H2|apply He2; exact H1]]. }
  assert (Gt : forall p, In p (concat per) -> exists xs, goes_through xcost rs p xs /\ incl xs rs).
  { intros p I. apply in_concat in I as (l & Il & I). destruct (Forall2_In_r _ _ _ _ Hper Il) as (t & _ & (P & _)). rewrite Forall_forall in P. destruct (P p I) as (xs & P1 & P2 & _). exists xs. auto. }
  destruct (basic_paths rs (concat per)) as (bs & B1 & B2); [intros p I; destruct (Gt p I) as (xs & G & _); exists xs; exact G|].
  assert (Inr : forall r, In r (flat_map p_rxns bs) -> on_pathways xcost rs (concat per) r /\ In r rs).
  { intros r I. apply in_flat_map in I as (b & Ib & I). destruct (Forall2_In_r _ _ _ _ B2 Ib) as (p & Hpi & (P1 & _)). split; [exists p, (p_rxns b); auto|].
    clear - P1 I. revert I. induction P1 as [|pc x p xs ((n & _ & E) & _) _ IH]; intros I; [destruct I|]. destruct I as [<-|I]; [exact (nth_error_In _ _ E)|exact (IH I)]. }
  destruct (pathset_spec xeq arrange bs Harr Hxeq) as (set & qs & Q1 & _ & Q2 & Q3).
  - intros x y Hx Hy. assert (A : forall z, In z (all_entries (flat_map p_rxns bs)) -> In z (all_entries given)).
    { intros z Hz. apply in_flat_map in Hz as (r & Hr & Hz). apply Inr in Hr as (_ & Hr). destruct (proj1 (proj2 Fam) r Hr) as (r0 & H0 & ->). apply in_flat_map. exists r0. auto. }
    apply Hu; apply A; assumption.
  - intros r Hr. apply Inr in Hr as (_ & Hr). destruct (proj1 (proj2 Fam) r Hr) as (r0 & H0 & ->). apply (Hp r0 H0).
  - assert (M : forall r, In r (flat_map p_rxns bs) -> x_mu r = mu_dict s') by (intros r Hr; apply Inr in Hr as (_ & Hr); exact (get_rxns_mu s' rs r L3 Hr)).
    unfold mu_dict in M. destruct (r_open s') as [el|]; [right; exists el, (r_chempot s'); exact M|left; exact M].
  - exists (w_entries w), rs, m, ps, tes, per, qs. repeat (split; [assumption|]). split.
    + assert (A : forall l bs' qs', (forall r, In r (flat_map p_rxns bs) -> on_pathways xcost rs (concat per) r) -> Forall2 (fun p q => goes_through xcost rs p (p_rxns q) /\ p_costs q = map snd p /\ p_coeffs q = None) l bs' ->
        Forall2 (fun p p' => Forall2 (fun r r' => xeq r' r = true /\ In r' (flat_map p_rxns bs)) (p_rxns p) (p_rxns p') /\ p_costs p' = p_costs p /\ p_coeffs p' = p_coeffs p /\ p_balanced p' = false) bs' qs' ->
        Forall2 (fun p q => exists xs, goes_through xcost rs p xs /\ Forall2 (fun x x' => xeq x' x = true /\ on_pathways xcost rs (concat per) x') xs (p_rxns q) /\ p_costs q = map snd p /\ p_coeffs q = None) l qs').
      { intros l bs' qs' On F. revert qs'. induction F as [|p b l bs' (P1 & P2 & P3) _ IH]; intros qs' G; inversion G as [|? q ? qs0 (R1 & R2 & R3 & _) G']; subst; constructor; [|apply IH; exact G'].
        exists (p_rxns b). split; [exact P1|]. split; [|split; congruence]. clear - R1 On. induction R1 as [|x x' l l' (E & I) _ IH]; constructor; [split; [exact E|apply On; exact I]|exact IH]. }
      apply (A _ bs); [intros r I; apply Inr; exact I|exact B2|exact Q3].
    + unfold both_jobs. rewrite J. cbn [bind]. rewrite B1. cbn [bind]. rewrite Q1. cbn [bind]. rewrite Q2. reflexivity.
Qed.

Lemma numbered_lowest us given f e : NoDup us -> (forall u, In u us <-> exists x, In x (all_entries given) /\ uid x = u) ->
  (forall r x, In r given -> In x (x_entries r) -> comp x = comp_of (uid x) /\ form x = red C (comp x)) -> red C f = f ->
  lowest_entry C (numbered comp_of energy_of listed us) f e -> exists x, lowest epa given f x /\ stands_for (listed us) x e.
Proof.
  intros Nus Ius Hf Rf (I & F & L). unfold numbered in I. apply in_map_iff in I as (u & <- & I). pose proof (position_nth u (listed us) I) as P. apply (in_lus us Nus), Ius in I as (x & Ix & <-). unfold all_entries in Ix. apply in_flat_map in Ix as (r & Hr & Hx). destruct (Hf r x Hr Hx) as (E1 & E2).
  exists x. split; [|split; [exact P|symmetry; exact E1]]. cbn [e_comp entry_of] in F. split; [congruence|]. split; [exists r; auto|]. intros r' x' Hr' Hx' Fx. destruct (Hf r' x' Hr' Hx') as (E1' & E2').
  apply (L (entry_of comp_of energy_of listed us (uid x'))); [|cbn; congruence]. unfold numbered. apply in_map, (in_lus us Nus), Ius. exists x'. split; [apply in_flat_map; exists r'; auto|reflexivity].
Qed.

Lemma chain_sound_with nmk smk max find fi sets ls fs ts k b net0 paths :
  Forall2 (fun s l => get_rxns s = Ok l) sets ls -> let given := concat ls in
  (forall x y, In x (all_entries given) -> In y (all_entries given) -> uid x = uid y -> x = y) ->
  (forall r, In r given -> plain r) -> sharp given ->
  (forall r e, In r given -> In e (x_entries r) -> comp e = comp_of (uid e) /\ form e = red C (comp e)) ->
  nm_precursors nmk = Some fs -> fs <> [] -> nm_targets nmk = Some ts -> ts <> [] -> nm_k nmk = Some k -> 0 < k ->
  sm_precursors smk = fs -> sm_targets smk = ts -> NoDup (fs ++ ts) -> (forall f, In f (fs ++ ts) -> red C f = f) ->
  (forall f, In f (fs ++ ts) -> exists r e, In r given /\ In e (x_entries r) /\ form e = f) ->
  post_init C lsq rank smk = Ok b -> num_errors b = Some 0 ->
  both_jobs C comp_of energy_of listed members arrange argsort shuffle cpus wait xcost sp xeq lsq rank req pinv waits1 waits2 uniq clean cost inter chunk nmk smk max find fi sets = Ok (net0, paths) ->
  exists us rs m ps tes per es0 rxns0, NoDup us /\ (forall u, In u us <-> exists e, In e (all_entries given) /\ uid e = u)
  /\ families m given rs /\ ((forall el, nm_open nmk = Some el -> m = Some [(el, nm_chempot nmk)]) /\ (nm_open nmk = None -> (forall r, In r given -> x_mu r = None) -> m = None))
  /\ Forall2 (lowest epa given) fs ps /\ Forall2 (lowest epa given) ts tes /\ Forall2 (fun t pathways => pathways_to xcost rs ps t k pathways) tes per
  /\ (exists gs gt es ks kp, Forall2 (lowest epa given) fs gs /\ Forall2 (lowest epa given) ts gt /\ Forall2 (stands_for (listed us)) (gs ++ gt) es
      /\ length ks = length fs /\ length kp = length ts /\ parts net0 = combine es (ks ++ kp)
      /\ Forall (fun q => (q <= -(1 # 1000000))%Q) ks /\ Forall (fun q => (1 # 1000000 <= q)%Q) kp
      /\ forall el, (Qabs (ReactionSpec.net C (combine (fs ++ ts) (ks ++ kp)) el) <= 1 # 100000000)%Q)
  /\ environment (sm_open smk) (sm_chempot smk) net0 /\ lists_entries comp_of energy_of (listed us) es0 /\ (forall r', In r' (net0 :: rxns0) -> only_entries es0 r')
  /\ (forall r', In r' rxns0 -> exists x, on_pathways xcost rs (concat per) x /\ amounts_of (listed us) x (turnover r') /\ r' = rxn_of C comp_of energy_of listed us x)
  /\ ((forall l r, inter es0 rxns0 net0 = Ok l -> In r l -> NoDup (map (fun ek => e_id (fst ek)) (parts r))) ->
     forall p, In p paths -> exists ms steps, p_coeffs p = Some ms /\ length ms = length steps /\ 1 <= length steps <= max /\ Forall (fun q => (1 # 1000000 <= q)%Q) ms
     /\ Forall2 makes_amounts (p_rxns p) steps
     /\ (forall a, In a steps -> (exists x, on_pathways xcost rs (concat per) x /\ amounts_of (listed us) x a) \/ (find = true /\ exists l r, inter es0 rxns0 net0 = Ok l /\ In r l /\ forall i, (a i == turnover r i)%Q))
     /\ forall i, (Qabs (total ms steps i - turnover net0 i) <= (1 # 100000000) + (1 # 100000) * Qabs (turnover net0 i))%Q).
Proof.
  intros HL given Hu Hp Hs Hf Ep Hfs Et Hts Ek Hk Sp St Nd Red Hin Pi Ze H.
  destruct (passed_on nmk smk max find fi sets ls fs ts k HL Hu Hp Hs Hf Ep Hfs Et Hts Ek Hk Hin) as (us & rs & m & ps & tes & per & qs & Nus & Ius & Fam & Hm & Hps & Hte & Hper & Hqs & Eq).
  rewrite Eq in H. clear Eq.
  assert (Hq : forall q x, In q qs -> In x (p_rxns q) -> on_pathways xcost rs (concat per) x).
  { intros q x Iq Ix. destruct (Forall2_In_r _ _ _ _ Hqs Iq) as (p & _ & (xs & _ & F & _)). destruct (Forall2_In_r _ _ _ _ F Ix) as (y & _ & (_ & I)). exact I. }
  assert (Hxs : forall x, on_pathways xcost rs (concat per) x -> In x rs).
  { intros x (p & xs & _ & G & I). clear - G I. revert I. induction G as [|pc y p xs ((n & _ & E) & _) _ IH]; intros I; [destruct I|]. destruct I as [<-|I]; [exact (nth_error_In _ _ E)|exact (IH I)]. }
  assert (Hrs : forall x, In x rs -> plain x /\ (forall e, In e (x_entries x) -> In e (all_entries given))).
  { intros x Ix. destruct (proj1 (proj2 Fam) x Ix) as (r0 & H0 & ->). split; [exact (Hp r0 H0)|]. intros e Ie. apply in_flat_map. exists r0. auto. }
  assert (Hus : forall x, In x rs -> forall e, In e (x_entries x) -> In (uid e) us) by (intros x Ix e Ie; apply Ius; exists e; split; [apply (Hrs x Ix); exact Ie|reflexivity]).
  pose proof H as H0. unfold solve_job in H0. rewrite Pi in H0. cbn [bind] in H0. cbv zeta in H0.
  destruct (net_rxn_of C lsq rank (numbered comp_of energy_of listed us) (members us) (sm_open smk) (sm_chempot smk) b) as [net1|] eqn:En; [|discriminate]. cbn [bind] in H0.
  destruct (negb (balanced (base_of net1))); [discriminate|]. destruct (if find then _ else _) as [rxns|]; [|discriminate]. cbn [bind] in H0. destruct (solve _ _ _ _ _ _ _ _ _ _ _ _ _ _ _ _ _ _ _) as [pp|]; [|discriminate].
  cbn [bind] in H0. assert (net1 = net0) as -> by congruence. clear H0.
  destruct (net_rxn_spec C W lsq rank Hlsq (numbered comp_of energy_of listed us) (members us) (numbered_ids us Nus) (numbered_members us Nus) smk b net0) as (res & pes & ks & kp & G1 & G2 & K1 & K2 & Pn & F1 & F2 & Fc & Fe & (c & Ec & Ece & Ecc & Nc) & _); [rewrite Sp, St; exact Nd|rewrite Sp, St; exact Red|exact Pi|exact Ze|exact En|].
  rewrite Sp in *. rewrite St in *.
  set (es := numbered comp_of energy_of listed us) in *. set (rxns0 := map fst (solver_init req (map (path_of C comp_of energy_of listed us) qs))).
  assert (Hr0 : forall r, In r rxns0 -> exists x, on_pathways xcost rs (concat per) x /\ r = rxn_of C comp_of energy_of listed us x).
  { intros r Ir. apply in_map_iff in Ir as (s & <- & Is). unfold solver_init in Is. apply (in_add_new req) in Is as [[]|Is]. apply in_flat_map in Is as (q & Iq & Is). apply in_map_iff in Iq as (q0 & <- & Iq).
    destruct s as [r c0]. apply in_combine_l in Is. cbn [path_of p_rxns] in Is. apply in_map_iff in Is as (x & <- & Ix). exists x. split; [exact (Hq q0 x Iq Ix)|reflexivity]. }
  assert (Hoe : forall r, In r (net0 :: rxns0) -> only_entries es r).
  { intros r [<-|Ir] [e k0] I; cbn [fst].
    - rewrite Pn in I. apply in_combine_l, in_app_or in I as [I|I]; [destruct (Forall2_In_r _ _ _ _ G1 I) as (f & _ & Ie & _)|destruct (Forall2_In_r _ _ _ _ G2 I) as (f & _ & Ie & _)]; exact Ie.
    - destruct (Hr0 r Ir) as (x & Ox & ->). rewrite rxn_parts in I. apply in_combine_l in I. apply in_map_iff in I as (a & <- & Ia). unfold es, numbered. apply in_map, (in_lus us Nus). exact (Hus x (Hxs x Ox) a Ia). }
  assert (Hls : lists_entries comp_of energy_of (listed us) es).
  { split; [|exact (numbered_ids us Nus)]. unfold es, numbered. clear. generalize (listed us). induction l as [|u l IH]; cbn [map]; constructor; [split; reflexivity|exact IH]. }
  exists us, rs, m, ps, tes, per, es, rxns0. split; [exact Nus|]. split; [exact Ius|]. repeat (split; [assumption|]). split; [|split; [exact Fe|split; [exact Hls|split; [exact Hoe|split]]]].
  - assert (Z : forall fl el, Forall2 (lowest_entry C (numbered comp_of energy_of listed us)) fl el -> (forall f, In f fl -> red C f = f) -> exists gl, Forall2 (lowest epa given) fl gl /\ Forall2 (stands_for (listed us)) gl el).
    { induction 1 as [|f e fl el L _ IH]; intros R; [exists []; split; constructor|]. destruct IH as (gl & A1 & A2); [intros f' I; apply R; right; exact I|].
      destruct (numbered_lowest us given f e Nus Ius Hf (R f (or_introl eq_refl)) L) as (x & A3 & A4). exists (x :: gl). split; constructor; assumption. }
    destruct (Z fs res G1) as (gs & A1 & A2); [intros f I; apply Red, in_or_app; left; exact I|]. destruct (Z ts pes G2) as (gt & A3 & A4); [intros f I; apply Red, in_or_app; right; exact I|].
    exists gs, gt, (res ++ pes), ks, kp. split; [exact A1|]. split; [exact A3|]. split; [apply Forall2_app; assumption|]. split; [exact K1|]. split; [exact K2|]. split; [exact Pn|]. split; [exact F1|]. split; [exact F2|exact Fc].
  - intros r' Ir. destruct (Hr0 r' Ir) as (x & Ox & ->). exists x. split; [exact Ox|]. split; [|reflexivity]. apply rxn_turnover; [exact Nus|]. apply Hus, Hxs, Ox.
  - intros Hi p Ip. assert (N0 : NoDup (map (fun ek => e_id (fst ek)) (parts net0))).
    { rewrite Pn. rewrite <- (map_map fst e_id), combine_fst; [rewrite <- Ece; exact Nc|]. rewrite !app_length, K1, K2, <- (Forall2_length _ _ _ G1), <- (Forall2_length _ _ _ G2). reflexivity. }
    assert (N1 : forall q r, In q (map (path_of C comp_of energy_of listed us) qs) -> In r (p_rxns q) -> NoDup (map (fun ek => e_id (fst ek)) (parts r))).
    { intros q r Iq Ir. apply in_map_iff in Iq as (q0 & <- & Iq). cbn [path_of p_rxns] in Ir. apply in_map_iff in Ir as (x & <- & Ix). pose proof (Hxs x (Hq q0 x Iq Ix)) as Ixr. apply rxn_nodup; [exact Nus|apply (Hrs x Ixr)| |apply Hus; exact Ixr].
      intros e e' Ie Ie'. apply Hu; apply (Hrs x Ixr); assumption. }
    destruct (job_steps C lsq rank (numbered comp_of energy_of listed us) (members us) (numbered_ids us Nus) req pinv waits1 waits2 uniq clean cost inter chunk cpus Hw1 Hw2 Hpinv Huniq smk max find fi _ net0 paths N1 Hi N0 H p Ip)
      as (steps & ms & S1 & S2 & S3 & S4 & S5 & S6 & S7).
    exists ms, (map turnover steps). rewrite map_length. split; [exact S1|]. split; [exact S2|]. split; [exact S3|]. split; [exact S4|]. split; [|split].
    + clear - S5. induction S5 as [|r s l1 l2 A _ IH]; cbn [map]; constructor; assumption.
    + intros a Ia. apply in_map_iff in Ia as (s & <- & Is). destruct (S6 s Is) as [(q & Iq & Ix)|(Ef & l & El & Il)]; [left|right; split; [exact Ef|exists l, s; split; [exact El|split; [exact Il|reflexivity]]]].
      apply in_map_iff in Iq as (q0 & <- & Iq). cbn [path_of p_rxns] in Ix. apply in_map_iff in Ix as (x & <- & Ix). exists x. split; [exact (Hq q0 x Iq Ix)|]. apply rxn_turnover; [exact Nus|]. apply Hus, Hxs, (Hq q0 x Iq Ix).
    + intros i. specialize (S7 i). assert (E : (total ms (map turnover steps) i == overall ms steps i)%Q); [|rewrite E; exact S7].
      unfold total, overall. clear. revert steps. induction ms as [|x ms IH]; intros [|s steps]; try reflexivity. cbn [map combine]. rewrite !sumQ_cons. cbn [fst snd]. rewrite (IH steps). reflexivity.
Qed.
Theorem chain_sound nmk smk max find fi sets ls fs ts k b net0 paths :
  Forall2 (fun s l => get_rxns s = Ok l) sets ls -> let given := concat ls in
  (forall x y, In x (all_entries given) -> In y (all_entries given) -> uid x = uid y -> x = y) ->
  (forall r, In r given -> plain r) -> sharp given ->
  (forall r e, In r given -> In e (x_entries r) -> comp e = comp_of (uid e) /\ form e = red C (comp e)) ->
  nm_precursors nmk = Some fs -> fs <> [] -> nm_targets nmk = Some ts -> ts <> [] -> nm_k nmk = Some k -> 0 < k ->
  sm_precursors smk = fs -> sm_targets smk = ts -> NoDup (fs ++ ts) -> (forall f, In f (fs ++ ts) -> red C f = f) ->
  (forall f, In f (fs ++ ts) -> exists r e, In r given /\ In e (x_entries r) /\ form e = f) ->
  post_init C lsq rank smk = Ok b -> num_errors b = Some 0 ->
  (forall es rxns l r, (forall i e, nth_error es i = Some e -> e_id e = i) -> (forall r', In r' (net0 :: rxns) -> only_entries es r') -> inter es rxns net0 = Ok l -> In r l -> NoDup (map (fun ek => e_id (fst ek)) (parts r))) ->
  both_jobs C comp_of energy_of listed members arrange argsort shuffle cpus wait xcost sp xeq lsq rank req pinv waits1 waits2 uniq clean cost inter chunk nmk smk max find fi sets = Ok (net0, paths) ->
  exists us rs m ps tes per, NoDup us /\ (forall u, In u us <-> exists e, In e (all_entries given) /\ uid e = u)
  /\ families m given rs /\ ((forall el, nm_open nmk = Some el -> m = Some [(el, nm_chempot nmk)]) /\ (nm_open nmk = None -> (forall r, In r given -> x_mu r = None) -> m = None))
  /\ Forall2 (lowest epa given) fs ps /\ Forall2 (lowest epa given) ts tes /\ Forall2 (fun t pathways => pathways_to xcost rs ps t k pathways) tes per
  /\ (exists gs gt es ks kp, Forall2 (lowest epa given) fs gs /\ Forall2 (lowest epa given) ts gt /\ Forall2 (stands_for us) (gs ++ gt) es
      /\ length ks = length fs /\ length kp = length ts /\ parts net0 = combine es (ks ++ kp)
      /\ Forall (fun q => (q <= -(1 # 1000000))%Q) ks /\ Forall (fun q => (1 # 1000000 <= q)%Q) kp
      /\ forall el, (Qabs (ReactionSpec.net C (combine (fs ++ ts) (ks ++ kp)) el) <= 1 # 100000000)%Q)
  /\ forall p, In p paths -> exists ms steps, p_coeffs p = Some ms /\ length ms = length steps /\ 1 <= length steps <= max /\ Forall (fun q => (1 # 1000000 <= q)%Q) ms
     /\ Forall2 makes_amounts (p_rxns p) steps
     /\ (forall a, In a steps -> (exists x, on_pathways xcost rs (concat per) x /\ amounts_of us x a) \/ (find = true /\ exists es rxns l r, lists_entries comp_of energy_of us es /\ (forall r', In r' (net0 :: rxns) -> only_entries es r')
          /\ (forall r', In r' rxns -> exists x, on_pathways xcost rs (concat per) x /\ amounts_of us x (turnover r')) /\ inter es rxns net0 = Ok l /\ In r l /\ forall i, (a i == turnover r i)%Q))
     /\ forall i, (Qabs (total ms steps i - turnover net0 i) <= (1 # 100000000) + (1 # 100000) * Qabs (turnover net0 i))%Q.
Proof.
  intros HL given Hu Hp Hs Hf Ep Hfs Et Hts Ek Hk Sp St Nd Red Hin Pi Ze Hi H.
  destruct (chain_sound_with nmk smk max find fi sets ls fs ts k b net0 paths HL Hu Hp Hs Hf Ep Hfs Et Hts Ek Hk Sp St Nd Red Hin Pi Ze H) as (us & rs & m & ps & tes & per & es & rxns & Nus & Ius & Fam & Hm & Hps & Hte & Hper & Net & _ & Hls & Hoe & Hr0 & Bal).
  exists (listed us), rs, m, ps, tes, per. split; [apply Nlus; exact Nus|]. split; [intros u; rewrite (in_lus us Nus u); apply Ius|]. repeat (split; [assumption|]).
  intros p Ip. destruct (Bal (fun l r => Hi es rxns l r (proj2 Hls) Hoe) p Ip) as (ms & steps & B1 & B2 & B3 & B4 & B5 & B6 & B7). exists ms, steps. repeat (split; [assumption|]). split; [|exact B7].
  intros a Ia. destruct (B6 a Ia) as [O|(Ef & l & r & El & Il & Ea)]; [left; exact O|right]. split; [exact Ef|]. exists es, rxns, l, r. split; [exact Hls|]. split; [exact Hoe|]. split; [|auto].
  intros r' Ir. destruct (Hr0 r' Ir) as (x & Ox & Ax & _). exists x. auto.
Qed.
End Chain.

(* The reaction objects given to the second job. *)
Theorem objects_spec C comp_of energy_of listed us x : (forall us, NoDup us -> Permutation (listed us) us) -> NoDup us -> (forall e, In e (x_entries x) -> In (uid e) us) ->
  amounts_of (listed us) x (turnover (rxn_of C comp_of energy_of listed us x))
  /\ match x_mu x with
     | None => exists c, rxn_of C comp_of energy_of listed us x = RComputed c
     | Some mu => exists o, rxn_of C comp_of energy_of listed us x = ROpen o /\ chempots o = mu
     end.
Proof.
  intros Hl N H. split; [apply rxn_turnover; assumption|]. unfold rxn_of. destruct (x_mu x) as [mu|]; eexists; [split|]; reflexivity.
Qed.
(* Without targets, or with no pathways asked for, the second job has nothing to work on. *)
Theorem none_asked C comp_of energy_of listed members arrange argsort shuffle cpus wait xcost sp xeq lsq rank req pinv waits1 waits2 uniq clean cost inter chunk nmk smk max find fi sets :
  nm_targets nmk = None \/ nm_targets nmk = Some [] \/ nm_k nmk = None \/ nm_k nmk = Some 0 ->
  both_jobs C comp_of energy_of listed members arrange argsort shuffle cpus wait xcost sp xeq lsq rank req pinv waits1 waits2 uniq clean cost inter chunk nmk smk max find fi sets
  = match network_job arrange argsort shuffle cpus wait (fun u => red C (comp_of u)) (fun u => energy_of u / natoms C (comp_of u))%Q xcost sp nmk sets with Ok _ => Err AttributeError | Err e => Err e end.
Proof.
  intros H. unfold both_jobs. change (formula_of C comp_of) with (fun u => red C (comp_of u)). change (epa_of C comp_of energy_of) with (fun u => energy_of u / natoms C (comp_of u))%Q.
  set (job := network_job _ _ _ _ _ _ _ _ _ _ _). destruct job as [[[w rs] found]|e] eqn:E; [|reflexivity]. cbn [bind].
  assert (found = None) as ->; [|reflexivity]. unfold job, network_job in E.
  repeat match type of E with bind ?m _ = _ => destruct m; cbn [bind] in E; [|discriminate] end.
  destruct H as [H|[H|[H|H]]]; rewrite H in E; try (injection E as _ _ <-; reflexivity); destruct (nm_k nmk) as [[|k]|]; injection E as _ _ <-; reflexivity.
Qed.
