(* C10, C11, C15, C16: the laws of normalising, reversing, fractions and open energies. *)
From Coq Require Import Setoid Lqa.
From Verif Require Import Prelude NumQ UtilsModel SumQ ReactionModel ReactionSpec ReactionBaseProofs
  ReactionBalanceProofs ReactionOpsProofs.
Open Scope nat_scope.

Section Laws.
Variable C : chem.

Lemma basic_scaled_sides cs ks fl n fl' n' s : (0 < s)%Q ->
  reactants (basic_init C cs (map (fun q => q * s)%Q ks) fl n) = reactants (basic_init C cs ks fl' n')
  /\ products (basic_init C cs (map (fun q => q * s)%Q ks) fl n) = products (basic_init C cs ks fl' n').
Proof.
  intros Hs. unfold reactants, products. destruct (scale_sign s Hs) as [S1 S2].
  destruct (sides_keep C (fun q => q * s)%Q cs ks fl n fl' n' S1 S2) as [-> ->].
  rewrite !map_fst_on_snd. auto.
Qed.

(* energy laws of a rescaled computed reaction *)
Lemma computed_scaled_energy es ks n n' s : (0 < s)%Q ->
  same_value (computed_energy C (computed_init C es (map (fun q => q * s)%Q ks) n'))
             (bind (computed_energy C (computed_init C es ks n)) (fun e => Ok (s * e)%Q))
  /\ same_value (computed_energy_per_atom C (computed_init C es (map (fun q => q * s)%Q ks) n'))
                (computed_energy_per_atom C (computed_init C es ks n)).
Proof.
  intros Hs. unfold computed_energy_per_atom, computed_energy, computed_init. cbn [c_entries c_base].
  destruct (energy_of C es e_energy (basic_init C (map (fun e => red C (e_comp e)) es) ks None n)) as [v|err] eqn:E.
  2:{ rewrite energy_built in E. discriminate. }
  destruct (energy_scaled C e_energy es ks None n None n' s v E) as (v' & -> & Hv). simpl. split; [exact Hv|].
  assert (Hn : (num_atoms C (basic_init C (map (fun e => red C (e_comp e)) es) (map (fun q => q * s)%Q ks) None n')
     == s * num_atoms C (basic_init C (map (fun e => red C (e_comp e)) es) ks None n))%Q).
  { unfold num_atoms. apply (num_atoms_scaled C _ _ ks None n None n' s Hs). }
  destruct (per_atom v (num_atoms C (basic_init C (map (fun e => red C (e_comp e)) es) ks None n))) as [a|err] eqn:Ea.
  - destruct (per_atom_scaled v _ v' _ s a ltac:(lra) Hv Hn Ea) as (a' & -> & Ha). exact Ha.
  - unfold per_atom in *.
    destruct (Qeq_bool (num_atoms C (basic_init C (map (fun e => red C (e_comp e)) es) ks None n)) 0) eqn:E0; [|discriminate].
    apply Qeq_bool_iff in E0.
    destruct (Qeq_bool (num_atoms C (basic_init C (map (fun e => red C (e_comp e)) es) (map (fun q => q * s)%Q ks) None n')) 0) eqn:E1.
    + simpl. congruence.
    + exfalso. apply Qeq_bool_neq in E1. apply E1. rewrite Hn, E0. ring.
Qed.

Theorem normalize_to_spec r c k f : built C r ->
  get_coeff (base_of r) c = Ok k -> ~ (k == 0)%Q -> (0 < f)%Q ->
  exists r' s k', normalize_to C r c f = Ok r' /\ (0 < s)%Q /\ rescaled s r r'
  /\ get_coeff (base_of r') c = Ok k' /\ (Qabs k' == f)%Q /\ (k' == k * s)%Q
  /\ (forall kd, r = RComputed kd ->
        same_value (energy C r') (bind (energy C r) (fun e => Ok (s * e)%Q))
        /\ same_value (energy_per_atom C r') (energy_per_atom C r)).
Proof.
  intros Hb Hk Hk0 Hf. destruct (scaled_to_spec _ c k f Hk Hk0 Hf) as (s & Hs & Esc & Hks).
  assert (Habs : (Qabs (k * s) == f)%Q) by (rewrite Qabs_Qmult, (Qabs_pos s) by lra; exact Hks).
  destruct r as [b|kr|o]; cbn [base_of built] in *.
  - destruct Hb as (cs & ks & fl & n & Hl & ->). unfold normalize_to, basic_normalize_to. rewrite Esc. cbn [bind].
    eexists _, s, (k * s)%Q. split; [reflexivity|]. split; [assumption|].
    destruct (basic_scaled_sides cs ks None (Some 0) fl n s Hs) as [E1 E2].
    split; [repeat split; assumption|].
    split; [apply (get_coeff_scaled C cs ks fl n); assumption|]. split; [assumption|]. split; [reflexivity|]. discriminate.
  - destruct Hb as (es & ks & n & Hl & ->). unfold normalize_to, computed_normalize_to. rewrite Esc. cbn [bind].
    eexists _, s, (k * s)%Q. split; [reflexivity|]. split; [assumption|].
    unfold computed_init in *. cbn [c_base c_entries base_of entries_of coeffs basic_init] in *.
    destruct (basic_scaled_sides (map (fun e => red C (e_comp e)) es) ks None n None n s Hs) as [E1 E2].
    split; [repeat split; assumption|].
    split; [eapply get_coeff_scaled; exact Hk|]. split; [assumption|]. split; [reflexivity|].
    intros kd _. apply (computed_scaled_energy es ks n n s Hs).
  - destruct Hb as (es & ks & mu & n & Hl & ->). unfold normalize_to, computed_normalize_to, open_init in *. cbn [o_base] in *.
    rewrite Esc. cbn [bind].
    eexists _, s, (k * s)%Q. split; [reflexivity|]. split; [assumption|].
    unfold computed_init in *. cbn [c_base c_entries base_of entries_of coeffs basic_init o_base] in *.
    destruct (basic_scaled_sides (map (fun e => red C (e_comp e)) es) ks None n None n s Hs) as [E1 E2].
    split; [repeat split; assumption|].
    split; [eapply get_coeff_scaled; exact Hk|]. split; [assumption|]. split; [reflexivity|]. discriminate.
Qed.

(* The number of errors of the balancing. *)
Theorem normalize_errors r c e f r' : (normalize_to C r c f = Ok r' \/ normalize_to_element C r e f = Ok r') ->
  num_errors (base_of r') = match r with RBasic _ => Some 0 | _ => num_errors (base_of r) end.
Proof.
  intros [H|H]; destruct r as [b|k|o]; cbn [normalize_to normalize_to_element base_of] in *;
    unfold basic_normalize_to, computed_normalize_to, basic_normalize_to_element, computed_normalize_to_element in H;
    destruct (scaled_to _ _ _) as [ks|] || destruct (scaled_to_element _ _ _ _) as [ks|]; try discriminate; cbn [bind] in H; injection H as <-; reflexivity.
Qed.
Theorem errors_kept r c e f r' : (normalize_to C r c f = Ok r' \/ normalize_to_element C r e f = Ok r') ->
  (forall b, r <> RBasic b) -> num_errors (base_of r') = num_errors (base_of r).
Proof. intros H N. rewrite (normalize_errors r c e f r' H). destruct r as [b| |]; [destruct (N b eq_refl)|reflexivity..]. Qed.
Theorem errors_forgotten b c e f r' : (normalize_to C (RBasic b) c f = Ok r' \/ normalize_to_element C (RBasic b) e f = Ok r') -> num_errors (base_of r') = Some 0.
Proof. exact (normalize_errors (RBasic b) c e f r'). Qed.

Theorem normalize_to_missing r c f : built C r -> ~ In c (comps (base_of r)) -> normalize_to C r c f = Err ValueError.
Proof.
  intros Hb Hc.
  assert (Hl : length (comps (base_of r)) = length (coeffs (base_of r))).
  { destruct r as [b|kr|o]; cbn [base_of built] in *.
    - destruct Hb as (cs & ks & fl & n & Hl & ->). exact Hl.
    - destruct Hb as (es & ks & n & Hl & ->). simpl. rewrite map_length. exact Hl.
    - destruct Hb as (es & ks & mu & n & Hl & ->). simpl. rewrite map_length. exact Hl. }
  assert (E : get_coeff (base_of r) c = Err ValueError).
  { destruct (get_coeff_spec _ c Hl) as [(k & _ & Hin)|[H _]]; [|assumption].
    exfalso. apply Hc. apply in_combine_l in Hin. assumption. }
  assert (E' : scaled_to (base_of r) c f = Err ValueError) by (unfold scaled_to; rewrite E; reflexivity).
  destruct r as [b|kr|o]; cbn [base_of normalize_to] in *;
    unfold basic_normalize_to, computed_normalize_to; rewrite E'; reflexivity.
Qed.

Theorem normalize_to_element_spec (W : wf_chem C) r e f : built C r ->
  ~ (get_el_amount C (base_of r) e == 0)%Q -> (0 < f)%Q ->
  exists r' s, normalize_to_element C r e f = Ok r' /\ (0 < s)%Q /\ rescaled s r r'
  /\ (get_el_amount C (base_of r') e == f)%Q
  /\ (forall kd, r = RComputed kd ->
        same_value (energy C r') (bind (energy C r) (fun x => Ok (s * x)%Q))
        /\ same_value (energy_per_atom C r') (energy_per_atom C r)).
Proof.
  intros Hb Ha Hf.
  set (a := get_el_amount C (base_of r) e) in *.
  assert (Hpos : (0 < a)%Q).
  { pose proof (el_amount_nonneg C W (base_of r) e) as H. fold a in H.
    destruct (Qlt_le_dec 0 a); [assumption|]. exfalso. apply Ha. lra. }
  assert (Hs : (0 < f / a)%Q) by (apply Qlt_shift_div_l; lra).
  assert (Esc : scaled_to_element C (base_of r) e f = Ok (map (fun q => q * (f / a))%Q (coeffs (base_of r)))).
  { unfold scaled_to_element. fold a. destruct (Qeq_bool a 0) eqn:E; [apply Qeq_bool_iff in E; contradiction|]. reflexivity. }
  assert (Hfin : (f / a * a == f)%Q) by (field; lra).
  destruct r as [b|kr|o]; cbn [base_of built] in *.
  - destruct Hb as (cs & ks & fl & n & Hl & ->). unfold normalize_to_element, basic_normalize_to_element. rewrite Esc. cbn [bind].
    eexists _, (f / a)%Q. split; [reflexivity|]. split; [assumption|].
    destruct (basic_scaled_sides cs ks None (Some 0) fl n _ Hs) as [E1 E2].
    split; [repeat split; assumption|]. split; [|discriminate]. cbn [base_of].
    eapply Qeq_trans; [|exact Hfin]. apply (el_amount_scaled C cs ks fl n). exact Hs.
  - destruct Hb as (es & ks & n & Hl & ->). unfold normalize_to_element, computed_normalize_to_element. rewrite Esc. cbn [bind].
    eexists _, (f / a)%Q. split; [reflexivity|]. split; [assumption|].
    unfold computed_init in *. cbn [c_base c_entries base_of entries_of coeffs basic_init] in *.
    destruct (basic_scaled_sides (map (fun e => red C (e_comp e)) es) ks None n None n _ Hs) as [E1 E2].
    split; [repeat split; assumption|].
    split; [eapply Qeq_trans; [|exact Hfin]; apply el_amount_scaled; exact Hs|].
    intros kd _. apply (computed_scaled_energy es ks n n _ Hs).
  - destruct Hb as (es & ks & mu & n & Hl & ->). unfold normalize_to_element, computed_normalize_to_element, open_init in *. cbn [o_base] in *.
    rewrite Esc. cbn [bind].
    eexists _, (f / a)%Q. split; [reflexivity|]. split; [assumption|].
    unfold computed_init in *. cbn [c_base c_entries base_of entries_of coeffs basic_init o_base] in *.
    destruct (basic_scaled_sides (map (fun e => red C (e_comp e)) es) ks None n None n _ Hs) as [E1 E2].
    split; [repeat split; assumption|].
    split; [eapply Qeq_trans; [|exact Hfin]; apply el_amount_scaled; exact Hs|]. discriminate.
Qed.

(* a conserving reaction stays flagged balanced *)
Lemma conserving_balanced (W : wf_chem C) cs ks n : NoDup cs -> length cs = length ks ->
  conserving C (basic_init C cs ks None n) -> balanced (basic_init C cs ks None n) = true.
Proof.
  intros Hn Hl H. apply flag_iff; [assumption..|]. intros e. specialize (H e).
  unfold species in H. cbn [comps coeffs basic_init] in H. rewrite net_sides in H. rewrite H. vm_compute. discriminate.
Qed.
Theorem normalize_to_balanced (W : wf_chem C) r c f r' : built C r -> NoDup (comps (base_of r)) ->
  conserving C (base_of r) -> normalize_to C r c f = Ok r' -> balanced (base_of r') = true.
Proof.
  intros Hb Hn Hc H.
  assert (G : forall cs ks fl n n' t, NoDup cs -> length cs = length ks -> conserving C (basic_init C cs ks fl n) ->
      balanced (basic_init C cs (map (fun q => q * t)%Q ks) None n') = true).
  { intros cs ks fl n n' t H1 H2 H3. apply conserving_balanced; [assumption|assumption|rewrite map_length; assumption|].
    apply (conserving_scaled C cs ks fl n). assumption. }
  destruct r as [b|kr|o]; cbn [base_of built normalize_to] in *.
  - destruct Hb as (cs & ks & fl & n & Hl & ->). unfold basic_normalize_to, scaled_to in H.
    destruct (get_coeff _ c) as [k|]; [|discriminate]. cbn [bind] in H. destruct (Qeq_bool k 0); [discriminate|].
    injection H as <-. cbn [base_of comps coeffs basic_init] in *. eapply G; eassumption.
  - destruct Hb as (es & ks & n & Hl & ->). unfold computed_normalize_to, scaled_to in H.
    destruct (get_coeff _ c) as [k|]; [|discriminate]. cbn [bind] in H. destruct (Qeq_bool k 0); [discriminate|].
    injection H as <-. unfold computed_init in *. cbn [base_of comps coeffs basic_init c_base c_entries] in *.
    eapply G; [assumption|rewrite map_length; assumption|eassumption].
  - destruct Hb as (es & ks & mu & n & Hl & ->). unfold computed_normalize_to, scaled_to in H.
    destruct (get_coeff _ c) as [k|]; [|discriminate]. cbn [bind] in H. destruct (Qeq_bool k 0); [discriminate|].
    injection H as <-. unfold open_init, computed_init in *. cbn [base_of comps coeffs basic_init c_base c_entries o_base] in *.
    eapply G; [assumption|rewrite map_length; assumption|eassumption].
Qed.

(* --- C11 --- *)
Lemma mulm1 q : (-1 * q)%Q = Qopp q.
Proof. destruct q as [a b]. destruct a; reflexivity. Qed.
Lemma map_mulm1 ks : map (fun q => -1 * q)%Q ks = map Qopp ks.
Proof. apply map_ext, mulm1. Qed.
Lemma map_opp_opp ks : map Qopp (map Qopp ks) = ks.
Proof.
  rewrite map_map. rewrite <- (map_id ks) at 2. apply map_ext. intros [a b]. unfold Qopp. cbn [Qnum Qden].
  rewrite Z.opp_involutive. reflexivity.
Qed.

Lemma side_total_on_snd_opp d e : side_total C (map (on_snd Qopp) d) e = side_total C d e.
Proof.
  unfold side_total. rewrite map_map. f_equal. apply map_ext. intros [c [a b]]. unfold on_snd, Qabs, Qopp. cbn [fst snd Qnum Qden].
  rewrite Z.abs_opp. reflexivity.
Qed.
Lemma dict_elems_on_snd f d : dict_elems C (map (on_snd f) d) = dict_elems C d.
Proof. unfold dict_elems. induction d as [|[c k] d IH]; [reflexivity|]. simpl. rewrite IH. reflexivity. Qed.

Lemma almost_equal_flip r p :
  almost_equal_totals C (map (on_snd Qopp) p) (map (on_snd Qopp) r) = almost_equal_totals C r p.
Proof.
  unfold almost_equal_totals. rewrite !dict_elems_on_snd. rewrite !forallb_app, andb_comm. f_equal;
  apply eq_true_iff_eq; rewrite !forallb_forall;
    (split; intros H e He; specialize (H e He); apply Qle_bool_iff in H; apply Qle_bool_iff;
     rewrite ?side_total_on_snd_opp in *; rewrite Qabs_Qminus; exact H).
Qed.

Lemma flip_sides cs ks fl n fl' n' :
  reactant_coeffs (basic_init C cs (map Qopp ks) fl n) = map (on_snd Qopp) (product_coeffs (basic_init C cs ks fl' n'))
  /\ product_coeffs (basic_init C cs (map Qopp ks) fl n) = map (on_snd Qopp) (reactant_coeffs (basic_init C cs ks fl' n')).
Proof. apply sides_flip; apply neg_sign'. Qed.

Lemma flip_balanced cs ks n : balanced (basic_init C cs (map Qopp ks) None n) = balanced (basic_init C cs ks None n).
Proof.
  destruct (flip_sides cs ks None n None n) as [E1 E2].
  change (balanced (basic_init C cs (map Qopp ks) None n)) with
    (almost_equal_totals C (reactant_coeffs (basic_init C cs (map Qopp ks) None n)) (product_coeffs (basic_init C cs (map Qopp ks) None n))).
  rewrite E1, E2. apply almost_equal_flip.
Qed.

Lemma energy_flipped en es ks fl n fl' n' v :
  energy_of C es en (basic_init C (map (fun e => red C (e_comp e)) es) ks fl n) = Ok v ->
  exists v', energy_of C es en (basic_init C (map (fun e => red C (e_comp e)) es) (map Qopp ks) fl' n') = Ok v' /\ (v' == - v)%Q.
Proof.
  rewrite energy_built. intros E. injection E as <-. eexists. split; [apply energy_built|].
  rewrite combine_map_l, sumQ_map.
  assert (E : forall x : Q, (- x == (-1) * x)%Q) by (intros; ring). rewrite E, <- sumQ_scale_l.
  apply sumQ_ext. intros [k c] _. cbn [fst snd]. ring.
Qed.

Theorem reverse_spec r : built C r ->
  reactants (base_of (reverse C r)) = products (base_of r)
  /\ products (base_of (reverse C r)) = reactants (base_of r)
  /\ comps (base_of (reverse C r)) = comps (base_of r)
  /\ coeffs (base_of (reverse C r)) = map Qopp (coeffs (base_of r))
  /\ balanced (base_of (reverse C r)) = balanced (base_of r)
  /\ num_errors (base_of (reverse C r)) = num_errors (base_of r)
  /\ entries_of (reverse C r) = entries_of r
  /\ same_value (energy C (reverse C r)) (bind (energy C r) (fun e => Ok (- e)%Q))
  /\ reverse C (reverse C r) = r.
Proof.
  intros Hb. destruct r as [b|kr|o]; cbn [built] in Hb.
  - destruct Hb as (cs & ks & fl & n & Hl & ->). cbn [reverse base_of entries_of energy bind same_value].
    change (basic_reverse C (basic_init C cs ks fl n)) with
      (basic_init C cs (map Qopp ks) (Some (balanced (basic_init C cs ks fl n))) n).
    destruct (flip_sides cs ks (Some (balanced (basic_init C cs ks fl n))) n fl n) as [E1 E2].
    unfold reactants, products. rewrite E1, E2, !map_fst_on_snd.
    do 2 (split; [reflexivity|]). split; [reflexivity|]. split; [reflexivity|]. split; [reflexivity|].
    split; [reflexivity|]. split; [reflexivity|]. split; [reflexivity|].
    f_equal. unfold basic_reverse. cbn [comps coeffs balanced num_errors basic_init]. rewrite map_opp_opp. reflexivity.
  - destruct Hb as (es & ks & n & Hl & ->). cbn [reverse base_of entries_of energy].
    unfold computed_reverse. cbn [c_base c_entries computed_init coeffs basic_init num_errors]. rewrite map_mulm1.
    unfold computed_init. cbn [c_base c_entries].
    destruct (flip_sides (map (fun e => red C (e_comp e)) es) ks None n None n) as [E1 E2].
    unfold reactants, products. rewrite E1, E2, !map_fst_on_snd.
    do 2 (split; [reflexivity|]). split; [reflexivity|]. split; [reflexivity|].
    split; [apply flip_balanced|]. split; [reflexivity|]. split; [reflexivity|]. split.
    + unfold computed_energy. cbn [c_entries c_base].
      destruct (energy_of C es e_energy (basic_init C (map (fun e => red C (e_comp e)) es) ks None n)) as [v|err] eqn:E.
      2:{ rewrite energy_built in E. discriminate. }
      destruct (energy_flipped _ _ _ _ _ None n _ E) as (v' & -> & Hv). exact Hv.
    + cbn [coeffs basic_init c_base c_entries num_errors]. rewrite map_mulm1, map_opp_opp. reflexivity.
  - destruct Hb as (es & ks & mu & n & Hl & ->). cbn [reverse base_of entries_of energy].
    unfold open_reverse. cbn [o_base open_init c_base c_entries computed_init coeffs basic_init num_errors chempots]. rewrite map_mulm1.
    unfold open_init, computed_init. cbn [o_base c_base c_entries].
    destruct (flip_sides (map (fun e => red C (e_comp e)) es) ks None n None n) as [E1 E2].
    unfold reactants, products. rewrite E1, E2, !map_fst_on_snd.
    do 2 (split; [reflexivity|]). split; [reflexivity|]. split; [reflexivity|].
    split; [apply flip_balanced|]. split; [reflexivity|]. split; [reflexivity|]. split.
    + unfold open_energy. cbn [c_entries c_base o_base chempots].
      destruct (energy_of C es (grand_energy C mu) (basic_init C (map (fun e => red C (e_comp e)) es) ks None n)) as [v|err] eqn:E.
      2:{ rewrite energy_built in E. discriminate. }
      destruct (energy_flipped _ _ _ _ _ None n _ E) as (v' & -> & Hv). exact Hv.
    + cbn [coeffs basic_init c_base c_entries num_errors o_base chempots]. rewrite map_mulm1, map_opp_opp. reflexivity.
Qed.

Theorem copy_spec r : built C r -> copy C r = r.
Proof.
  intros Hb. destruct r as [b|kr|o]; cbn [built] in Hb.
  - destruct Hb as (cs & ks & fl & n & Hl & ->). reflexivity.
  - destruct Hb as (es & ks & n & Hl & ->). reflexivity.
  - destruct Hb as (es & ks & mu & n & Hl & ->). reflexivity.
Qed.

(* --- C15 --- *)
Lemma atoms_superset (W : wf_chem C) els c : NoDup els -> (forall e, In e (elems C c) -> In e els) ->
  (natoms C c == atoms C els c)%Q.
Proof.
  intros Hn Hsub. unfold natoms, atoms. rewrite Qsum_map.
  assert (P : Permutation (elems C c) (filter (fun e => memb Nat.eqb e (elems C c)) els)).
  { apply NoDup_Permutation; [apply (wf_nodup C W)|apply NoDup_filter; assumption|].
    intros e. rewrite filter_In, memb_iff. split; [intros H; split; auto|tauto]. }
  rewrite (sumQ_perm _ _ _ P), sumQ_filter. apply sumQ_ext. intros e _.
  destruct (memb Nat.eqb e (elems C c)) eqn:E; unfold ind; [ring|].
  apply memb_false in E. rewrite (wf_zero C W) by assumption. ring.
Qed.

Lemma sides_atoms els l : 
  (sumQ (fun kv => - snd kv * atoms C els (fst kv)) (filter (fun kv => Qlt_bool (snd kv) 0) l)
     == sumQ (consumed C l) els
   /\ sumQ (fun kv => snd kv * atoms C els (fst kv)) (filter (fun kv => Qlt_bool 0 (snd kv)) l)
     == sumQ (produced C l) els)%Q.
Proof.
  split.
  - rewrite sumQ_filter. unfold consumed.
    rewrite (sumQ_swap (fun e (ck : nat * Q) => if Qlt_bool (snd ck) 0 then (amt C (fst ck) e * - snd ck)%Q else 0%Q) els l).
    apply sumQ_ext. intros [c k] _. cbn [fst snd]. unfold atoms. destruct (Qlt_bool k 0); unfold ind.
    + rewrite sumQ_scale_r. ring.
    + rewrite sumQ_zero. ring.
  - rewrite sumQ_filter. unfold produced.
    rewrite (sumQ_swap (fun e (ck : nat * Q) => if Qlt_bool 0 (snd ck) then (amt C (fst ck) e * snd ck)%Q else 0%Q) els l).
    apply sumQ_ext. intros [c k] _. cbn [fst snd]. unfold atoms. destruct (Qlt_bool 0 k); unfold ind.
    + rewrite sumQ_scale_r. ring.
    + rewrite sumQ_zero. ring.
Qed.

Lemma sums_equal els l : (forall e, (net C l e == 0)%Q) ->
  (sumQ (fun kv => - snd kv * atoms C els (fst kv)) (filter (fun kv => Qlt_bool (snd kv) 0) l)
     == sumQ (fun kv => snd kv * atoms C els (fst kv)) (filter (fun kv => Qlt_bool 0 (snd kv)) l))%Q.
Proof.
  intros H. destruct (sides_atoms els l) as [-> ->]. apply sumQ_ext. intros e _.
  specialize (H e). rewrite net_sides in H. lra.
Qed.

Lemma num_atoms_value els cs ks fl n : NoDup cs -> length cs = length ks ->
  (num_atoms_of C els (basic_init C cs ks fl n)
   == sumQ (fun kv => snd kv * atoms C els (fst kv)) (filter (fun kv => Qlt_bool 0 (snd kv)) (combine cs ks)))%Q.
Proof.
  intros Hn Hl. unfold num_atoms_of. rewrite product_coeffs_nodup by assumption. rewrite Qsum_map.
  apply sumQ_ext. intros [c k] _. cbn [fst snd]. unfold atoms. rewrite Qsum_map. reflexivity.
Qed.

Lemma atoms_nonneg (W : wf_chem C) els c : (0 <= atoms C els c)%Q.
Proof.
  apply sumQ_nonneg. intros e _. destruct (in_dec Nat.eq_dec e (elems C c)) as [Hin|Hout].
  - apply Qlt_le_weak, (wf_pos C W), Hin.
  - rewrite (wf_zero C W) by assumption. apply Qle_refl.
Qed.
Lemma num_atoms_nonneg (W : wf_chem C) els r : (forall c k, In (c, k) (product_coeffs r) -> (0 <= k)%Q) -> (0 <= num_atoms_of C els r)%Q.
Proof.
  intros H. unfold num_atoms_of. rewrite Qsum_map. apply sumQ_nonneg. intros [c k] Hin. cbn [fst snd].
  apply Qmult_le_0_compat; [apply (H c k Hin)|]. rewrite Qsum_map. apply (atoms_nonneg W).
Qed.
Lemma product_coeffs_pos cs ks fl n c k : In (c, k) (product_coeffs (basic_init C cs ks fl n)) -> (0 < k)%Q.
Proof.
  intros H. simpl in H. apply (dict_of_keys (filter (fun kv => Qlt_bool 0 (snd kv)) (combine cs ks))) in H.
  apply filter_In in H as [_ H]. apply Qlt_bool_iff' in H. exact H.
Qed.
Lemma reactant_coeffs_neg cs ks fl n c k : In (c, k) (reactant_coeffs (basic_init C cs ks fl n)) -> (k < 0)%Q.
Proof.
  intros H. simpl in H. apply (dict_of_keys (filter (fun kv => Qlt_bool (snd kv) 0) (combine cs ks))) in H.
  apply filter_In in H as [_ H]. apply Qlt_bool_iff' in H. exact H.
Qed.

Lemma fractions_sum (f : nat * Q -> Q) (d : list (nat * Q)) : NoDup (map (red C) (map fst d)) ->
  dict_of (map (fun kv => (red C (fst kv), f kv)) d) = map (fun kv => (red C (fst kv), f kv)) d.
Proof.
  intros H. apply dict_of_nodup. rewrite map_map in *. exact H.
Qed.

Lemma natoms_pos (W : wf_chem C) c : elems C c <> [] -> (0 < natoms C c)%Q.
Proof.
  intros H. unfold natoms. rewrite Qsum_map. destruct (elems C c) as [|e l] eqn:E; [congruence|].
  rewrite sumQ_cons. assert (0 < amt C c e)%Q by (apply (wf_pos C W); rewrite E; left; reflexivity).
  assert (0 <= sumQ (amt C c) l)%Q.
  { apply sumQ_nonneg. intros e' He'. apply Qlt_le_weak, (wf_pos C W). rewrite E. right. assumption. }
  lra.
Qed.

Theorem atomic_fractions_spec (W : wf_chem C) cs ks fl n :
  let r := basic_init C cs ks fl n in
  NoDup cs -> length cs = length ks -> conserving C r -> balanced r = true ->
  NoDup (map (red C) (reactants r)) -> NoDup (map (red C) (products r)) ->
  (forall c, In c cs -> elems C c <> []) -> products r <> [] ->
  exists fr fp, reactant_atomic_fractions C r = Ok fr /\ product_atomic_fractions C r = Ok fp
  /\ (sumQ snd fr == 1)%Q /\ (sumQ snd fp == 1)%Q
  /\ map fst fr = map (red C) (reactants r) /\ map fst fp = map (red C) (products r)
  /\ (forall c w, In (c, w) fr \/ In (c, w) fp -> (0 < w)%Q).
Proof.
  intros r Hn Hl Hc Hb Hr Hp He Hne.
  assert (Hsub : forall c e, In c cs -> In e (elems C c) -> In e (elements C r)).
  { intros c e H1 H2. apply in_elements. exists c. split; assumption. }
  assert (Hnd : NoDup (elements C r)) by apply NoDup_nodup.
  assert (HN : (0 < num_atoms C r)%Q).
  { unfold num_atoms, num_atoms_of. rewrite Qsum_map.
    assert (G : forall d, (forall c k, In (c, k) d -> (0 < k)%Q /\ In c cs) -> d <> [] ->
       (0 < sumQ (fun kv => snd kv * Qsum (map (amt C (fst kv)) (elements C r))) d)%Q).
    { assert (G1 : forall c k, (0 < k)%Q -> In c cs -> (0 < k * Qsum (map (amt C c) (elements C r)))%Q).
      { intros c k Hk Hin. apply Qmult_lt_0_compat; [assumption|]. rewrite Qsum_map.
        change (sumQ (amt C c) (elements C r)) with (atoms C (elements C r) c).
        rewrite <- (atoms_superset W (elements C r) c Hnd) by (intros e; apply (Hsub c e Hin)).
        apply (natoms_pos W), He, Hin. }
      induction d as [|[c k] d IH]; intros Hd Hnil; [congruence|]. rewrite sumQ_cons. cbn [fst snd].
      destruct (Hd c k (or_introl eq_refl)) as [Hk Hin]. specialize (G1 c k Hk Hin).
      destruct d as [|x d]; [cbn [sumQ fold_right]; lra|].
      assert (0 < sumQ (fun kv => snd kv * Qsum (map (amt C (fst kv)) (elements C r))) (x :: d))%Q.
      { apply IH; [|discriminate]. intros c' k' H'. apply Hd. right. assumption. }
      lra. }
    apply G.
    - intros c k Hin. split; [eapply product_coeffs_pos; exact Hin|].
      unfold r in Hin. rewrite product_coeffs_nodup in Hin by assumption.
      apply filter_In in Hin as [Hin _]. apply in_combine_l in Hin. exact Hin.
    - intros E. apply Hne. unfold products. rewrite E. reflexivity. }
  unfold reactant_atomic_fractions, product_atomic_fractions. rewrite Hb. cbn [negb].
  assert (D0 : forall d : list (nat * Q), divides_by_zero d (num_atoms C r) = false).
  { intros [|x d]; [reflexivity|]. unfold divides_by_zero. destruct (Qeq_bool (num_atoms C r) 0) eqn:E0; [apply Qeq_bool_iff in E0; lra|reflexivity]. }
  rewrite !D0.
  eexists _, _. split; [reflexivity|]. split; [reflexivity|].
  unfold reactants in Hr. unfold products in Hp.
  rewrite (fractions_sum (fun kv => - snd kv * natoms C (fst kv) / num_atoms C r)%Q) by assumption.
  rewrite (fractions_sum (fun kv => snd kv * natoms C (fst kv) / num_atoms C r)%Q) by assumption.
  assert (EN : (num_atoms C r == sumQ (fun kv => snd kv * atoms C (elements C r) (fst kv))
               (filter (fun kv => Qlt_bool 0 (snd kv)) (combine cs ks)))%Q)
    by (apply num_atoms_value; assumption).
  assert (Hc' : forall e, (net C (combine cs ks) e == 0)%Q) by (intros e; apply (Hc e)).
  pose proof (sums_equal (elements C r) _ Hc') as ER. rewrite <- EN in ER.
  assert (Hin_r : forall c k, In (c, k) (reactant_coeffs r) -> (k < 0)%Q /\ In c cs).
  { intros c k Hin. split; [eapply reactant_coeffs_neg; exact Hin|].
    unfold r in Hin. rewrite reactant_coeffs_nodup in Hin by assumption.
    apply filter_In in Hin as [Hin _]. apply in_combine_l in Hin. exact Hin. }
  assert (Hin_p : forall c k, In (c, k) (product_coeffs r) -> (0 < k)%Q /\ In c cs).
  { intros c k Hin. split; [eapply product_coeffs_pos; exact Hin|].
    unfold r in Hin. rewrite product_coeffs_nodup in Hin by assumption.
    apply filter_In in Hin as [Hin _]. apply in_combine_l in Hin. exact Hin. }
  split; [|split; [|split; [|split]]].
  - rewrite sumQ_map. cbn [snd].
    assert (E : (sumQ (fun kv => - snd kv * natoms C (fst kv) / num_atoms C r) (reactant_coeffs r)
       == sumQ (fun kv => - snd kv * atoms C (elements C r) (fst kv)) (reactant_coeffs r) * / num_atoms C r)%Q).
    { rewrite <- sumQ_scale_r. apply sumQ_ext. intros [c k] Hin. cbn [fst snd].
      rewrite (atoms_superset W (elements C r) c Hnd) by (intros e; apply (Hsub c e (proj2 (Hin_r c k Hin)))).
      reflexivity. }
    rewrite E. unfold r at 2. rewrite reactant_coeffs_nodup by assumption. rewrite ER. field. lra.
  - rewrite sumQ_map. cbn [snd].
    assert (E : (sumQ (fun kv => snd kv * natoms C (fst kv) / num_atoms C r) (product_coeffs r)
       == sumQ (fun kv => snd kv * atoms C (elements C r) (fst kv)) (product_coeffs r) * / num_atoms C r)%Q).
    { rewrite <- sumQ_scale_r. apply sumQ_ext. intros [c k] Hin. cbn [fst snd].
      rewrite (atoms_superset W (elements C r) c Hnd) by (intros e; apply (Hsub c e (proj2 (Hin_p c k Hin)))).
      reflexivity. }
    rewrite E. unfold r at 2. rewrite product_coeffs_nodup by assumption. rewrite <- EN. field. lra.
  - unfold reactants. rewrite !map_map. reflexivity.
  - unfold products. rewrite !map_map. reflexivity.
  - intros c w [Hin|Hin]; apply in_map_iff in Hin as ([c' k] & E & Hin); injection E as <- <-; cbn [fst snd].
    + destruct (Hin_r c' k Hin) as [H1 H2]. apply Qlt_shift_div_l; [assumption|].
      pose proof (natoms_pos W c' (He c' H2)). assert (0 < -k * natoms C c')%Q by (apply Qmult_lt_0_compat; lra). lra.
    + destruct (Hin_p c' k Hin) as [H1 H2]. apply Qlt_shift_div_l; [assumption|].
      pose proof (natoms_pos W c' (He c' H2)). assert (0 < k * natoms C c')%Q by (apply Qmult_lt_0_compat; lra). lra.
Qed.

Theorem open_reactant_fractions_spec (W : wf_chem C) es ks mu n :
  let r := open_init C es ks mu n in
  let b := c_base (o_base r) in
  NoDup (comps b) -> length es = length ks -> conserving C b ->
  ~ (open_num_atoms C r == 0)%Q ->
  exists fr, open_reactant_atomic_fractions C r = Ok fr /\ (sumQ snd fr == 1)%Q
  /\ map fst fr = reactants b /\ (forall c w, In (c, w) fr -> (0 <= w)%Q).
Proof.
  intros r b Hn Hl Hc H0. 
  set (cs := map (fun e => red C (e_comp e)) es).
  assert (Hl' : length cs = length ks) by (unfold cs; rewrite map_length; assumption).
  assert (Hb : balanced b = true) by (apply (conserving_balanced W cs ks n Hn Hl' Hc)).
  unfold open_reactant_atomic_fractions. fold b. rewrite Hb. cbn [negb].
  assert (D0 : forall d : list (nat * Q), divides_by_zero d (open_num_atoms C r) = false).
  { intros [|x d]; [reflexivity|]. unfold divides_by_zero. destruct (Qeq_bool (open_num_atoms C r) 0) eqn:E0; [apply Qeq_bool_iff in E0; contradiction|reflexivity]. }
  rewrite D0.
  eexists. split; [reflexivity|].
  assert (Hred : forall c, In c (reactants b) -> red C c = c).
  { intros c Hin. unfold reactants in Hin. apply in_map_iff in Hin as ([c' k] & <- & Hin). cbn [fst].
    change (reactant_coeffs b) with (reactant_coeffs (basic_init C cs ks None n)) in Hin.
    rewrite reactant_coeffs_nodup in Hin by assumption. apply filter_In in Hin as [Hin _]. apply in_combine_l in Hin.
    unfold cs in Hin. apply in_map_iff in Hin as (e & <- & _). apply (wf_red_red C W). }
  assert (Ered : map (red C) (reactants b) = reactants b).
  { rewrite <- (map_id (reactants b)) at 2. apply map_ext_in. assumption. }
  assert (Hnr : NoDup (reactants b)) by (apply (dict_of_keys (filter (fun kv => Qlt_bool (snd kv) 0) (combine cs ks)))).
  rewrite (fractions_sum (fun kv => - snd kv * Qsum (map (amt C (fst kv)) (open_elements C r)) / open_num_atoms C r)%Q).
  2:{ change (map fst (reactant_coeffs b)) with (reactants b). rewrite Ered. assumption. }
  assert (EN : (open_num_atoms C r == sumQ (fun kv => snd kv * atoms C (open_elements C r) (fst kv))
               (filter (fun kv => Qlt_bool 0 (snd kv)) (combine cs ks)))%Q)
    by (apply num_atoms_value; assumption).
  assert (Hc' : forall e, (net C (combine cs ks) e == 0)%Q) by (intros e; apply (Hc e)).
  pose proof (sums_equal (open_elements C r) _ Hc') as ER. rewrite <- EN in ER.
  assert (HNn : (0 <= open_num_atoms C r)%Q).
  { apply (num_atoms_nonneg W). intros c k Hin. apply Qlt_le_weak. exact (product_coeffs_pos cs ks None n c k Hin). }
  assert (HNp : (0 < open_num_atoms C r)%Q).
  { destruct (Qlt_le_dec 0 (open_num_atoms C r)); [assumption|]. exfalso. apply H0. lra. }
  split; [|split].
  - rewrite sumQ_map. cbn [snd].
    assert (E : (sumQ (fun kv => - snd kv * Qsum (map (amt C (fst kv)) (open_elements C r)) / open_num_atoms C r) (reactant_coeffs b)
       == sumQ (fun kv => - snd kv * atoms C (open_elements C r) (fst kv)) (reactant_coeffs b) * / open_num_atoms C r)%Q).
    { rewrite <- sumQ_scale_r. apply sumQ_ext. intros [c k] Hin. cbn [fst snd]. rewrite Qsum_map. reflexivity. }
    rewrite E. change (reactant_coeffs b) with (reactant_coeffs (basic_init C cs ks None n)).
    rewrite reactant_coeffs_nodup by assumption. rewrite ER. field. lra.
  - eapply eq_trans; [|exact Ered]. unfold reactants. rewrite !map_map. reflexivity.
  - intros c w Hin. apply in_map_iff in Hin as ([c' k] & E & Hin). injection E as <- <-. cbn [fst snd].
    apply Qle_shift_div_l; [assumption|]. apply (reactant_coeffs_neg cs ks None n c' k) in Hin.
    rewrite Qmult_0_l. apply Qmult_le_0_compat; [lra|]. rewrite Qsum_map. apply (atoms_nonneg W).
Qed.

(* --- C16 --- *)
Lemma pure_open_red (W : wf_chem C) mu e : is_pure_open C mu (e_comp e) = true <->
  exists x, elems C (red C (e_comp e)) = [x] /\ In x (map fst mu).
Proof.
  unfold is_pure_open. destruct (elems C (red C (e_comp e))) as [|x [|y l]].
  - split; [discriminate|]. intros (x & H & _). discriminate.
  - rewrite memb_iff. split; [intros H; exists x; auto|]. intros (y & H & Hy). injection H as ->. assumption.
  - split; [discriminate|]. intros (z & H & _). discriminate.
Qed.

Lemma grand_per_formula (W : wf_chem C) mu e :
  (grand_energy C mu e / fac C (e_comp e) == e_energy e / fac C (e_comp e) - open_part C mu (red C (e_comp e)))%Q.
Proof.
  pose proof (wf_fac_pos C W (e_comp e)) as Hf.
  assert (Hfull : (Qsum (map (fun em => amt C (e_comp e) (fst em) * snd em) mu)
     == fac C (e_comp e) * sumQ (fun em => amt C (red C (e_comp e)) (fst em) * snd em) mu)%Q).
  { rewrite Qsum_map, <- sumQ_scale_l. apply sumQ_ext. intros em _. rewrite (wf_fac C W (e_comp e)). ring. }
  unfold grand_energy, open_part. destruct (is_pure_open C mu (e_comp e)) eqn:E.
  - apply (pure_open_red W) in E as (x & -> & Hx). destruct (in_dec Nat.eq_dec x (map fst mu)); [|contradiction].
    field. lra.
  - assert (Hnot : ~ exists x, elems C (red C (e_comp e)) = [x] /\ In x (map fst mu)).
    { rewrite <- (pure_open_red W), E. discriminate. }
    destruct (elems C (red C (e_comp e))) as [|x [|y l]].
    + rewrite Hfull. field. lra.
    + destruct (in_dec Nat.eq_dec x (map fst mu)) as [Hx|_]; [exfalso; apply Hnot; exists x; auto|].
      rewrite Hfull. field. lra.
    + rewrite Hfull. field. lra.
Qed.

Theorem open_energy_spec (W : wf_chem C) es ks mu n :
  let r := open_init C es ks mu n in
  exists e e0, open_energy C r = Ok e /\ computed_energy C (o_base r) = Ok e0
  /\ (e == e0 - sumQ (fun ck => snd ck * open_part C mu (fst ck)) (species (c_base (o_base r))))%Q.
Proof.
  intros r. eexists _, _. split; [apply energy_built|]. split; [apply energy_built|].
  unfold r, species, open_init, computed_init. cbn [o_base c_base comps coeffs basic_init chempots].
  rewrite (combine_swap (map (fun e => red C (e_comp e)) es) ks), !sumQ_map. cbn [fst snd].
  assert (E : forall a b : Q, (a - b == a + (-1) * b)%Q) by (intros; ring). rewrite E, <- sumQ_scale_l, <- sumQ_add.
  apply sumQ_ext. intros [c k] Hin. cbn [fst snd]. apply in_combine_l in Hin.
  destruct (value_lowest C e_energy es c Hin) as [_ L1].
  destruct (value_lowest C (grand_energy C mu) es c Hin) as [_ L2].
  assert (L3 : lowest C (grand_energy C mu) es c (val C e_energy es c - open_part C mu c)%Q).
  { destruct L1 as [(e & He & Hr & Hv) Hl]. split.
    - exists e. split; [assumption|]. split; [assumption|]. rewrite (grand_per_formula W), Hr. unfold val. rewrite Hv. reflexivity.
    - intros e' He' Hr'. rewrite (grand_per_formula W), Hr'. specialize (Hl e' He' Hr'). unfold val. lra. }
  pose proof (lowest_unique C _ _ _ _ _ L2 L3) as L4. unfold val in *. rewrite L4. ring.
Qed.

Theorem open_ops_keep_chempots es ks mu n new r' :
  let o := open_init C es ks mu n in
  (exists o', copy C (ROpen o) = ROpen o' /\ chempots o' = mu)
  /\ (exists o', reverse C (ROpen o) = ROpen o' /\ chempots o' = mu)
  /\ (open_new_temperature C new o = Ok r' -> chempots r' = mu).
Proof.
  intros o. split; [eexists; split; reflexivity|]. split; [eexists; split; reflexivity|].
  unfold open_new_temperature. destruct (new_entries new (c_entries (o_base o))); [|discriminate].
  cbn [bind]. intros H. injection H as <-. reflexivity.
Qed.
End Laws.
