(* Proofs about the hull of the reactions between two reactants. *)
From Coq Require Import Lqa.
From Verif Require Import Prelude NumQ SumQ ListFacts UtilsModel ReactionModel ReactionSpec ReactionBaseProofs ReactionOpsProofs ReactionLawProofs
  HullModel HullSpec HullCheck HullSignProofs HullChainProofs HullEnergyProofs ChemTable IrhModel IrhSpec.
From Verif Require RxnSetBaseProofs.
Open Scope nat_scope.

Section Irh.
Variable C : chem.
Hypothesis W : wf_chem C.

(* --- mixing ratios --- *)
(* The elements that count for a reaction. *)
Definition counted (r : rxn) : list nat :=
  match r with RBasic b => elements C b | RComputed k => elements C (c_base k) | ROpen o => open_elements C o end.

Lemma counted_left r c : (exists k, In (c, k) (species (base_of r))) -> (forall b, r <> RBasic b) ->
  (atoms C (counted r) c == atoms_left C (potentials r) c)%Q.
Proof.
  intros [k Hk] Hnb. assert (Hin : In c (comps (base_of r))) by (apply in_combine_l in Hk; exact Hk).
  assert (E : exists b, base_of r = b /\ In c (comps b)
     /\ Permutation (counted r) (filter (fun e => negb (memb Nat.eqb e (map fst (potentials r)))) (elements C b))).
  { destruct r as [b|k'|o]; [exfalso; apply (Hnb b); reflexivity| |].
    - exists (c_base k'). split; [reflexivity|]. split; [exact Hin|]. cbn [counted potentials map memb negb existsb].
      assert (G : forall l : list nat, filter (fun e => negb (memb Nat.eqb e [])) l = l).
      { induction l as [|x l IH]; [reflexivity|]. cbn. f_equal. exact IH. }
      rewrite G. apply Permutation_refl.
    - exists (c_base (o_base o)). split; [reflexivity|]. split; [exact Hin|]. apply Permutation_refl. }
  destruct E as (b & _ & Hb & Hp). unfold atoms, atoms_left. rewrite (sumQ_perm _ _ _ Hp), sumQ_filter.
  assert (P : Permutation (elems C c) (filter (fun e => memb Nat.eqb e (elems C c)) (elements C b))).
  { apply NoDup_Permutation; [apply (wf_nodup C W)|apply NoDup_filter, NoDup_nodup|].
    intros e. rewrite filter_In, memb_iff. split; [intros H; split; [apply in_elements; exists c; split; assumption|assumption]|tauto]. }
  rewrite (sumQ_perm _ _ _ P), sumQ_filter. apply sumQ_ext. intros e _.
  destruct (in_dec Nat.eq_dec e (map fst (potentials r))) as [Ho|Ho].
  - apply memb_iff in Ho. rewrite Ho. unfold ind. cbn [negb]. destruct (memb Nat.eqb e (elems C c)); ring.
  - apply memb_false in Ho. rewrite Ho. unfold ind. cbn [negb]. destruct (memb Nat.eqb e (elems C c)) eqn:E; [ring|].
    apply memb_false in E. rewrite (wf_zero C W c e E). ring.
Qed.

Definition total (r : rxn) : Q := num_atoms_of C (counted r) (base_of r).

Lemma proper_parts r : proper C r -> exists es ks n, length es = length ks /\ NoDup (map (fun e => red C (e_comp e)) es)
  /\ base_of r = basic_init C (map (fun e => red C (e_comp e)) es) ks None n /\ balanced (base_of r) = true
  /\ (forall c k, In (c, k) (species (base_of r)) -> red C c = c) /\ (forall b, r <> RBasic b)
  /\ (forall e, (net C (species (base_of r)) e == 0)%Q) /\ exists v, energy C r = Ok v.
Proof.
  intros [(es & ks & n & Hl & Hn & Hr) Hc]. exists es, ks, n. split; [exact Hl|]. split; [exact Hn|].
  assert (Hb : base_of r = basic_init C (map (fun e => red C (e_comp e)) es) ks None n) by (destruct Hr as [->|[mu ->]]; reflexivity).
  split; [exact Hb|]. split.
  - rewrite Hb. apply (conserving_balanced C W); [exact Hn|rewrite map_length; exact Hl|]. rewrite <- Hb. exact Hc.
  - split; [|split; [|split]].
    + intros c k Hin. rewrite Hb in Hin. unfold species in Hin. cbn [comps coeffs basic_init] in Hin. apply in_combine_l in Hin.
      apply in_map_iff in Hin as (e & <- & _). apply (wf_red_red C W).
    + intros b. destruct Hr as [->|[mu ->]]; discriminate.
    + exact Hc.
    + destruct Hr as [->|[mu ->]]; cbn [energy]; eexists; apply energy_built.
Qed.

Lemma total_takes r : proper C r ->
  (total r == sumQ (fun ck => if Qlt_bool (snd ck) 0 then - snd ck * atoms_left C (potentials r) (fst ck) else 0)%Q (species (base_of r)))%Q.
Proof.
  intros Hp. destruct (proper_parts r Hp) as (es & ks & n & Hl & Hn & Hb & _ & _ & Hnb & Hc & _).
  unfold total. rewrite Hb at 1. rewrite num_atoms_value by (try rewrite map_length; assumption).
  assert (Hsp : combine (map (fun e => red C (e_comp e)) es) ks = species (base_of r)) by (rewrite Hb; reflexivity).
  rewrite Hsp. rewrite <- (sums_equal C (counted r) (species (base_of r)) Hc). rewrite sumQ_filter. apply sumQ_ext. intros [c k] Hin. cbn [fst snd].
  rewrite (counted_left r c) by (try exact Hnb; exists k; exact Hin). destruct (Qlt_bool k 0); unfold ind; ring.
Qed.

Lemma atoms_left_nonneg mu c : (0 <= atoms_left C mu c)%Q.
Proof.
  apply sumQ_nonneg. intros e He. destruct (in_dec Nat.eq_dec e (map fst mu)); [lra|]. apply Qlt_le_weak, (wf_pos C W), He.
Qed.
Lemma takes_nonneg r c : (0 <= takes C r c)%Q.
Proof.
  apply sumQ_nonneg. intros [c' k] _. cbn [fst snd]. destruct (Nat.eqb c' c); cbn [andb]; [|lra].
  destruct (Qlt_bool k 0) eqn:E; [|lra]. apply Qlt_bool_iff' in E. apply Qmult_le_0_compat; [lra|apply atoms_left_nonneg].
Qed.
Lemma takes_le r c : proper C r -> (takes C r c <= total r)%Q.
Proof.
  intros Hp. rewrite (total_takes r Hp). unfold takes. apply sumQ_le. intros [c' k] _. cbn [fst snd].
  destruct (Qlt_bool k 0) eqn:E; [|destruct (Nat.eqb c' c); cbn [andb]; lra]. apply Qlt_bool_iff' in E.
  destruct (Nat.eqb_spec c' c) as [->|_]; cbn [andb]; [lra|]. apply Qmult_le_0_compat; [lra|apply atoms_left_nonneg].
Qed.

Lemma sum_single (f : nat -> Q -> Q) l c k : NoDup (map fst l) -> In (c, k) l ->
  (sumQ (fun ck : nat * Q => if Nat.eqb (fst ck) c then f (fst ck) (snd ck) else 0) l == f c k)%Q.
Proof.
  induction l as [|[c' k'] l IH]; intros Hn Hin; [destruct Hin|]. rewrite sumQ_cons. cbn [fst snd] in *. inversion Hn as [|? ? Hx Hn']; subst.
  destruct Hin as [E|Hin].
  - injection E as -> ->. rewrite Nat.eqb_refl. rewrite sumQ_all_zero; [ring|]. intros [c1 k1] H1. cbn [fst snd].
    destruct (Nat.eqb_spec c1 c) as [->|]; [|reflexivity]. exfalso. apply Hx. apply in_map_iff. exists (c, k1). split; [reflexivity|exact H1].
  - destruct (Nat.eqb_spec c' c) as [->|]; [exfalso; apply Hx; apply in_map_iff; exists (c, k); split; [reflexivity|exact Hin]|].
    rewrite IH by assumption. ring.
Qed.

(* What get_coordinate finds in the dictionary. *)
Lemma fractions_spec r : proper C r -> ~ (total r == 0)%Q ->
  exists d, fractions C r = Ok d
  /\ forall c, (consumes r c /\ exists q, dict_get c d = Some q /\ (q == takes C r c / total r)%Q)
            \/ (~ consumes r c /\ dict_get c d = None /\ (takes C r c == 0)%Q).
Proof.
  intros Hp H0. destruct (proper_parts r Hp) as (es & ks & n & Hl & Hn & Hb & Hbal & Hred & Hnb & Hc & _).
  set (cs := map (fun e => red C (e_comp e)) es) in *.
  assert (Hl' : length cs = length ks) by (unfold cs; rewrite map_length; exact Hl).
  assert (Hsp : species (base_of r) = combine cs ks) by (rewrite Hb; reflexivity).
  assert (Hrc : reactant_coeffs (base_of r) = filter (fun kv => Qlt_bool (snd kv) 0) (combine cs ks)) by (rewrite Hb; apply reactant_coeffs_nodup; assumption).
  assert (Hnd : NoDup (map fst (combine cs ks))) by (rewrite combine_fst by exact Hl'; exact Hn).
  (* the dictionary *)
  assert (Hf : exists A, (forall c k, In (c, k) (combine cs ks) -> (A c == atoms_left C (potentials r) c)%Q)
     /\ fractions C r = Ok (dict_of (map (fun kv => (red C (fst kv), - snd kv * A (fst kv) / total r)%Q) (reactant_coeffs (base_of r))))).
  { destruct r as [b|k'|o]; [exfalso; apply (Hnb b); reflexivity| |].
    - exists (natoms C). split.
      + intros c k Hin. rewrite <- Hsp in Hin. rewrite <- (counted_left (RComputed k') c) by (try exact Hnb; exists k; exact Hin).
        cbn [counted base_of] in *. apply (atoms_superset C W); [apply NoDup_nodup|]. intros e He. apply in_elements. exists c. split; [|exact He].
        apply in_combine_l in Hin. exact Hin.
      + cbn [fractions base_of] in *. unfold reactant_atomic_fractions. rewrite Hbal. cbn [negb].
        change (num_atoms C (c_base k')) with (total (RComputed k')).
        assert (D0 : divides_by_zero (reactant_coeffs (c_base k')) (total (RComputed k')) = false).
        { destruct (reactant_coeffs (c_base k')); [reflexivity|]. cbn. destruct (Qeq_bool _ 0) eqn:E; [apply Qeq_bool_iff in E; contradiction|reflexivity]. }
        rewrite D0. reflexivity.
    - exists (fun c => Qsum (map (amt C c) (open_elements C o))). split.
      + intros c k Hin. rewrite <- Hsp in Hin. rewrite <- (counted_left (ROpen o) c) by (try exact Hnb; exists k; exact Hin).
        rewrite Qsum_map. reflexivity.
      + cbn [fractions base_of] in *. unfold open_reactant_atomic_fractions. rewrite Hbal. cbn [negb].
        change (open_num_atoms C o) with (total (ROpen o)).
        assert (D0 : divides_by_zero (reactant_coeffs (c_base (o_base o))) (total (ROpen o)) = false).
        { destruct (reactant_coeffs (c_base (o_base o))); [reflexivity|]. cbn. destruct (Qeq_bool _ 0) eqn:E; [apply Qeq_bool_iff in E; contradiction|reflexivity]. }
        rewrite D0. reflexivity. }
  destruct Hf as (A & HA & Hf). eexists. split; [exact Hf|].
  rewrite Hrc. set (g := fun kv : nat * Q => (- snd kv * A (fst kv) / total r)%Q).
  set (l := filter (fun kv => Qlt_bool (snd kv) 0) (combine cs ks)) in *.
  assert (Hlin : forall c k, In (c, k) l <-> In (c, k) (combine cs ks) /\ (k < 0)%Q).
  { intros c k. unfold l. rewrite filter_In. cbn [snd]. rewrite Qlt_bool_iff'. tauto. }
  assert (Hmap : map (fun kv => (red C (fst kv), g kv)) l = map (fun kv => (fst kv, g kv)) l).
  { apply map_ext_in. intros [c k] Hin. cbn [fst]. f_equal. apply Hlin in Hin as [Hin _]. rewrite <- Hsp in Hin. apply (Hred c k Hin). }
  change (map (fun kv : nat * Q => (red C (fst kv), (- snd kv * A (fst kv) / total r)%Q)) l) with (map (fun kv => (red C (fst kv), g kv)) l).
  rewrite Hmap. assert (Hln : NoDup (map fst l)) by (apply map_fst_filter_nodup; exact Hnd).
  rewrite dict_of_nodup by (rewrite map_map; exact Hln).
  intros c. unfold consumes, takes. rewrite Hsp.
  destruct (in_dec Nat.eq_dec c (map fst l)) as [Hin|Hout].
  - left. apply in_map_iff in Hin as ([c' k] & <- & Hin). cbn [fst]. destruct (proj1 (Hlin c' k) Hin) as [Hin1 Hk].
    split; [exists k; split; assumption|]. exists (g (c', k)). split.
    + destruct (dict_get_some c' (map (fun kv => (fst kv, g kv)) l)) as [q Hq]; [rewrite map_map; apply in_map_iff; exists (c', k); split; [reflexivity|exact Hin]|].
      rewrite Hq. f_equal. apply dict_get_in in Hq. apply in_map_iff in Hq as ([c1 k1] & E & H1). injection E as -> <-.
      assert (k1 = k); [|subst; reflexivity]. clear -Hln Hin H1. induction l as [|[a b] l IH]; [destruct Hin|]. cbn [map fst] in Hln. inversion Hln as [|? ? Hx Hn]; subst.
      destruct Hin as [E|Hin], H1 as [E1|H1]; [congruence| | |exact (IH Hn Hin H1)].
      * injection E as -> ->. exfalso. apply Hx. apply in_map_iff. exists (c', k1). split; [reflexivity|exact H1].
      * injection E1 as -> ->. exfalso. apply Hx. apply in_map_iff. exists (c', k). split; [reflexivity|exact Hin].
    + unfold g. cbn [fst snd].
      assert (E : (sumQ (fun ck : nat * Q => if Nat.eqb (fst ck) c' && Qlt_bool (snd ck) 0 then - snd ck * atoms_left C (potentials r) c' else 0) (combine cs ks)
         == - k * atoms_left C (potentials r) c')%Q).
      { rewrite (sumQ_ext _ (fun ck : nat * Q => if Nat.eqb (fst ck) c' then (if Qlt_bool (snd ck) 0 then - snd ck * atoms_left C (potentials r) c' else 0)%Q else 0%Q)).
        - rewrite (sum_single (fun _ q => if Qlt_bool q 0 then - q * atoms_left C (potentials r) c' else 0)%Q _ c' k Hnd Hin1).
          destruct (Qlt_bool k 0) eqn:E; [reflexivity|]. apply Qlt_bool_false in E. lra.
        - intros [c1 k1] _. cbn [fst snd]. destruct (Nat.eqb c1 c'); reflexivity. }
      rewrite E, (HA c' k Hin1). reflexivity.
  - right. split; [|split].
    + intros (k & Hin & Hk). apply Hout. apply in_map_iff. exists (c, k). split; [reflexivity|]. apply Hlin. split; assumption.
    + apply dict_get_none. rewrite map_map. exact Hout.
    + apply sumQ_all_zero. intros [c' k] Hin. cbn [fst snd]. destruct (Nat.eqb_spec c' c) as [->|]; [|reflexivity]. cbn [andb].
      destruct (Qlt_bool k 0) eqn:E; [|reflexivity]. exfalso. apply Qlt_bool_iff' in E. apply Hout. apply in_map_iff. exists (c, k). split; [reflexivity|]. apply Hlin. split; assumption.
Qed.
(* --- coordinates --- *)
Section Round.
Variable round12 : Q -> Q.
Hypothesis R12 : rounds12 round12.

Lemma takes_total r c1 c2 : proper C r -> (0 < takes C r c1 + takes C r c2)%Q -> (0 < total r)%Q.
Proof. intros Hp H. pose proof (takes_le r c1 Hp). pose proof (takes_le r c2 Hp). lra. Qed.

Lemma coordinate_exact r c1 c2 : proper C r -> (0 < takes C r c1 + takes C r c2)%Q ->
  exists q, get_coordinate C round12 c1 c2 r = Ok (round12 q) /\ (q == mixing_ratio C c1 c2 r)%Q.
Proof.
  intros Hp Ht. pose proof (takes_total r c1 c2 Hp Ht) as HT. destruct (fractions_spec r Hp) as (d & Hd & Hget); [lra|].
  unfold get_coordinate. rewrite Hd. cbn [bind].
  assert (G : exists a1 a2, (a1 == takes C r c1 / total r)%Q /\ (a2 == takes C r c2 / total r)%Q
     /\ match dict_get c1 d, dict_get c2 d with None, None => False | _, _ => True end
     /\ a1 = match dict_get c1 d with Some q => q | None => 0%Q end /\ a2 = match dict_get c2 d with Some q => q | None => 0%Q end).
  { assert (Z : forall c, (takes C r c == 0)%Q -> (0 == takes C r c / total r)%Q) by (intros c H; rewrite H; field; lra).
    destruct (Hget c1) as [[_ (q1 & -> & E1)]|(_ & -> & E1)], (Hget c2) as [[_ (q2 & -> & E2)]|(_ & -> & E2)].
    - exists q1, q2. repeat split; assumption.
    - exists q1, 0%Q. split; [exact E1|]. split; [apply Z, E2|]. repeat split.
    - exists 0%Q, q2. split; [apply Z, E1|]. split; [exact E2|]. repeat split.
    - exfalso. rewrite E1, E2 in Ht. lra. }
  destruct G as (a1 & a2 & E1 & E2 & Hm & D1 & D2).
  assert (Hs : ~ (a1 + a2 == 0)%Q).
  { rewrite E1, E2. intros H. assert (H' : (takes C r c1 + takes C r c2 == (takes C r c1 / total r + takes C r c2 / total r) * total r)%Q) by (field; lra).
    rewrite H in H'. lra. }
  assert (Hr : (a2 / (a1 + a2) == mixing_ratio C c1 c2 r)%Q).
  { unfold mixing_ratio. rewrite E1, E2. field. split; lra. }
  assert (Hx : match dict_get c1 d, dict_get c2 d with
     | None, None => Err ValueError
     | o1, o2 => let amt_c1 := match o1 with Some q => q | None => 0%Q end in
                 let amt_c2 := match o2 with Some q => q | None => 0%Q end in
                 if Qeq_bool (amt_c1 + amt_c2) 0 then Err ZeroDivisionError else Ok (round12 (amt_c2 / (amt_c1 + amt_c2))%Q)
     end = Ok (round12 (a2 / (a1 + a2)))).
  { assert (Hq : Qeq_bool (a1 + a2) 0 = false) by (destruct (Qeq_bool (a1 + a2) 0) eqn:E; [apply Qeq_bool_iff in E; contradiction|reflexivity]).
    clear E1 E2 Hs Hr. destruct (dict_get c1 d), (dict_get c2 d); try (destruct Hm; fail); subst a1 a2; cbv zeta; rewrite Hq; reflexivity. }
  exists (a2 / (a1 + a2))%Q. split; [exact Hx|exact Hr].
Qed.

Lemma coordinate_spec r c1 c2 : proper C r -> (0 < takes C r c1 + takes C r c2)%Q ->
  exists x, get_coordinate C round12 c1 c2 r = Ok x /\ (Qabs (x - mixing_ratio C c1 c2 r) <= 1 # 2000000000000)%Q /\ (0 <= x <= 1)%Q.
Proof.
  intros Hp Ht. destruct (coordinate_exact r c1 c2 Hp Ht) as (q & Hx & Hr). exists (round12 q). split; [exact Hx|]. split.
  - rewrite <- Hr. apply (proj1 R12).
  - apply (proj2 R12). rewrite Hr. unfold mixing_ratio. pose proof (takes_nonneg r c1). pose proof (takes_nonneg r c2).
    split; [apply Qle_shift_div_l; [exact Ht|lra]|apply Qle_shift_div_r; [exact Ht|lra]].
Qed.

Lemma coordinate_none r c1 c2 : proper C r -> (exists c, 0 < takes C r c)%Q -> ~ consumes r c1 -> ~ consumes r c2 ->
  get_coordinate C round12 c1 c2 r = Err ValueError.
Proof.
  intros Hp [c Hc] H1 H2. destruct (fractions_spec r Hp) as (d & Hd & Hget); [pose proof (takes_le r c Hp); lra|].
  unfold get_coordinate. rewrite Hd. cbn [bind].
  destruct (Hget c1) as [[H _]|(_ & -> & _)]; [contradiction|]. destruct (Hget c2) as [[H _]|(_ & -> & _)]; [contradiction|]. reflexivity.
Qed.

Lemma energy_ok r c1 c2 : proper C r -> (0 < takes C r c1 + takes C r c2)%Q -> exists y, energy_per_atom C r = Ok y.
Proof.
  intros Hp Ht. pose proof (takes_total r c1 c2 Hp Ht) as HT. destruct (proper_parts r Hp) as (es & ks & n & _ & _ & _ & _ & _ & Hnb & _ & v & Hv).
  assert (Hq : Qeq_bool (total r) 0 = false) by (destruct (Qeq_bool (total r) 0) eqn:E; [apply Qeq_bool_iff in E; lra|reflexivity]).
  exists (v / total r)%Q. destruct r as [b|k|o]; [exfalso; apply (Hnb b); reflexivity| |].
  - cbn [energy energy_per_atom] in *. unfold computed_energy_per_atom. rewrite Hv. cbn [bind]. unfold per_atom.
    change (num_atoms C (c_base k)) with (total (RComputed k)). rewrite Hq. reflexivity.
  - cbn [energy energy_per_atom] in *. unfold open_energy_per_atom. rewrite Hv. cbn [bind]. unfold per_atom.
    change (open_num_atoms C o) with (total (ROpen o)). rewrite Hq. reflexivity.
Qed.
End Round.

(* --- the entries of the two reactants --- *)
Lemma used_iff r c : proper C r -> (consumes r c <-> exists e, In e (used_entries r) /\ red C (e_comp e) = c).
Proof.
  intros [(es & ks & n & Hl & _ & Hr) _].
  assert (E : used_entries r = map fst (filter (fun ek : entry * Q => Qlt_bool (snd ek) 0) (combine es ks))) by (destruct Hr as [->|[mu ->]]; reflexivity).
  assert (Es : species (base_of r) = map (fun ek : entry * Q => (red C (e_comp (fst ek)), snd ek)) (combine es ks)).
  { assert (G : species (base_of r) = combine (map (fun e => red C (e_comp e)) es) ks) by (destruct Hr as [->|[mu ->]]; reflexivity). rewrite G. clear.
    revert ks. induction es as [|e es IH]; intros [|k ks]; try reflexivity. cbn. f_equal. apply IH. }
  unfold consumes. rewrite E, Es. split.
  - intros (k & Hin & Hk). apply in_map_iff in Hin as ([e k'] & Eq & Hin). cbn [fst snd] in Eq. injection Eq as <- <-.
    exists e. split; [|reflexivity]. apply in_map_iff. exists (e, k'). split; [reflexivity|]. apply filter_In. split; [exact Hin|]. apply Qlt_bool_iff'. exact Hk.
  - intros (e & Hin & <-). apply in_map_iff in Hin as ([e' k] & Eq & Hin). cbn [fst] in Eq. subst. apply filter_In in Hin as [Hin Hk]. apply Qlt_bool_iff' in Hk.
    exists k. split; [|exact Hk]. apply in_map_iff. exists (e, k). split; [reflexivity|exact Hin].
Qed.

Definition is_end (c : nat) (o : option entry) : Prop := forall e, o = Some e -> red C (e_comp e) = c.
Lemma look_spec c1 c2 l : c1 <> c2 -> forall ends, is_end c1 (fst ends) -> is_end c2 (snd ends) ->
  let ends' := fold_left (look_at C c1 c2) l ends in
  is_end c1 (fst ends') /\ is_end c2 (snd ends')
  /\ (fst ends' <> None <-> fst ends <> None \/ exists e, In e l /\ red C (e_comp e) = c1)
  /\ (snd ends' <> None <-> snd ends <> None \/ exists e, In e l /\ red C (e_comp e) = c2).
Proof.
  intros Hne. induction l as [|e l IH]; intros ends H1 H2; cbn [fold_left].
  - split; [exact H1|]. split; [exact H2|]. split; (split; [tauto|intros [H|(e & [] & _)]; exact H]).
  - assert (G : is_end c1 (fst (look_at C c1 c2 ends e)) /\ is_end c2 (snd (look_at C c1 c2 ends e))
      /\ (fst (look_at C c1 c2 ends e) <> None <-> fst ends <> None \/ red C (e_comp e) = c1)
      /\ (snd (look_at C c1 c2 ends e) <> None <-> snd ends <> None \/ red C (e_comp e) = c2)).
    { unfold look_at. destruct (Nat.eqb_spec (red C (e_comp e)) c1) as [E1|E1]; [|destruct (Nat.eqb_spec (red C (e_comp e)) c2) as [E2|E2]]; cbn [fst snd].
      - split; [intros x Hx; injection Hx as <-; exact E1|]. split; [exact H2|]. split; [split; [intros _; right; exact E1|discriminate]|].
        split; [tauto|]. intros [H|H]; [exact H|congruence].
      - split; [exact H1|]. split; [intros x Hx; injection Hx as <-; exact E2|]. split; [split; [tauto|intros [H|H]; [exact H|congruence]]|].
        split; [intros _; right; exact E2|discriminate].
      - split; [exact H1|]. split; [exact H2|]. split; (split; [tauto|intros [H|H]; [exact H|congruence]]). }
    destruct G as (G1 & G2 & G3 & G4). destruct (IH _ G1 G2) as (I1 & I2 & I3 & I4). cbv zeta. split; [exact I1|]. split; [exact I2|].
    split.
    + rewrite I3, G3. clear. split; [intros [[H|H]|(x & Hx & Ex)]; [left; exact H|right; exists e; split; [left; reflexivity|exact H]|right; exists x; split; [right; exact Hx|exact Ex]]|].
      intros [H|(x & [<-|Hx] & Ex)]; [left; left; exact H|left; right; exact Ex|right; exists x; split; [exact Hx|exact Ex]].
    + rewrite I4, G4. clear. split; [intros [[H|H]|(x & Hx & Ex)]; [left; exact H|right; exists e; split; [left; reflexivity|exact H]|right; exists x; split; [right; exact Hx|exact Ex]]|].
      intros [H|(x & [<-|Hx] & Ex)]; [left; left; exact H|left; right; exact Ex|right; exists x; split; [exact Hx|exact Ex]].
Qed.

Lemma find_spec c1 c2 rs : c1 <> c2 -> forall ends, is_end c1 (fst ends) -> is_end c2 (snd ends) -> fst ends = None \/ snd ends = None ->
  match find_ends C c1 c2 ends rs with
  | Ok (e1, e2) => red C (e_comp e1) = c1 /\ red C (e_comp e2) = c2
  | Err x => x = ValueError
      /\ ~ ((fst ends <> None \/ exists r e, In r rs /\ In e (used_entries r) /\ red C (e_comp e) = c1)
          /\ (snd ends <> None \/ exists r e, In r rs /\ In e (used_entries r) /\ red C (e_comp e) = c2))
  end.
Proof.
  intros Hne. induction rs as [|r rs IH]; intros ends H1 H2 H0; cbn [find_ends].
  - split; [reflexivity|]. intros [[Ha|(? & ? & [] & _)] [Hb|(? & ? & [] & _)]]. destruct H0; contradiction.
  - destruct (look_spec c1 c2 (used_entries r) Hne ends H1 H2) as (I1 & I2 & I3 & I4). cbv zeta in *.
    destruct (fold_left (look_at C c1 c2) (used_entries r) ends) as [o1 o2]. cbn [fst snd] in *.
    assert (Step : o1 = None \/ o2 = None -> match find_ends C c1 c2 (o1, o2) rs with
      | Ok (e1, e2) => red C (e_comp e1) = c1 /\ red C (e_comp e2) = c2
      | Err x => x = ValueError
          /\ ~ ((fst ends <> None \/ exists r' e, In r' (r :: rs) /\ In e (used_entries r') /\ red C (e_comp e) = c1)
              /\ (snd ends <> None \/ exists r' e, In r' (r :: rs) /\ In e (used_entries r') /\ red C (e_comp e) = c2)) end).
    { intros Hn. specialize (IH (o1, o2) I1 I2 Hn). cbn [fst snd] in IH.
      destruct (find_ends C c1 c2 (o1, o2) rs) as [[e1 e2]|x]; [exact IH|]. destruct IH as [-> IH]. split; [reflexivity|]. intros [Ha Hb]. apply IH. split.
      - destruct Ha as [Ha|(r' & e & [<-|Hr'] & He & Ee)]; [left; apply I3; tauto|left; apply I3; right; exists e; tauto|right; exists r', e; tauto].
      - destruct Hb as [Hb|(r' & e & [<-|Hr'] & He & Ee)]; [left; apply I4; tauto|left; apply I4; right; exists e; tauto|right; exists r', e; tauto]. }
    destruct o1 as [e1|], o2 as [e2|]; [split; [apply I1|apply I2]; reflexivity|apply Step; tauto..].
Qed.

Lemma find_same c rs : forall o, find_ends C c c (o, None) rs = Err ValueError.
Proof.
  induction rs as [|r rs IH]; intros o; [reflexivity|]. cbn [find_ends].
  assert (G : forall l o, exists o', fold_left (look_at C c c) l (o, None) = (o', None)).
  { induction l as [|e l IHl]; intros o'; [exists o'; reflexivity|]. cbn [fold_left]. unfold look_at at 2. destruct (Nat.eqb (red C (e_comp e)) c); cbn [fst snd]; apply IHl. }
  destruct (G (used_entries r) o) as [o' ->]. destruct o'; apply IH.
Qed.

(* --- e -> e --- *)
Section Ends.
Variable lsq : list nat -> list nat -> list nat -> list Q.
Variable rank : list nat -> list nat -> nat.
Hypothesis Hlsq : forall c, lsq [c] [c] [1] = [-1; 1]%Q.

Lemma end_spec e : elems C (red C (e_comp e)) <> [] -> exists r, end_reaction C lsq rank e = Ok r /\ nothing_happens C (red C (e_comp e)) r.
Proof.
  intros Hel. set (c := red C (e_comp e)) in *. exists (RComputed (computed_init C [e; e] [-1; 1]%Q (Some 0))). split.
  - unfold end_reaction, computed_balance. cbn [map length]. fold c.
    assert (Hbal : balance_coeffs C [c] [c] (lsq [c] [c]) (rank [c] [c]) = ([-1; 1]%Q, Some 0)).
    { unfold balance_coeffs. cbn [length].
      assert (Hcl : exists rest, constraint_list 1 1 (rank [c] [c]) = [1] :: rest).
      { unfold constraint_list, num_constraints. destruct (rank [c] [c]) as [|[|k]]; cbn; eexists; reflexivity. }
      destruct Hcl as [rest ->]. cbn [balance_loop]. rewrite Hlsq.
      assert (Hcc : candidate_conserves C ([c] ++ [c]) [-1; 1]%Q = true).
      { unfold candidate_conserves. apply forallb_forall. intros x _. cbn [app combine map Qsum fold_right fst snd].
        rewrite (isclose_comp _ 0 0 0); [reflexivity|ring|reflexivity]. }
      rewrite Hcc. reflexivity. }
    rewrite Hbal. reflexivity.
  - unfold nothing_happens. cbn [base_of]. unfold computed_init. cbn [c_base comps coeffs basic_init map]. fold c.
    split; [reflexivity|]. split; [reflexivity|].
    set (b := basic_init C [c; c] [-1; 1]%Q None (Some 0)).
    assert (HN : (0 < num_atoms C b)%Q).
    { unfold num_atoms, num_atoms_of. change (product_coeffs b) with [(c, 1%Q)]. cbn [map Qsum fold_right fst snd]. rewrite Qsum_map.
      change (sumQ (amt C c) (elements C b)) with (atoms C (elements C b) c).
      rewrite <- (atoms_superset C W (elements C b) c); [|apply NoDup_nodup|].
      - pose proof (natoms_pos C W c Hel). lra.
      - intros x Hx. apply in_elements. exists c. split; [left; reflexivity|exact Hx]. }
    cbn [energy_per_atom]. unfold computed_energy_per_atom, computed_energy. cbn [c_entries c_base].
    change b with (basic_init C (map (fun e => red C (e_comp e)) [e; e]) [-1; 1]%Q None (Some 0)) at 1.
    rewrite energy_built. cbn [bind]. unfold per_atom.
    destruct (Qeq_bool (num_atoms C b) 0) eqn:E; [apply Qeq_bool_iff in E; lra|]. eexists. split; [reflexivity|].
    cbn [map combine]. unfold sumQ. cbn [fold_right fst snd]. field. lra.
Qed.
End Ends.

(* --- the constructor --- *)
Lemma mapM_index {A} (l : list A) (d : A) idx : (forall i, In i idx -> i < length l) -> mapM (index l) idx = Ok (map (fun i => nth i l d) idx).
Proof.
  intros H. apply (RxnSetBaseProofs.mapM_ok _ (fun i => nth i l d)). intros i Hi. unfold index.
  rewrite (nth_error_nth' l d) by (apply H, Hi). reflexivity.
Qed.
Lemma picked {A} (l : list A) d idx : Permutation idx (seq 0 (length l)) -> Permutation (map (fun i => nth i l d) idx) l.
Proof.
  intros H. rewrite (Permutation_map _ H). assert (E : map (fun i => nth i l d) (seq 0 (length l)) = l); [|rewrite E; apply Permutation_refl].
  clear. induction l as [|x l IH]; [reflexivity|]. cbn [length seq map nth]. f_equal. rewrite <- seq_shift, map_map. exact IH.
Qed.
Lemma combine_map2 {A B X} (f : X -> A) (g : X -> B) l : combine (map f l) (map g l) = map (fun x => (f x, g x)) l.
Proof. induction l as [|x l IH]; [reflexivity|]. cbn. f_equal. exact IH. Qed.
Lemma combine_app {A B} (a a' : list A) (b b' : list B) : length a = length b -> combine (a ++ a') (b ++ b') = combine a b ++ combine a' b'.
Proof. revert b. induction a as [|x a IH]; intros [|y b] H; try discriminate; [reflexivity|]. cbn. f_equal. apply IH. injection H as H. exact H. Qed.

Section Hull.
Variable round12 : Q -> Q.
Hypothesis R12 : rounds12 round12.
Variable argsort : list Q -> list nat.
Hypothesis Hsort : sorts argsort.
Variable convex_hull : list coord -> result (list nat).
Variable lsq : list nat -> list nat -> list nat -> list Q.
Variable rank : list nat -> list nat -> nat.
Hypothesis Hlsq : forall c, lsq [c] [c] [1] = [-1; 1]%Q.
Variables comp1 comp2 : nat.
Let c1 := red C comp1.
Let c2 := red C comp2.
Variable rs : list rxn.
Hypothesis Hrs : forall r, In r rs -> proper C r /\ (0 < takes C r c1 + takes C r c2)%Q.

Definition exact_point (r : rxn) (p : Q * Q) : Prop :=
  point_of C c1 c2 r p /\ get_coordinate C round12 c1 c2 r = Ok (fst p).

Lemma points : exists pts, mapM (fun r => bind (get_coordinate C round12 c1 c2 r) (fun x => bind (energy_per_atom C r) (fun y => Ok (x, y)))) rs = Ok pts
  /\ Forall2 exact_point rs pts.
Proof.
  induction rs as [|r l IH]; [exists []; split; [reflexivity|constructor]|].
  destruct IH as (pts & E & F); [intros r' Hr'; apply Hrs; right; exact Hr'|].
  destruct (Hrs r (or_introl eq_refl)) as [Hp Ht]. destruct (coordinate_spec round12 R12 r c1 c2 Hp Ht) as (x & Ex & Hx & Hx01).
  destruct (energy_ok r c1 c2 Hp Ht) as [y Ey]. exists ((x, y) :: pts). split.
  - cbn [mapM]. rewrite Ex. cbn [bind]. rewrite Ey. cbn [bind]. rewrite E. reflexivity.
  - constructor; [|exact F]. split; [split; [exact Hx|split; [exact Hx01|exact Ey]]|exact Ex].
Qed.

Hypothesis Hne : c1 <> c2.
Hypothesis He1 : elems C c1 <> [].
Hypothesis He2 : elems C c2 <> [].
Hypothesis H1 : exists r, In r rs /\ consumes r c1.
Hypothesis H2 : exists r, In r rs /\ consumes r c2.

Lemma build_exact : exists pts e1 e2 R cs, Forall2 exact_point rs pts /\ nothing_happens C c1 e1 /\ nothing_happens C c2 e2
  /\ length R = length cs /\ Permutation (combine R cs) (combine rs pts ++ [(e1, (0, 0)); (e2, (1, 0))]%Q) /\ sorted_by_x cs
  /\ build C round12 argsort convex_hull lsq rank comp1 comp2 rs
     = bind (convex_hull cs) (fun vs => Ok {| i_c1 := c1; i_c2 := c2; i_reactions := R; i_hull := {| coords := cs; qhull := vs |} |}).
Proof.
  destruct points as (pts & Epts & Fpts).
  assert (Hends : exists x1 x2, find_ends C c1 c2 (None, None) rs = Ok (x1, x2) /\ red C (e_comp x1) = c1 /\ red C (e_comp x2) = c2).
  { pose proof (find_spec c1 c2 rs Hne (None, None)) as F. cbn [fst snd] in F.
    assert (I : forall c, is_end c None) by (intros c e H; discriminate). specialize (F (I c1) (I c2) (or_introl eq_refl)).
    destruct (find_ends C c1 c2 (None, None) rs) as [[x1 x2]|err]; [exists x1, x2; tauto|]. exfalso. destruct F as [_ F]. apply F. split; right.
    - destruct H1 as (r & Hr & Hc). apply (used_iff r c1 (proj1 (Hrs r Hr))) in Hc as (e & He & Ee). exists r, e. tauto.
    - destruct H2 as (r & Hr & Hc). apply (used_iff r c2 (proj1 (Hrs r Hr))) in Hc as (e & He & Ee). exists r, e. tauto. }
  destruct Hends as (x1 & x2 & Ef & Ex1 & Ex2).
  destruct (end_spec lsq rank Hlsq x1) as (e1 & Ee1 & N1); [rewrite Ex1; exact He1|].
  destruct (end_spec lsq rank Hlsq x2) as (e2 & Ee2 & N2); [rewrite Ex2; exact He2|].
  rewrite Ex1 in N1. rewrite Ex2 in N2.
  set (P := pts ++ [(0, 0); (1, 0)]%Q). set (A := rs ++ [e1; e2]). set (idx := argsort (map fst P)).
  assert (Hlen : length A = length P) by (unfold A, P; rewrite !app_length, (Forall2_length _ _ _ Fpts); reflexivity).
  destruct (Hsort (map fst P)) as [Hperm Hord]. rewrite map_length in Hperm. fold idx in Hperm, Hord.
  assert (Hin : forall i, In i idx -> i < length P) by (intros i Hi; apply (Permutation_in _ Hperm), in_seq in Hi; lia).
  exists pts, e1, e2, (map (fun i => nth i A e1) idx), (map (fun i => nth i P (0, 0)%Q) idx).
  split; [exact Fpts|]. split; [exact N1|]. split; [exact N2|]. split; [rewrite !map_length; reflexivity|]. split; [|split].
  - rewrite combine_map2.
    assert (E : map (fun i => (nth i A e1, nth i P (0, 0)%Q)) idx = map (fun i => nth i (combine A P) (e1, (0, 0)%Q)) idx).
    { apply map_ext. intros i. symmetry. apply combine_nth. exact Hlen. }
    rewrite E. assert (Hc : combine A P = combine rs pts ++ [(e1, (0, 0)); (e2, (1, 0))]%Q).
    { unfold A, P. rewrite combine_app by (apply (Forall2_length _ _ _ Fpts)). reflexivity. }
    rewrite <- Hc. apply picked. rewrite combine_length, Hlen, Nat.min_id. exact Hperm.
  - intros i j p q Hij Hi Hj. rewrite nth_error_map in Hi, Hj. destruct (nth_error idx i) as [a|] eqn:Ea; [|discriminate]. destruct (nth_error idx j) as [b|] eqn:Eb; [|discriminate].
    injection Hi as <-. injection Hj as <-. apply (Hord i j a b); [exact Hij|exact Ea|exact Eb| |];
      rewrite nth_error_map, (nth_error_nth' P (0, 0)%Q) by (apply Hin; eapply nth_error_In; eassumption); reflexivity.
  - unfold build. fold c1 c2. rewrite Ef. cbn [bind fst snd]. rewrite Ee1. cbn [bind]. rewrite Ee2. cbn [bind].
    rewrite Epts. cbn [bind]. fold P idx A. rewrite (mapM_index P (0, 0)%Q idx Hin). cbn [bind].
    rewrite (mapM_index A e1 idx) by (intros i Hi; rewrite Hlen; apply Hin, Hi). cbn [bind]. reflexivity.
Qed.

Theorem build_spec : exists pts e1 e2 R cs, Forall2 (point_of C c1 c2) rs pts /\ nothing_happens C c1 e1 /\ nothing_happens C c2 e2
  /\ length R = length cs /\ Permutation (combine R cs) (combine rs pts ++ [(e1, (0, 0)); (e2, (1, 0))]%Q) /\ sorted_by_x cs
  /\ build C round12 argsort convex_hull lsq rank comp1 comp2 rs
     = bind (convex_hull cs) (fun vs => Ok {| i_c1 := c1; i_c2 := c2; i_reactions := R; i_hull := {| coords := cs; qhull := vs |} |}).
Proof.
  destruct build_exact as (pts & e1 & e2 & R & cs & F & H). exists pts, e1, e2, R, cs. split; [|exact H].
  eapply Forall2_impl; [|exact F]. intros r p [Hp _]. exact Hp.
Qed.

(* --- the scores of a reaction --- *)
Variable req : rxn -> rxn -> bool.
Theorem scores h : build C round12 argsort convex_hull lsq rank comp1 comp2 rs = Ok h ->
  exists pts, Forall2 (point_of C c1 c2) rs pts /\ forall r p, In (r, p) (combine rs pts) ->
  (exists s m, primary C round12 h r = Ok s /\ (s == snd p - m)%Q /\ (m <= 0)%Q
     /\ ((m == 0)%Q \/ exists r' p', In (r', p') (combine rs pts) /\ ~ (fst p' == fst p)%Q /\ m = snd p')
     /\ forall r' p', In (r', p') (combine rs pts) -> ~ (fst p' == fst p)%Q -> (m <= snd p')%Q)
  /\ forall chain, correct_hull (coords (i_hull h)) (qhull (i_hull h)) chain -> exact_coordinate (coords (i_hull h)) chain (fst p) ->
     req r r = true -> (forall r' p', In (r', p') (combine (i_reactions h) (coords (i_hull h))) -> req r' r = true -> p' = p) ->
     exists d e, above_hull req h r = Ok d /\ envelope (coords (i_hull h)) (fst p) e /\ (d == snd p - e)%Q /\ (0 <= d)%Q
     /\ forall normalize recursive s, secondary C round12 req h r normalize false recursive = Ok s ->
        exists s', secondary C round12 req h r normalize true recursive = Ok s' /\ (s' == s + d)%Q.
Proof.
  intros Hb. destruct build_exact as (pts & e1 & e2 & R & cs & F & N1 & N2 & Hlen & Hperm & Hsorted & E). rewrite E in Hb.
  destruct (convex_hull cs) as [vs|err]; [|discriminate]. cbn [bind] in Hb. injection Hb as <-. cbn [i_hull i_reactions coords qhull].
  exists pts. split; [eapply Forall2_impl; [|exact F]; intros r p [Hp _]; exact Hp|].
  assert (Hcs : forall q, In q cs <-> In q pts \/ q = (0, 0)%Q \/ q = (1, 0)%Q).
  { intros q. assert (P : Permutation cs (pts ++ [(0, 0); (1, 0)]%Q)).
    { pose proof (Permutation_map snd Hperm) as P. rewrite combine_snd in P by exact Hlen. rewrite map_app, combine_snd in P by (apply (Forall2_length _ _ _ F)). exact P. }
    split; [intros H; apply (Permutation_in _ P) in H; apply in_app_iff in H; cbn in H; intuition congruence|].
    intros H. apply (Permutation_in _ (Permutation_sym P)), in_app_iff. cbn. intuition congruence. }
  assert (Hpr : forall r p, In (r, p) (combine rs pts) -> exact_point r p).
  { intros r p Hin. clear -F Hin. induction F as [|a b l l' Hab F IH]; [destruct Hin|]. destruct Hin as [E|Hin]; [injection E as <- <-; exact Hab|exact (IH Hin)]. }
  assert (Hpts : forall q, In q pts -> exists r, In (r, q) (combine rs pts)).
  { intros q Hq. clear -F Hq. induction F as [|a b l l' Hab F IH]; [destruct Hq|]. destruct Hq as [<-|Hq]; [exists a; left; reflexivity|].
    destruct (IH Hq) as [r Hr]. exists r. right. exact Hr. }
  intros r p Hin. destruct (Hpr r p Hin) as [(_ & H01 & Ey) Ex]. split.
  - unfold primary. cbn [i_c1 i_c2 i_hull]. rewrite Ey. cbn [bind]. rewrite Ex. cbn [bind].
    destruct (primary_spec {| coords := cs; qhull := vs |} (snd p) (fst p) (sorted_by_x_iff _ Hsorted)) as (s & m & Es & Ems & (q & Hq & Hqx & Eq) & Hmin).
    + exists p. split; [apply Hcs; left; apply in_combine_r in Hin; exact Hin|reflexivity].
    + destruct (Qeq_dec (fst p) 0) as [E0|E0].
      * exists (1, 0)%Q. split; [apply Hcs; tauto|]. cbn [fst]. rewrite E0. discriminate.
      * exists (0, 0)%Q. split; [apply Hcs; tauto|]. cbn [fst]. intros H. apply E0. symmetry. exact H.
    + cbn [coords] in *. exists s, m. split; [exact Es|]. split; [exact Ems|]. split; [|split].
      * destruct (Qeq_dec (fst p) 0) as [E0|E0].
        -- apply (Hmin (1, 0)%Q); [apply Hcs; tauto|]. cbn [fst]. rewrite E0. discriminate.
        -- apply (Hmin (0, 0)%Q); [apply Hcs; tauto|]. cbn [fst]. intros H. apply E0. symmetry. exact H.
      * apply Hcs in Hq as [Hq|[->| ->]]; [|left; rewrite <- Eq; reflexivity..]. right. destruct (Hpts q Hq) as [r' Hr']. exists r', q. split; [exact Hr'|]. split; [exact Hqx|]. symmetry. exact Eq.
      * intros r' p' Hin' Hx'. apply Hmin; [apply Hcs; left; apply in_combine_r in Hin'; exact Hin'|exact Hx'].
  - intros chain Hch Hex Hrr Hreq.
    assert (Hpos : exists i, position req r R = Ok i /\ nth_error cs i = Some p).
    { assert (Hr : exists p', In (r, p') (combine R cs)) by (exists p; apply (Permutation_in _ (Permutation_sym Hperm)), in_app_iff; left; exact Hin).
      clear -Hreq Hrr Hr Hlen. revert cs Hreq Hr Hlen. induction R as [|a R IH]; intros [|q cs] Hreq [p' Hr] Hlen; try discriminate; [destruct Hr|].
      cbn [position]. destruct (req a r) eqn:E.
      - exists 0. split; [reflexivity|]. cbn. f_equal. apply (Hreq a q); [left; reflexivity|exact E].
      - destruct (IH cs) as (i & Ei & Hi); [intros r' q' Hin'; apply (Hreq r' q'); right; exact Hin'| |injection Hlen as Hlen; exact Hlen|].
        + destruct Hr as [Eq|Hr]; [injection Eq as -> ->; congruence|exists p'; exact Hr].
        + exists (S i). split; [rewrite Ei; reflexivity|exact Hi]. }
    destruct Hpos as (i & Ei & Hi).
    destruct (hull_energy_spec {| coords := cs; qhull := vs |} chain Hch (fst p) H01 Hex) as (e & Ee & _ & Henv).
    destruct (energy_above_hull_spec {| coords := cs; qhull := vs |} chain Hch i p Hi H01 Hex) as (d & Ed & Hd & _).
    assert (Hde : d = (snd p - e)%Q).
    { unfold get_energy_above_hull in Ed. cbn [coords] in Ed. rewrite Hi in Ed. destruct p as [x y]. cbn [fst snd] in *. rewrite Ee in Ed. congruence. }
    exists d, e. unfold above_hull. cbn [i_reactions i_hull]. rewrite Ei. cbn [bind]. split; [exact Ed|]. split; [exact Henv|]. split; [rewrite Hde; reflexivity|]. split; [exact Hd|].
    intros normalize recursive s Hs. unfold secondary in *. cbn [i_c1 i_c2 i_hull] in *. rewrite Ex in *. cbn [bind] in *.
    destruct (get_secondary_competition {| coords := cs; qhull := vs |} (fst p) normalize recursive) as [s0|]; [|discriminate]. cbn [bind] in *. injection Hs as ->.
    unfold above_hull. cbn [i_reactions i_hull]. rewrite Ei. cbn [bind]. rewrite Ed. cbn [bind]. eexists. split; [reflexivity|]. ring.
Qed.

(* --- stable reactions --- *)
Theorem stable_spec h : build C round12 argsort convex_hull lsq rank comp1 comp2 rs = Ok h ->
  Permutation (stable_reactions h ++ unstable_reactions h) (i_reactions h)
  /\ forall chain, correct_hull (coords (i_hull h)) (qhull (i_hull h)) chain ->
     forall r, In r (stable_reactions h) <-> exists i, In i chain /\ nth_error (i_reactions h) i = Some r.
Proof.
  intros _. split.
  - unfold stable_reactions, unstable_reactions. rewrite <- map_app.
    assert (G : forall (f : nat * rxn -> bool) l, Permutation (filter f l ++ filter (fun x => negb (f x)) l) l).
    { intros f l. induction l as [|x l IH]; [constructor|]. cbn. destruct (f x); cbn; [constructor; exact IH|].
      eapply Permutation_trans; [apply Permutation_sym, Permutation_middle|]. constructor. exact IH. }
    rewrite (Permutation_map snd (G _ _)). unfold numbered. rewrite combine_snd by (apply seq_length). apply Permutation_refl.
  - intros chain Hch r.
    assert (G : forall (l : list rxn) s i, In (i, r) (combine (seq s (length l)) l) <-> exists j, i = s + j /\ nth_error l j = Some r).
    { induction l as [|x l IH]; intros s i; cbn [length seq combine]; [split; [intros []|intros ([|j] & _ & H); discriminate]|]. split.
      - intros [E|Hin]; [injection E as <- ->; exists 0; split; [lia|reflexivity]|]. apply IH in Hin as (j & -> & Hj). exists (S j). split; [lia|exact Hj].
      - intros ([|j] & -> & Hj); [injection Hj as ->; left; f_equal; lia|]. right. apply IH. exists j. split; [lia|exact Hj]. }
    unfold stable_reactions. rewrite in_map_iff. split.
    + intros ([i r'] & E & Hin). cbn [snd] in E. subst r'. apply filter_In in Hin as [Hin Hv]. cbn [fst] in Hv. apply memb_iff in Hv.
      rewrite (hull_vertices_perm _ _ Hch) in Hv. apply G in Hin as (j & -> & Hj). exists j. split; [exact Hv|exact Hj].
    + intros (i & Hc & Hi). exists (i, r). split; [reflexivity|]. apply filter_In. split; [apply G; exists i; split; [reflexivity|exact Hi]|].
      cbn [fst]. apply memb_iff. rewrite (hull_vertices_perm _ _ Hch). exact Hc.
Qed.
End Hull.

(* --- failures --- *)
Theorem build_fails round12 argsort convex_hull lsq rank comp1 comp2 rs : let c1 := red C comp1 in let c2 := red C comp2 in
  (forall r, In r rs -> proper C r) -> c1 = c2 \/ (forall r, In r rs -> ~ consumes r c1) \/ (forall r, In r rs -> ~ consumes r c2) ->
  build C round12 argsort convex_hull lsq rank comp1 comp2 rs = Err ValueError.
Proof.
  intros c1 c2 Hp H. unfold build. fold c1 c2.
  assert (E : find_ends C c1 c2 (None, None) rs = Err ValueError); [|rewrite E; reflexivity].
  destruct (Nat.eq_dec c1 c2) as [Eq|Hne]; [rewrite <- Eq; apply find_same|]. destruct H as [H|H]; [contradiction|].
  pose proof (find_spec c1 c2 rs Hne (None, None)) as F. cbn [fst snd] in F.
  assert (I : forall c, is_end c None) by (intros c e He; discriminate). specialize (F (I c1) (I c2) (or_introl eq_refl)).
  destruct (find_ends C c1 c2 (None, None) rs) as [[x1 x2]|err] eqn:Ef; [|f_equal; apply F]. exfalso.
  assert (G : forall rs ends, find_ends C c1 c2 ends rs = Ok (x1, x2) -> is_end c1 (fst ends) -> is_end c2 (snd ends) ->
     (fst ends <> None \/ exists r, In r rs /\ exists e, In e (used_entries r) /\ red C (e_comp e) = c1)
     /\ (snd ends <> None \/ exists r, In r rs /\ exists e, In e (used_entries r) /\ red C (e_comp e) = c2)).
  { clear -Hne. induction rs as [|r l IH]; intros ends Hf H1 H2; [discriminate|]. cbn [find_ends] in Hf.
    destruct (look_spec c1 c2 (used_entries r) Hne ends H1 H2) as (I1 & I2 & I3 & I4). cbv zeta in *.
    destruct (fold_left (look_at C c1 c2) (used_entries r) ends) as [o1 o2]. cbn [fst snd] in *.
    assert (Step : (o1 <> None \/ exists r', In r' l /\ exists e, In e (used_entries r') /\ red C (e_comp e) = c1)
       /\ (o2 <> None \/ exists r', In r' l /\ exists e, In e (used_entries r') /\ red C (e_comp e) = c2)).
    { destruct o1 as [a|], o2 as [b|]; [split; left; discriminate|apply (IH _ Hf I1 I2)..]. }
    destruct Step as [S1 S2]. split.
    - destruct S1 as [S1|(r' & Hr' & He)]; [|right; exists r'; split; [right; exact Hr'|exact He]]. apply I3 in S1 as [S1|S1]; [left; exact S1|].
      right. exists r. split; [left; reflexivity|exact S1].
    - destruct S2 as [S2|(r' & Hr' & He)]; [|right; exists r'; split; [right; exact Hr'|exact He]]. apply I4 in S2 as [S2|S2]; [left; exact S2|].
      right. exists r. split; [left; reflexivity|exact S2]. }
  destruct (G rs (None, None) Ef (I c1) (I c2)) as [[G1|(r1 & Hr1 & Ge1)] [G2|(r2 & Hr2 & Ge2)]]; try (cbn in *; congruence).
  destruct H as [H|H]; [apply (H r1 Hr1); apply used_iff; [apply Hp, Hr1|exact Ge1]|apply (H r2 Hr2); apply used_iff; [apply Hp, Hr2|exact Ge2]].
Qed.

Theorem build_foreign round12 argsort convex_hull lsq rank comp1 comp2 rs r : let c1 := red C comp1 in let c2 := red C comp2 in
  In r rs -> proper C r -> (exists c, 0 < takes C r c)%Q -> ~ consumes r c1 -> ~ consumes r c2 ->
  forall h, build C round12 argsort convex_hull lsq rank comp1 comp2 rs <> Ok h.
Proof.
  intros c1 c2 Hin Hp Hc Hn1 Hn2 h Hb. unfold build in Hb. fold c1 c2 in Hb.
  destruct (find_ends C c1 c2 (None, None) rs) as [ends|]; [|discriminate]. cbn [bind] in Hb.
  destruct (end_reaction C lsq rank (fst ends)) as [r1|]; [|discriminate]. cbn [bind] in Hb.
  destruct (end_reaction C lsq rank (snd ends)) as [r2|]; [|discriminate]. cbn [bind] in Hb.
  destruct (RxnSetBaseProofs.mapM_fails (fun r => bind (get_coordinate C round12 c1 c2 r) (fun x => bind (energy_per_atom C r) (fun y => Ok (x, y)))) rs r ValueError Hin) as [e Ee].
  - rewrite (coordinate_none round12 r c1 c2 Hp Hc Hn1 Hn2). reflexivity.
  - rewrite Ee in Hb. discriminate.
Qed.
End Irh.
