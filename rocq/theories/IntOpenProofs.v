(* Looking for reactions between the intermediates when an element is open. *)
From Coq Require Import Lqa.
From Verif Require Import Prelude NumQ SumQ ListFacts UtilsModel UtilsSpec UtilsProofs ReactionModel ReactionSpec ReactionBaseProofs ReactionOpsProofs ReactionLawProofs RxnSetModel RxnSetSpec RxnSetBaseProofs PathModel SolverModel SolverSpec SolverInterProofs
  SolveJobModel SolveJobSpec EnumModel EnumSpec EnumProofs EnumLinkModel LinModel LinSpec LinProofs LinBalanceProofs CoefProofs FreeSpec FreeProofs NetJobSpec ChainSpec ChainFindSpec ChainFindProofs
  MinModel MinSpec JoinModel JoinSpec JoinProofs JoinOpenSpec JoinOpenProofs FreeJoinProofs MinJoinModel MinJoinSpec MinJoinProofs IntModel IntSpec IntProofs IntMinModel IntMinSpec IntMinProofs IntOpenModel IntOpenSpec.
From Verif Require NetJobProofs ProcessProofs.
Open Scope nat_scope.

(* --- grand potentials --- *)
Section Energy.
Variable C : chem.
Hypothesis W : wf_chem C.
Variable el : nat.
Variable mu : Q.
Notation open_rxn es ks := {| o_base := computed_init C es ks None; chempots := [(el, mu)] |}.

Lemma potential_is e : (grand_energy C [(el, mu)] e == potential C el mu e)%Q.
Proof.
  unfold grand_energy, potential, is_pure_open. rewrite (wf_red_elems C W). cbn [map fst snd Qsum fold_right].
  destruct (list_eq_dec Nat.eq_dec (ReactionModel.elems C (e_comp e)) [el]) as [E|E].
  - rewrite E. cbn. rewrite Nat.eqb_refl. reflexivity.
  - destruct (ReactionModel.elems C (e_comp e)) as [|x [|y l]]; [ring| |ring]. cbn. destruct (Nat.eqb x el) eqn:Ex; [apply Nat.eqb_eq in Ex; subst x; contradiction|]. cbn. ring.
Qed.
Notation others c := (natoms C c - amt C c el)%Q.
Lemma atoms_others els c : NoDup els -> incl (ReactionModel.elems C c) els -> (atoms C (filter (fun x => negb (memb Nat.eqb x [el])) els) c == others c)%Q.
Proof.
  intros N I. rewrite <- (atoms_all C W els c N I). unfold atoms. rewrite sumQ_filter.
  assert (H : (sumQ (amt C c) els == sumQ (fun x => ind (negb (memb Nat.eqb x [el])) * amt C c x) els + amt C c el)%Q); [|rewrite H; ring].
  assert (Z : ~ In el els -> (amt C c el == 0)%Q) by (intros H; apply (wf_zero C W); intros J; exact (H (I el J))). clear I. revert Z. induction N as [|x l Hx N IH]; intros Z.
  - cbn. rewrite Z by (intros []). reflexivity.
  - rewrite !sumQ_cons. destruct (Nat.eq_dec x el) as [->|Ne].
    + assert (E : (sumQ (fun y => ind (negb (memb Nat.eqb y [el])) * amt C c y) l == sumQ (amt C c) l)%Q).
      { apply sumQ_ext. intros y Iy. cbn. destruct (Nat.eqb y el) eqn:Ey; [apply Nat.eqb_eq in Ey; subst y; contradiction|]. cbn. unfold ind. ring. }
      rewrite E. cbn [memb existsb]. rewrite Nat.eqb_refl. cbn. unfold ind. ring.
    + rewrite IH by (intros H; apply Z; intros [J|J]; [exact (Ne J)|exact (H J)]). cbn. destruct (Nat.eqb x el) eqn:Ey; [apply Nat.eqb_eq in Ey; contradiction|]. cbn. unfold ind. ring.
Qed.
Lemma others_nonneg c : (0 <= others c)%Q.
Proof. rewrite <- (atoms_others (ReactionModel.elems C c) c (wf_nodup C W c) (incl_refl _)). unfold atoms. apply sumQ_nonneg. intros x I. apply filter_In in I as [I _]. apply Qlt_le_weak, (wf_pos C W). exact I. Qed.
Lemma others_pos c x : In x (ReactionModel.elems C c) -> x <> el -> (0 < others c)%Q.
Proof.
  intros I Ne. rewrite <- (atoms_others (ReactionModel.elems C c) c (wf_nodup C W c) (incl_refl _)). unfold atoms. set (l := filter _ _). assert (Il : In x l). { apply filter_In. split; [exact I|]. cbn. destruct (Nat.eqb x el) eqn:E; [apply Nat.eqb_eq in E; contradiction|reflexivity]. }
  assert (Hp : forall y, In y l -> (0 < amt C c y)%Q) by (intros y Iy; apply filter_In in Iy as [Iy _]; apply (wf_pos C W); exact Iy).
  apply in_split in Il as (l1 & l2 & E). rewrite E in *. rewrite sumQ_app, sumQ_cons. pose proof (Hp x ltac:(apply in_elt)).
  assert (0 <= sumQ (amt C c) l1)%Q by (apply sumQ_nonneg; intros y Iy; apply Qlt_le_weak, Hp, in_or_app; left; exact Iy). assert (0 <= sumQ (amt C c) l2)%Q by (apply sumQ_nonneg; intros y Iy; apply Qlt_le_weak, Hp, in_or_app; right; right; exact Iy). lra.
Qed.

Definition makes_other (es : list entry) (ks : list Q) : Prop := exists e k x, In (e, k) (combine es ks) /\ (0 < k)%Q /\ In x (ReactionModel.elems C (e_comp e)) /\ x <> el.

Lemma other_atoms es ks : makes_other es ks -> (0 < open_num_atoms C (open_rxn es ks))%Q.
Proof.
  intros (e & k & x & Iek & Pk & Ix & Nx). set (b := c_base (computed_init C es ks None)). set (l := filter (fun kv => Qlt_bool 0 (snd kv)) (combine (map (fun e => red C (e_comp e)) es) ks)).
  assert (Ep : product_coeffs b = dict_of l) by reflexivity. destruct (dict_of_keys l) as (_ & Hkeys & Hin). set (els := filter (fun y => negb (memb Nat.eqb y [el])) (elements C b)).
  assert (At : forall c q, In (c, q) (dict_of l) -> (0 < q)%Q /\ (Qsum (map (amt C c) els) == others c)%Q).
  { intros c q I. apply Hin in I. unfold l in I. apply filter_In in I as [I Q0]. cbn [snd] in Q0. apply Qlt_bool_iff' in Q0. apply in_combine_l in I. split; [exact Q0|]. rewrite Qsum_map. apply atoms_others; [apply NoDup_nodup|]. intros a Ia. apply in_elements. exists c. split; [exact I|exact Ia]. }
  assert (Some_one : exists q, In (red C (e_comp e), q) (dict_of l)).
  { assert (Il : In (red C (e_comp e), k) l). { unfold l. apply filter_In. split; [|apply Qlt_bool_iff'; exact Pk]. rewrite combine_map_l. apply in_map_iff. exists (e, k). split; [reflexivity|exact Iek]. }
    assert (Ic : In (red C (e_comp e)) (map fst (dict_of l))) by (apply Hkeys, in_map_iff; eexists; split; [|exact Il]; reflexivity). apply in_map_iff in Ic as ([c q] & E & Ic). cbn in E. subst c. exists q. exact Ic. }
  change (0 < num_atoms_of C els b)%Q. unfold num_atoms_of. rewrite Qsum_map, Ep. destruct Some_one as (q & I). pose proof (At _ _ I) as (Pq & Eq). apply in_split in I as (l1 & l2 & E). rewrite E in *. rewrite sumQ_app, sumQ_cons. cbn [fst snd].
  assert (P0 : (0 < q * Qsum (map (amt C (red C (e_comp e))) els))%Q). { rewrite Eq. apply Qmult_lt_0_compat; [exact Pq|]. apply (others_pos _ x); [|exact Nx]. rewrite (wf_red_elems C W). exact Ix. }
  assert (Pos : forall cq, In cq (l1 ++ (red C (e_comp e), q) :: l2) -> (0 <= snd cq * Qsum (map (amt C (fst cq)) els))%Q).
  { intros [c q'] Ic. destruct (At c q' Ic) as (Pq' & Eq'). cbn [fst snd]. rewrite Eq'. apply Qmult_le_0_compat; [lra|apply others_nonneg]. }
  assert (P1 : (0 <= sumQ (fun kv => snd kv * Qsum (map (amt C (fst kv)) els)) l1)%Q) by (apply sumQ_nonneg; intros y Iy; apply Pos, in_or_app; left; exact Iy).
  assert (P2 : (0 <= sumQ (fun kv => snd kv * Qsum (map (amt C (fst kv)) els)) l2)%Q) by (apply sumQ_nonneg; intros y Iy; apply Pos, in_or_app; right; right; exact Iy).
  lra.
Qed.
Lemma open_some es ks : makes_other es ks -> exists v, open_energy_per_atom C (open_rxn es ks) = Ok v.
Proof.
  intros H. unfold open_energy_per_atom, open_energy. cbn [o_base chempots]. unfold computed_init at 1 2. cbn [c_entries c_base]. rewrite energy_built. cbn [bind]. unfold per_atom. pose proof (other_atoms es ks H) as P.
  replace (Qeq_bool (open_num_atoms C (open_rxn es ks)) 0) with false; [eexists; reflexivity|]. symmetry. apply not_true_iff_false. intros E. apply Qeq_bool_iff in E. rewrite E in P. lra.
Qed.

Lemma open_value es ks : NoDup (map (fun e => red C (e_comp e)) es) -> length es = length ks -> makes_other es ks ->
  exists v, open_energy_per_atom C (open_rxn es ks) = Ok v /\ (0 < others_made C el (combine es ks))%Q /\ (v == grand_heat C el mu (combine es ks) / others_made C el (combine es ks))%Q.
Proof.
  intros N L H. pose proof (other_atoms es ks H) as P. set (f := fun e => red C (e_comp e)) in *.
  assert (Hn : (open_num_atoms C (open_rxn es ks) == others_made C el (combine es ks))%Q).
  { set (b := c_base (computed_init C es ks None)). change (open_num_atoms C (open_rxn es ks)) with (num_atoms_of C (filter (fun y => negb (memb Nat.eqb y [el])) (elements C b)) b). unfold b at 2, computed_init. cbn [c_base]. rewrite num_atoms_value; [|exact N|rewrite map_length; exact L].
    fold f. rewrite sumQ_filter, combine_map_l, sumQ_map. unfold others_made. apply sumQ_ext. intros [x k] I. cbn [fst snd]. pose proof (in_combine_l _ _ _ _ I) as Ix. rewrite atoms_others.
    - unfold f; destruct (Qlt_bool 0 k); unfold ind; ring.
    - apply NoDup_nodup.
    - intros a Ia. apply in_elements. exists (f x). split; [|exact Ia]. unfold b, computed_init. cbn [c_base comps basic_init]. apply in_map. exact Ix. }
  rewrite Hn in P. unfold open_energy_per_atom, open_energy. cbn [o_base chempots]. unfold computed_init at 1 2. cbn [c_entries c_base]. rewrite energy_built. cbn [bind]. unfold per_atom.
  replace (Qeq_bool (open_num_atoms C (open_rxn es ks)) 0) with false by (symmetry; apply not_true_iff_false; intros E; apply Qeq_bool_iff in E; rewrite Hn in E; lra).
  eexists. split; [reflexivity|]. split; [exact P|]. rewrite Hn.
  assert (Hh : (sumQ (fun kc => fst kc * val C (grand_energy C [(el, mu)]) es (snd kc)) (combine ks (map (fun e => red C (e_comp e)) es)) == grand_heat C el mu (combine es ks))%Q); [|rewrite Hh; reflexivity].
  fold f. rewrite <- (sumQ_map (fun kc => (snd kc, fst kc)) (fun ck => (snd ck * val C (grand_energy C [(el, mu)]) es (fst ck)))%Q), <- combine_swap, combine_map_l, sumQ_map. unfold grand_heat. apply sumQ_ext. intros [x k] I. cbn [fst snd]. pose proof (in_combine_l _ _ _ _ I) as Ix.
  destruct (value_lowest C (grand_energy C [(el, mu)]) es (f x)) as (_ & (y & Iy & Fy & Ey) & _); [apply in_map; exact Ix|]. assert (y = x) by (apply (mapped_once f es); assumption). subst y. unfold val. rewrite Ey, potential_is. reflexivity.
Qed.
Lemma grand_low_iff es ks v cutoff : (0 < others_made C el (combine es ks))%Q -> (v == grand_heat C el mu (combine es ks) / others_made C el (combine es ks))%Q -> ((v < cutoff)%Q <-> grand_low C el mu cutoff (combine es ks)).
Proof.
  intros P E. unfold grand_low. rewrite E. split; intros H.
  - apply (Qmult_lt_r _ _ _ P) in H. unfold Qdiv in H. rewrite <- Qmult_assoc, (Qmult_comm (/ _)), Qmult_inv_r, Qmult_1_r in H by lra. exact H.
  - apply (Qmult_lt_r _ _ _ P). unfold Qdiv. rewrite <- Qmult_assoc, (Qmult_comm (/ _)), Qmult_inv_r, Qmult_1_r by lra. exact H.
Qed.
Lemma grand_low_scaled ent cutoff l l' v w k : NoDup l -> Permutation l l' -> length v = length l -> length w = length l' -> (0 < k)%Q -> (forall i, (coef l' w i == k * coef l v i)%Q) ->
  grand_low C el mu cutoff (combine (map ent l) v) -> grand_low C el mu cutoff (combine (map ent l') w).
Proof.
  intros N P Lv Lw K H Low. pose proof (Permutation_NoDup P N) as N'.
  assert (Hh : (grand_heat C el mu (combine (map ent l') w) == k * grand_heat C el mu (combine (map ent l) v))%Q).
  { unfold grand_heat. rewrite !combine_map_l, !sumQ_map. cbn [fst snd]. set (G := fun (i : nat) (a : Q) => (a * (potential C el mu (ent i) / fac C (e_comp (ent i))))%Q).
    assert (PG : forall i a b, (a == b)%Q -> (G i a == G i b)%Q) by (intros i a b E; unfold G; rewrite E; reflexivity).
    change (sumQ (fun ik => G (fst ik) (snd ik)) (combine l' w) == k * sumQ (fun ik => G (fst ik) (snd ik)) (combine l v))%Q.
    rewrite (sum_coef_with G l' w PG N' Lw), (sum_coef_with G l v PG N Lv), <- (sumQ_perm _ _ _ P), <- sumQ_scale_l. apply sumQ_ext. intros i _. rewrite (PG i _ _ (H i)). unfold G. ring. }
  assert (Ha : (others_made C el (combine (map ent l') w) == k * others_made C el (combine (map ent l) v))%Q).
  { unfold others_made. rewrite !combine_map_l, !sumQ_map. cbn [fst snd]. set (G := fun (i : nat) (a : Q) => (if Qlt_bool 0 a then a * (natoms C (red C (e_comp (ent i))) - amt C (red C (e_comp (ent i))) el) else 0)%Q).
    assert (PG : forall i a b, (a == b)%Q -> (G i a == G i b)%Q) by (intros i a b E; unfold G; rewrite (Qlt_bool_comp a b 0 E); destruct (Qlt_bool 0 b); [rewrite E|]; reflexivity).
    change (sumQ (fun ik => G (fst ik) (snd ik)) (combine l' w) == k * sumQ (fun ik => G (fst ik) (snd ik)) (combine l v))%Q.
    rewrite (sum_coef_with G l' w PG N' Lw), (sum_coef_with G l v PG N Lv), <- (sumQ_perm _ _ _ P), <- sumQ_scale_l. apply sumQ_ext. intros i _. rewrite (PG i _ _ (H i)). unfold G.
    destruct (Qlt_bool 0 (k * coef l v i)) eqn:E1, (Qlt_bool 0 (coef l v i)) eqn:E2; try ring; exfalso.
    - apply Qlt_bool_iff' in E1. apply not_true_iff_false in E2. apply E2, Qlt_bool_iff'. nra.
    - apply Qlt_bool_iff' in E2. apply not_true_iff_false in E1. apply E1, Qlt_bool_iff'. apply Qmult_lt_0_compat; assumption. }
  unfold grand_low in *. rewrite Hh, Ha. assert (E : (cutoff * (k * others_made C el (combine (map ent l) v)) == k * (cutoff * others_made C el (combine (map ent l) v)))%Q) by ring. rewrite E. apply Qmult_lt_l; [exact K|exact Low].
Qed.
End Energy.

Section Main.
Variable C : chem.
Hypothesis W : wf_chem C.
Hypothesis Hbig : forall c e, In e (ReactionModel.elems C c) -> (1 # 100 < amt C (red C c) e)%Q.
Variable ents : list entry.
Hypothesis Hids : forall i e, nth_error ents i = Some e -> e_id e = i.
Hypothesis Hels : forall i e, nth_error ents i = Some e -> ReactionModel.elems C (e_comp e) <> [].
Variable rxns : list rxn.
Variable net0 : rxn.
Hypothesis Hnet : names_entries ents net0.
Hypothesis Hrxns : forall r, In r rxns -> names_entries ents r.
Hypothesis Hfull : forall r, In r rxns -> each_with_amount r.
Hypothesis Hone : forall i j a b, target net0 i -> intermediate C ents rxns net0 j -> nth_error ents i = Some a -> nth_error ents j = Some b -> red C (e_comp b) = red C (e_comp a) -> j = i \/ (e_energy a / natoms C (e_comp a) < e_energy b / natoms C (e_comp b))%Q.
Hypothesis Htarget : exists t, target net0 t.
Variable el gas : nat.
Variable mu : Q.
Hypothesis Hother : forall t, target net0 t -> exists x, occurs C ents t x /\ x <> el.
Context {D P : Type}.
Variable diagram : list nat -> D.
Variable wait : nat -> list (list (list (list nat * list nat) * D)) -> list (list (list (list nat * list nat) * D)) * list (list (list (list nat * list nat) * D)).
Hypothesis Hw : valid_schedule wait.
Variable owait : nat -> list (list (list (list nat * list nat) * D)) -> list (list (list (list nat * list nat) * D)) * list (list (list (list nat * list nat) * D)).
Hypothesis Hwo : valid_schedule owait.
Variable build : list nat -> result P.
Variable kinks : P -> nat -> nat -> result (list (list nat * list nat)).
Variable pair_order : list nat -> list nat.
Hypothesis Hpair : forall l, Permutation (pair_order l) l.
Variable mwait : nat -> list (list (list (list nat * list nat) * option (list nat * P))) ->
  list (list (list (list nat * list nat) * option (list nat * P))) * list (list (list (list nat * list nat) * option (list nat * P))).
Hypothesis Hmw : valid_schedule mwait.
Variable arrange : list sentry -> list sentry.
Hypothesis Harr : arranges arrange.
Variable argsort : list Q -> list nat.
Hypothesis Harg : forall l, Permutation (argsort l) (seq 0 (length l)).
Variable shuffle : list nat -> list nat.
Hypothesis Hsh : forall l, Permutation (shuffle l) l.
Variable order : list nat -> list nat.
Hypothesis Hord : forall l, Permutation (order l) l.
Variable chunk jobs mchunk mjobs : nat.
Hypothesis Hchunk : 1 <= chunk.
Hypothesis Hjobs : 1 <= jobs.
Hypothesis Hmchunk : 1 <= mchunk.
Hypothesis Hmjobs : 1 <= mjobs.
Variable grand : list nat -> list nat -> result rset.
Variable cutoff : Q.
Variables ub um : bool.
Notation ent := (with_index ents).
Notation els := (fun i => ReactionModel.elems C (e_comp (ent i))).
Notation form0 := (fun i => red C (e_comp (ent i))).
Notation epa0 := (fun i => (e_energy (ent i) / natoms C (e_comp (ent i)))%Q).
Notation here := (in_set C ent).
Notation mid := (intermediate C ents rxns net0).
Notation gasr := (gas_reacts C ents rxns net0 gas).

Lemma gas_iff i : mid i -> (gaseous C ent [gas] i <-> is_gas C ents gas i).
Proof. intros Hi. unfold gaseous, is_gas. rewrite (mid_formula C ents rxns net0 Hnet Hrxns i Hi). cbn. intuition. Qed.

Section Given.
Variable mids ts : list nat.
Hypothesis Nmids : NoDup mids.
Hypothesis Hmids : forall i, In i mids <-> mid i.
Hypothesis Hts : forall i, In i ts <-> target net0 i.
Notation en := (gas_finder chunk jobs gas ts).
Notation op := (open_ones C ent mids en).

Lemma op_in i : In i op <-> mid i /\ is_gas C ents gas i.
Proof.
  rewrite (open_in C ent mids en [gas] eq_refl), Hmids. split; intros (M & G); (split; [exact M|]); apply (gas_iff i M); exact G.
Qed.
Lemma solid_side c : combo mids 2 c /\ disjoint c op -> few_solids C ents rxns net0 gas c.
Proof.
  intros ((S & L) & Dj). split; [split; [exact (subseq_nodup mids Nmids c S)|exact L]|]. intros i I. pose proof (subseq_mid C ents rxns net0 mids Hmids c i S I) as M. split; [exact M|]. intros G. apply (Dj i I), op_in. split; assumption.
Qed.
Lemma gas_side oc : subseq oc op /\ oc <> [] -> some_gas C ents rxns net0 gas oc.
Proof.
  intros (S & Ne). assert (No : NoDup op) by (unfold open_ones; cbn [gas_finder en_open]; apply NoDup_filter; exact Nmids). split; [exact (subseq_nodup op No oc S)|]. split; [exact Ne|].
  intros i I. apply op_in. exact (subseq_In _ _ _ S I).
Qed.
Lemma takes_added r p : takes_open op mids 2 r p -> with_gas_added C ents rxns net0 gas r p.
Proof. intros (Hr & c & oc & Hc & Ho & ->). split; [exact (solid_side r Hr)|]. exists c, oc. split; [exact (solid_side c Hc)|]. split; [exact (gas_side oc Ho)|apply Permutation_refl]. Qed.
Lemma looks_gas r p : looks_at C ent mids en r p -> gasr r p.
Proof.
  intros (R & Dj & (k & (Ss & Hk) & L & _) & _ & O). cbn [gas_finder en_options default_options o_n o_tfunc en_targets en_open] in *. unfold in_reach in R. cbn [gas_finder en_options default_options o_n en_open] in R.
  assert (R' : with_gas_added C ents rxns net0 gas r p \/ with_gas_added C ents rxns net0 gas p r) by (destruct R as [R|R]; [left|right]; apply takes_added; exact R).
  assert (Mr : forall i, In i (r ++ p) -> mid i).
  { intros i I. destruct R' as [(S & c & oc & S1 & S2 & Pp)|(S & c & oc & S1 & S2 & Pp)]; apply in_app_iff in I as [I|I].
    - apply S; exact I.
    - apply (Permutation_in _ Pp), in_app_iff in I as [I|I]; [apply S1; exact I|apply S2; exact I].
    - apply (Permutation_in _ Pp), in_app_iff in I as [I|I]; [apply S1; exact I|apply S2; exact I].
    - apply S; exact I. }
  split; [exact R'|]. split; [exact Dj|]. split.
  - destruct O as [O|(t & It & Tt & Ng)]; [contradiction (ts_some net0 Htarget ts Hts O)|]. exists t. split; [exact It|]. split; [apply Hts; exact Tt|]. intros G. apply Ng, op_in. split; [apply Mr, in_or_app; right; exact It|exact G].
  - exists k. split; [exact (sorted_nodup 1 1 1 1 (le_n 1) (le_n 1) (le_n 1) (le_n 1) k Ss)|]. split; [exact L|]. intros x. rewrite Hk, in_flat_map. split.
    + intros [(i & I & E)|(i & I & E)].
      * exists i. assert (M : mid i) by (apply Mr, in_or_app; left; exact I). split; [left; exact I|]. apply (mid_occurs C ents rxns net0 Hnet Hrxns i x M). exact E.
      * apply op_in in I as [M G]. exists i. split; [right; split; assumption|]. apply (mid_occurs C ents rxns net0 Hnet Hrxns i x M). exact E.
    + intros (i & [I|(M & G)] & E).
      * left. exists i. split; [exact I|]. apply (mid_occurs C ents rxns net0 Hnet Hrxns i x); [apply Mr, in_or_app; left; exact I|exact E].
      * right. exists i. split; [apply op_in; split; assumption|]. apply (mid_occurs C ents rxns net0 Hnet Hrxns i x M). exact E.
Qed.

Lemma ordered_solids c : few_solids C ents rxns net0 gas c -> exists c', Permutation c c' /\ solids C ent mids [gas] 2 c'.
Proof.
  intros ((N & L) & H). destruct (in_order c mids N Nmids) as (c' & S & Pc); [intros i I; apply Hmids, H; exact I|]. exists c'. split; [exact Pc|]. split; [exact S|]. split; [rewrite <- (Permutation_length Pc); exact L|].
  intros i I G. apply (Permutation_in _ (Permutation_sym Pc)), H in I as [M Ng]. apply Ng, (gas_iff i M). exact G.
Qed.
Lemma ordered_gas oc : some_gas C ents rxns net0 gas oc -> exists oc', Permutation oc oc' /\ gases C ent mids [gas] oc'.
Proof.
  intros (N & Ne & H). destruct (in_order oc mids N Nmids) as (c' & S & Pc); [intros i I; apply Hmids, H; exact I|]. exists c'. split; [exact Pc|]. split; [exact S|]. split; [intros ->; apply Ne, Permutation_nil, Permutation_sym; exact Pc|].
  intros i I. apply (Permutation_in _ (Permutation_sym Pc)), H in I as [M G]. apply (gas_iff i M). exact G.
Qed.
Lemma added_gas r p : with_gas_added C ents rxns net0 gas r p -> exists r' p', Permutation r r' /\ Permutation p p' /\ with_gas C ent mids [gas] 2 r' p'.
Proof.
  intros (Hr & c & oc & Hc & Ho & Pp). destruct (ordered_solids r Hr) as (r' & Pr & Sr), (ordered_solids c Hc) as (c' & Pc & Sc), (ordered_gas oc Ho) as (o' & Po & So). exists r', (c' ++ o'). split; [exact Pr|]. split; [exact (perm_trans Pp (Permutation_app Pc Po))|].
  split; [exact Sr|]. exists c', o'. auto.
Qed.
Lemma gas_mid r p : gasr r p -> forall i, In i (r ++ p) -> mid i.
Proof.
  intros (R' & _) i I. destruct R' as [(S & c & oc & S1 & S2 & Pp)|(S & c & oc & S1 & S2 & Pp)]; apply in_app_iff in I as [I|I].
  - apply S; exact I.
  - apply (Permutation_in _ Pp), in_app_iff in I as [I|I]; [apply S1; exact I|apply S2; exact I].
  - apply (Permutation_in _ Pp), in_app_iff in I as [I|I]; [apply S1; exact I|apply S2; exact I].
  - apply S; exact I.
Qed.
Lemma added_nodup r p : with_gas_added C ents rxns net0 gas r p -> NoDup r /\ NoDup p.
Proof.
  intros (((Nr & _) & _) & c & oc & ((Nc & _) & Hc) & (No & _ & Ho) & Pp). split; [exact Nr|]. apply (Permutation_NoDup (Permutation_sym Pp)). clear Pp. induction Nc as [|i c Hi Nc IH]; [exact No|]. cbn. constructor; [|apply IH; intros j J; apply Hc; right; exact J].
  intros I. apply in_app_iff in I as [I|I]; [exact (Hi I)|]. destruct (Hc i (or_introl eq_refl)) as (_ & G). apply G, Ho, I.
Qed.
Lemma gas_nodup r p : gasr r p -> NoDup (r ++ p).
Proof.
  intros (R & Dj & _). assert (N : NoDup r /\ NoDup p) by (destruct R as [R|R]; apply added_nodup in R as [A B]; split; assumption). destruct N as [Nr Np]. clear -Nr Np Dj. induction Nr as [|i r Hi Nr IH]; [exact Np|]. cbn. constructor; [|apply IH; intros j J; apply Dj; right; exact J].
  intros I. apply in_app_iff in I as [I|I]; [exact (Hi I)|exact (Dj i (or_introl eq_refl) I)].
Qed.
Lemma gas_looked r p : gasr r p -> exists r' p', Permutation r r' /\ Permutation p p' /\ looks_at C ent mids en r' p'.
Proof.
  intros H. pose proof (gas_mid r p H) as Hm. destruct H as (R & Dj & (t & It & Tt & Ng) & (el0 & Ne & Le & He)).
  assert (G : exists r' p', Permutation r r' /\ Permutation p p' /\ (with_gas C ent mids [gas] 2 r' p' \/ with_gas C ent mids [gas] 2 p' r')).
  { destruct R as [R|R]; destruct (added_gas _ _ R) as (a & b & Pa & Pb & G); [exists a, b; auto|exists b, a; auto]. }
  destruct G as (r' & p' & Pr & Pp & G). exists r', p'. split; [exact Pr|]. split; [exact Pp|].
  apply (gas_looks C ent mids en [gas] eq_refl); [exact G| | | |].
  - exists el0. split; [exact Ne|]. split; [exact Le|]. split; [intros f [=]|]. intros x. rewrite He. split.
    + intros (i & [I|(M & Gi)] & E).
      * exists i. assert (M : mid i) by (apply Hm, in_or_app; left; exact I). split; [left; exact (Permutation_in _ Pr I)|]. apply (mid_occurs C ents rxns net0 Hnet Hrxns i x M). exact E.
      * exists i. split; [right; split; [apply Hmids; exact M|apply (gas_iff i M); exact Gi]|]. apply (mid_occurs C ents rxns net0 Hnet Hrxns i x M). exact E.
    + intros (i & [I|(M & Gi)] & E).
      * apply (Permutation_in _ (Permutation_sym Pr)) in I. exists i. split; [left; exact I|]. apply (mid_occurs C ents rxns net0 Hnet Hrxns i x); [apply Hm, in_or_app; left; exact I|exact E].
      * apply Hmids in M. exists i. split; [right; split; [exact M|apply (gas_iff i M); exact Gi]|]. apply (mid_occurs C ents rxns net0 Hnet Hrxns i x M). exact E.
  - left. reflexivity.
  - right. cbn [gas_finder en_options default_options o_tfunc en_targets]. exists t. split; [exact (Permutation_in _ Pp It)|]. split; [apply Hts; exact Tt|]. intros Gt. apply Ng. apply (gas_iff t); [apply Hm, in_or_app; right; exact It|exact Gt].
  - intros i I J. apply (Dj i); [exact (Permutation_in _ (Permutation_sym Pr) I)|exact (Permutation_in _ (Permutation_sym Pp) J)].
Qed.
Lemma gas_sides r p : gasr r p -> r <> [] /\ p <> [].
Proof.
  intros (R & _). assert (F : forall c, few_solids C ents rxns net0 gas c -> c <> []) by (intros c ((_ & L) & _) ->; cbn in L; lia).
  assert (A : forall a b, with_gas_added C ents rxns net0 gas a b -> a <> [] /\ b <> []). { intros a b (Sa & c & oc & Sc & _ & Pb). split; [exact (F a Sa)|]. intros ->. apply Permutation_nil in Pb. apply app_eq_nil in Pb as [-> _]. exact (F [] Sc eq_refl). }
  destruct R as [R|R]; apply A in R; tauto.
Qed.

(* As for the enumerator without open phases. *)
Notation gases0 := (gas_objects C (exact_solve C) (exact_rank C) diagram owait chunk jobs gas ents).
Lemma gas_made : (forall xs, gases0 mids ts = Ok xs -> sharp (map (set_rxn C) xs)) ->
  exists s out, set_of_objects C ent arrange argsort shuffle mids false (gases0 mids ts) = Ok s
  /\ (well_formed s /\ get_rxns s = Ok out /\ r_entries s = arrange (map here mids)) /\ (exists xs, gases0 mids ts = Ok xs /\ incl out (map (set_rxn C) xs))
  /\ (forall x, In x out -> fine C ents rxns net0 x gasr) /\ covers C ents out gasr.
Proof.
  intros Sh. pose proof (mids_some C ents rxns net0 Htarget mids Nmids Hmids) as Ne. pose proof (mids_elems C ents Hels rxns net0 Hnet Hrxns mids Hmids) as Hel. pose proof (ent_id ents Hids) as Eid.
  assert (Us : usable en) by (repeat split; cbn; try assumption; lia).
  destruct (free_set_made C W Hbig ent Eid diagram owait Hwo mids Nmids Ne Hel arrange Harr argsort Harg shuffle Hsh en Us Sh) as (s & out & Es & (Ws & Gs & Ens & _ & _) & (xs & Ex & Inc) & Good & Comp).
  assert (Fine : forall x, In x out -> fine C ents rxns net0 x gasr).
  { intros x Ix. destruct (Good x Ix) as (Px & He & r & p & (Lk & d & Hd & Wy) & T). split; [|split; [exact Px|]].
    - apply Inc in Ix. apply in_map_iff in Ix as (o & <- & _). reflexivity.
    - destruct (listed C ents rxns net0 mids Hmids x He Px) as (l & E & Nl & Ml & Ll). pose proof (looks_gas r p Lk) as Mr. exists l, r, p. repeat (split; [assumption|]).
      split; [exact (gas_nodup r p Mr)|]. split; [apply (gas_sides r p Mr)|]. split; [exact Mr|]. split; [exact T|exact (ways_one C _ _ d Hd Wy)]. }
  exists s, out. split; [exact Es|]. split; [split; [exact Ws|split; [exact Gs|exact Ens]]|]. split; [exists xs; split; [exact Ex|exact Inc]|]. split; [exact Fine|].
  intros r p v Mr Nf0 O S. pose proof (gas_nodup r p Mr) as Nrp. destruct (gas_looked r p Mr) as (r' & p' & Pr & Pp & Lk). pose proof (Permutation_app Pr Pp) as Pm.
  pose proof (gas_mid r p Mr) as Mrp. destruct (reordered C ents rxns net0 chunk jobs Hchunk Hjobs r p r' p' v Nrp Mrp Pr Pp Nf0 O S) as (Nf & O' & S').
  destruct (Comp r' p' Lk) as (x & Ix & T); [split; [exact Nf|]; eexists; split; [exact O'|exact S']|].
  destruct (Fine x Ix) as (_ & Px & _). pose proof (Permutation_NoDup Pm Nrp) as Nrp'.
  pose proof (Inc x Ix) as Ixs. apply in_map_iff in Ixs as (o & Eo & Io). destruct (enumerated_seen C W Hbig ent Eid diagram owait Hwo mids Nmids Hel en Us) as (xs' & Ex' & Seen).
  assert (xs' = xs) by (apply (f_equal (fun r => match r with Ok l => l | Err _ => [] end)) in Ex'; apply (f_equal (fun r => match r with Ok l => l | Err _ => [] end)) in Ex; cbv beta iota in Ex, Ex'; rewrite <- Ex, <- Ex'; reflexivity). subst xs'.
  destruct (Seen o Io) as (r0 & p0 & t & lo & ((Hr0 & Hp0) & _) & Er & Ilo).
  assert (E0 : x_entries x = map here (r0 ++ p0)).
  { rewrite <- Eo. destruct (real_balance_ok C ent (entry_solve C ent) (entry_rank C ent) r0 p0 Hr0 Hp0) as (b & Eb & Cb). unfold react_objects in Er. rewrite Eb in Er. cbn [bind] in Er. injection Er as <-.
    assert (Es' : map (set_entry C) (map ent r0 ++ map ent p0) = map here (r0 ++ p0)) by (rewrite <- map_app, map_map; apply map_ext; intros i; apply set_entry_here; exact Eid).
    destruct Ilo as [<-|[<-|[]]]; unfold set_rxn; cbn [ro_rxn x_entries]; [rewrite Cb; exact Es'|]. unfold computed_reverse, computed_init. cbn [c_entries]. rewrite Cb. exact Es'. }
  assert (P0 : Permutation (r' ++ p') (r0 ++ p0)) by (apply (sides_of C ents x (r0 ++ p0) r' p' Px E0 T Nrp')).
  assert (Hr' : r' <> []) by (apply looks_some in Lk; tauto). rewrite <- Eo in T.
  destruct (exact_object C W ent Eid r0 p0 t lo o r' p' _ Er Ilo Hr0 Hp0 Hr' Nrp' P0 T O' S') as (k & Pk & Hk). exists x, k. split; [exact Ix|]. split; [exact Pk|]. intros i. rewrite <- Eo, Hk.
  destruct (in_dec Nat.eq_dec i (r' ++ p')) as [I|I]; [rewrite coef_self by assumption; reflexivity|]. rewrite (coef_none _ _ i I), coef_none; [reflexivity|]. intros J. apply I. exact (Permutation_in _ Pm J).
Qed.
End Given.

(* --- the search --- *)
Definition open_found (r p : list nat) : Prop := (ub = true /\ (might_react C ents rxns net0 r p \/ gasr r p)) \/ (um = true /\ kink_between C ents rxns net0 build kinks r p).
Definition open_sure (r p : list nat) : Prop := (ub = true /\ (might_react C ents rxns net0 r p \/ gasr r p)) \/ (um = true /\ sure_kink C ents rxns net0 build kinks r p).
Hypothesis Hsense : um = true -> kinks_make_sense C ents rxns net0 build kinks.
Hypothesis Htidy : um = true -> tidy_kinks kinks.
Notation basics := (basic_objects C (exact_solve C) (exact_rank C) diagram wait chunk jobs ents).
Notation gases0 := (gas_objects C (exact_solve C) (exact_rank C) diagram owait chunk jobs gas ents).
Notation minis := (min_objects C (exact_solve C) (exact_rank C) build kinks pair_order mwait mchunk mjobs ents).
Definition sharp_open : Prop := forall targets mids xb xo xm, targets_of net0 = Ok targets -> intermediates C order ents rxns targets = Ok mids ->
  (if ub then basics mids (map e_id targets) else Ok []) = Ok xb -> (if ub then gases0 mids (map e_id targets) else Ok []) = Ok xo -> (if um then minis mids (map e_id targets) else Ok []) = Ok xm -> sharp (map (set_rxn C) (xb ++ xo ++ xm)).
Hypothesis Hgrand : um = true -> forall targets mids, targets_of net0 = Ok targets -> intermediates C order ents rxns targets = Ok mids ->
  exists s, grand mids (map e_id targets) = Ok s /\ well_formed s /\ r_entries s = arrange (map here mids).
Notation below0 := (grand_below C el mu ents cutoff).

Lemma found_target r p : open_found r p -> exists t, In t p /\ target net0 t.
Proof.
  intros [(_ & [(_ & _ & _ & _ & H & _)|(_ & _ & (t & A & B & _) & _)])|(_ & _ & H)]; [exact H|exists t; split; assumption|exact H].
Qed.
Lemma same_open_call b o m g sb so sm sg es : (ub = true -> b = Ok sb) -> (ub = true -> o = Ok so) -> (um = true -> m = Ok sm) -> (um = true -> g = Ok sg) ->
  find_intermediate_rxns argsort shuffle arrange below0 es (Some el) mu ub um b o m g = find_intermediate_rxns argsort shuffle arrange below0 es (Some el) mu ub um (Ok sb) (Ok so) (Ok sm) (Ok sg).
Proof. intros Hb Ho Hm Hg. unfold find_intermediate_rxns. destruct ub, um; rewrite ?Hb, ?Ho, ?Hm, ?Hg by reflexivity; reflexivity. Qed.

Lemma open_search : sharp_open -> exists ys,
  find_open C (exact_solve C) (exact_rank C) diagram build kinks pair_order arrange argsort shuffle wait owait mwait order chunk jobs mchunk mjobs grand el mu gas cutoff ub um ents rxns net0 = Ok (map (fun x => ROpen {| o_base := object_of C ents x; chempots := [(el, mu)] |}) ys)
  /\ (forall x, In x ys -> plain x /\ (exists l, x_entries x = map here l /\ NoDup l /\ (forall i, In i l -> mid i) /\ (NoDup (map form0 l) -> grand_low C el mu cutoff (combine (map ent l) (x_coeffs x))))
       /\ exists r p, NoDup (r ++ p) /\ open_found r p /\ turns C ent r p x /\ one_way C (formula C ent) (r ++ p))
  /\ (forall r p v, open_sure r p -> NoDup (map form0 (r ++ p)) -> only_combination C (map form0 (r ++ p)) v -> LinSpec.sides (length r) v -> grand_low C el mu cutoff (combine (map ent (r ++ p)) v) ->
       exists y k, In y ys /\ (0 < k)%Q /\ forall i, (amount y i == k * coef (r ++ p) v i)%Q)
  /\ ForallOrdPairs (fun x y => ~ multiples x y) ys.
Proof.
  intros Sh. destruct (mids_made C ents Hids rxns net0 Hnet Hrxns Hfull Hone order Hord) as (targets & mids & Et & Em & Hts & Nm & Hm & Emin).
  set (ts := map e_id targets) in *. pose proof (ent_id ents Hids) as Eid. specialize (Sh targets mids).
  pose proof (mids_elems C ents Hels rxns net0 Hnet Hrxns mids Hm) as Hel.
  assert (Xb : exists xb, (if ub then basics mids ts else Ok []) = Ok xb).
  { destruct ub; [|exists []; reflexivity]. destruct (enumerated_full C W Hbig ent Eid diagram wait Hw mids Nm Hel (finder chunk jobs ts)) as (xs & E & _); [repeat split; cbn; try assumption; lia|]. exists xs. exact E. }
  assert (Xo : exists xo, (if ub then gases0 mids ts else Ok []) = Ok xo).
  { destruct ub; [|exists []; reflexivity]. destruct (enumerated_full C W Hbig ent Eid diagram owait Hwo mids Nm Hel (gas_finder chunk jobs gas ts)) as (xs & E & _); [repeat split; cbn; try assumption; lia|]. exists xs. exact E. }
  assert (Xm : exists xm, (if um then minis mids ts else Ok []) = Ok xm).
  { assert (Hu : um = true \/ um = false) by (clear; destruct um; auto). destruct Hu as [Hum|Hum]; rewrite Hum; [|exists []; reflexivity].
    destruct (gibbs_made C W Hbig ent Eid build kinks pair_order Hpair epa0 mwait Hmw mids Nm Hel (interfaces_good C ents rxns net0 Hnet Hrxns build kinks mids Nm Hm (Hsense Hum)) (Htidy Hum) (min_finder mchunk mjobs ts)) as (xs & E & _); [repeat split; cbn; try assumption; lia|]. exists xs. exact E. }
  destruct Xb as (xb & Xb), Xo as (xo & Xo), Xm as (xm & Xm). specialize (Sh xb xo xm Et Em Xb Xo Xm). rewrite !map_app in Sh.
  assert (Shb : sharp (map (set_rxn C) xb)) by (apply (sharp_incl _ _ (incl_appl _ (incl_refl _)) Sh)).
  assert (Sho : sharp (map (set_rxn C) xo)) by (apply (sharp_incl _ _ (incl_appr _ (incl_appl _ (incl_refl _))) Sh)).
  assert (Shm : sharp (map (set_rxn C) xm)) by (apply (sharp_incl _ _ (incl_appr _ (incl_appr _ (incl_refl _))) Sh)).
  assert (B : exists sb ob, (ub = true -> set_of_objects C ent arrange argsort shuffle mids false (basics mids ts) = Ok sb /\ well_formed sb /\ get_rxns sb = Ok ob /\ r_entries sb = arrange (map here mids))
    /\ (ub = false -> ob = []) /\ incl ob (map (set_rxn C) xb) /\ (forall x, In x ob -> ub = true /\ fine C ents rxns net0 x (might_react C ents rxns net0)) /\ (ub = true -> covers C ents ob (might_react C ents rxns net0))).
  { destruct ub.
    - destruct (basic_made C W Hbig ents Hids Hels rxns net0 Hnet Hrxns Htarget diagram wait Hw arrange Harr argsort Harg shuffle Hsh chunk jobs mchunk mjobs Hchunk Hjobs Hmchunk Hmjobs mids ts Nm Hm Hts) as (s & o & E & (K1 & K2 & K3) & (xs & Ex & Inc) & F & Cv); [intros xs Ex; rewrite Xb in Ex; injection Ex as <-; exact Shb|]. rewrite Xb in Ex. injection Ex as <-.
      exists s, o. split; [intros _; repeat (split; [assumption|]); assumption|]. split; [discriminate|]. split; [exact Inc|]. split; [intros x Ix; split; [reflexivity|exact (F x Ix)]|intros _; exact Cv].
    - exists no_set, []. split; [discriminate|]. split; [reflexivity|]. split; [intros x []|]. split; [intros x []|discriminate]. }
  assert (O : exists so oo, (ub = true -> set_of_objects C ent arrange argsort shuffle mids false (gases0 mids ts) = Ok so /\ well_formed so /\ get_rxns so = Ok oo /\ r_entries so = arrange (map here mids))
    /\ (ub = false -> oo = []) /\ incl oo (map (set_rxn C) xo) /\ (forall x, In x oo -> ub = true /\ fine C ents rxns net0 x gasr) /\ (ub = true -> covers C ents oo gasr)).
  { destruct ub.
    - destruct (gas_made mids ts Nm Hm Hts) as (s & o & E & (K1 & K2 & K3) & (xs & Ex & Inc) & F & Cv); [intros xs Ex; rewrite Xo in Ex; injection Ex as <-; exact Sho|]. rewrite Xo in Ex. injection Ex as <-.
      exists s, o. split; [intros _; repeat (split; [assumption|]); assumption|]. split; [discriminate|]. split; [exact Inc|]. split; [intros x Ix; split; [reflexivity|exact (F x Ix)]|intros _; exact Cv].
    - exists no_set, []. split; [discriminate|]. split; [reflexivity|]. split; [intros x []|]. split; [intros x []|discriminate]. }
  assert (M : exists sm om, (um = true -> set_of_objects C ent arrange argsort shuffle mids false (minis mids ts) = Ok sm /\ well_formed sm /\ get_rxns sm = Ok om /\ r_entries sm = arrange (map here mids))
    /\ (um = false -> om = []) /\ incl om (map (set_rxn C) xm) /\ (forall x, In x om -> um = true /\ fine C ents rxns net0 x (kink_between C ents rxns net0 build kinks)) /\ (um = true -> covers C ents om (sure_kink C ents rxns net0 build kinks))).
  { assert (Hu : um = true \/ um = false) by (clear; destruct um; auto). destruct Hu as [Hum|Hum].
    - rewrite Hum in Xm. destruct (mini_made C W Hbig ents Hids Hels rxns net0 Hnet Hrxns Htarget build kinks pair_order Hpair mwait Hmw arrange Harr argsort Harg shuffle Hsh chunk jobs mchunk mjobs Hchunk Hjobs Hmchunk Hmjobs um Hsense Htidy mids ts Nm Hm Hts Hum) as (s & o & E & (K1 & K2 & K3) & (xs & Ex & Inc) & F & Cv); [intros xs Ex; rewrite Xm in Ex; injection Ex as <-; exact Shm|]. rewrite Xm in Ex. injection Ex as <-.
      exists s, o. split; [intros _; repeat (split; [assumption|]); assumption|]. split; [congruence|]. split; [exact Inc|]. split; [intros x Ix; split; [exact Hum|exact (F x Ix)]|intros _; exact Cv].
    - exists no_set, []. split; [congruence|]. split; [reflexivity|]. split; [intros x []|]. split; [intros x []|congruence]. }
  assert (G : exists sg, um = true -> grand mids ts = Ok sg /\ well_formed sg /\ r_entries sg = arrange (map here mids)).
  { assert (Hu : um = true \/ um = false) by (clear; destruct um; auto). destruct Hu as [Hum|Hum]; [|exists no_set; congruence]. destruct (Hgrand Hum targets mids Et Em) as (sg & Hsg). exists sg. intros _. exact Hsg. }
  destruct B as (sb & ob & Sb & Nb & Ib & Fb & Cb), O as (so & oo & So & Noo & Io & Fo & Co), M as (sm & om & Sm & No & Im & Fm & Cm), G as (sg & Sg).
  set (out := ob ++ oo ++ om).
  assert (Items : forall x, In x out -> fine C ents rxns net0 x open_found).
  { intros x Ix. apply in_app_iff in Ix as [Ix|Ix]; [|apply in_app_iff in Ix as [Ix|Ix]].
    - destruct (Fb x Ix) as (Hub & Hmu & Px & l & r & p & E & Nl & Ml & Ll & Nrp & Hp & Q & T). split; [exact Hmu|]. split; [exact Px|]. exists l, r, p. repeat (split; [assumption|]). split; [left; split; [assumption|left; assumption]|exact T].
    - destruct (Fo x Ix) as (Hub & Hmu & Px & l & r & p & E & Nl & Ml & Ll & Nrp & Hp & Q & T). split; [exact Hmu|]. split; [exact Px|]. exists l, r, p. repeat (split; [assumption|]). split; [left; split; [assumption|right; assumption]|exact T].
    - destruct (Fm x Ix) as (Hum & Hmu & Px & l & r & p & E & Nl & Ml & Ll & Nrp & Hp & Q & T). split; [exact Hmu|]. split; [exact Px|]. exists l, r, p. repeat (split; [assumption|]). split; [right; split; assumption|exact T]. }
  assert (Cover : covers C ents out open_sure).
  { intros r p v [(Hub & [Q|Q])|(Hum & Q)] N O S.
    - destruct (Cb Hub r p v Q N O S) as (x & k & Ix & H). exists x, k. split; [apply in_app_iff; left; exact Ix|exact H].
    - destruct (Co Hub r p v Q N O S) as (x & k & Ix & H). exists x, k. split; [apply in_app_iff; right; apply in_app_iff; left; exact Ix|exact H].
    - destruct (Cm Hum r p v Q N O S) as (x & k & Ix & H). exists x, k. split; [apply in_app_iff; right; apply in_app_iff; right; exact Ix|exact H]. }
  assert (En : forall x l, In x out -> x_entries x = map here l -> NoDup l -> (forall i, In i l -> mid i) -> exists v, grand_per_atom C el mu ents x = Ok v /\ (NoDup (map form0 l) -> (v < cutoff)%Q <-> grand_low C el mu cutoff (combine (map ent l) (x_coeffs x)))).
  { intros x l Ix E Nl Ml. destruct (Items x Ix) as (_ & (_ & Lc & _) & _ & r & p & _ & _ & _ & _ & _ & Hp & Q & (_ & Mk & _) & _).
    destruct (found_target r p Q) as (t & It & Tt). destruct (proj2 (Mk (here t)) (ex_intro _ t (conj It eq_refl))) as (c & Tc & Pc). unfold takes_part in Tc. rewrite E, combine_map_l in Tc. apply in_map_iff in Tc as ([j c'] & Ej & Ij). assert (Ec : c' = c) by exact (f_equal snd Ej). assert (Ei : j = t) by exact (f_equal (fun q => uid (fst q)) Ej). subst j c'.
    assert (L0 : length (map ent l) = length (x_coeffs x)) by (rewrite map_length, Lc, E, map_length; reflexivity).
    assert (Mo : makes_other C el (map ent l) (x_coeffs x)).
    { destruct (Hother t Tt) as (z & Oz & Nz). exists (ent t), c, z. split; [rewrite combine_map_l; apply in_map_iff; exists (t, c); split; [reflexivity|exact Ij]|]. split; [exact Pc|]. split; [|exact Nz]. apply (mid_occurs C ents rxns net0 Hnet Hrxns t z); [right; left; exact Tt|exact Oz]. }
    unfold grand_per_atom. rewrite (object_items C ents x l E). destruct (open_some C W el mu (map ent l) (x_coeffs x) Mo) as (v & Ev). exists v. split; [exact Ev|]. intros Nf.
    destruct (open_value C W el mu (map ent l) (x_coeffs x)) as (v' & Ev' & Pv & Hv); [rewrite map_map; exact Nf|exact L0|exact Mo|]. rewrite Ev in Ev'. injection Ev' as <-. exact (grand_low_iff C el mu _ _ v cutoff Pv Hv). }
  assert (Bel : forall x l, In x out -> x_entries x = map here l -> NoDup l -> (forall i, In i l -> mid i) -> NoDup (map form0 l) -> (below0 x = true <-> grand_low C el mu cutoff (combine (map ent l) (x_coeffs x)))).
  { intros x l Ix E Nl Ml Nf. destruct (En x l Ix E Nl Ml) as (v & Ev & Hv). unfold grand_below. rewrite Ev, Qlt_bool_iff'. exact (Hv Nf). }
  assert (Ea : kept_sets (Some el) ub um ob oo om = out).
  { unfold kept_sets, out. destruct ub; [|rewrite (Nb eq_refl), (Noo eq_refl)]; (destruct um; [|rewrite (No eq_refl)]); rewrite ?app_assoc; reflexivity. }
  destruct (intermediates_spec argsort shuffle Harg Hsh arrange Harr below0 (arrange (map here mids)) (Some el) mu ub um sb so sm sg ob oo om) as (kept & ys & Ek & _ & Gk & Sound & Complete & Once).
  { intros a b Ia Ib' Eu. apply (proj2 (Harr (map here mids))) in Ia. apply (proj2 (Harr (map here mids))) in Ib'. exact (uid_here C ent mids a b Ia Ib' Eu). }
  { intros H. apply (Sb H). }
  { intros H _. apply (So H). }
  { intros H. apply (Sm H). }
  { intros H _. apply (Sg H). }
  { rewrite Ea. intros x Ix. apply (Items x Ix). }
  { rewrite Ea. apply (sharp_incl (map (set_rxn C) xb ++ map (set_rxn C) xo ++ map (set_rxn C) xm)); [|exact Sh]. intros x Ix. apply in_app_iff in Ix as [Ix|Ix]; [|apply in_app_iff in Ix as [Ix|Ix]]; rewrite !in_app_iff; [left; apply Ib|right; left; apply Io|right; right; apply Im]; exact Ix. }
  rewrite Ea in Sound, Complete. set (mud := Some [(el, mu)]) in *. cbv beta iota zeta in Sound, Complete.
  assert (Yout : forall y, In y ys -> exists x, In x out /\ y = with_mu mud x /\ below0 x = true).
  { intros y Iy. destruct (Sound y Iy) as (x & Ix & -> & Bx & _). exists x. split; [exact Ix|]. split; [reflexivity|exact Bx]. }
  exists ys. split; [|split; [|split; [|exact Once]]].
  - unfold find_open. rewrite Et. cbn [bind]. rewrite Em. cbn [bind]. rewrite Emin. cbn [bind]. fold ts.
    assert (Gb : (if ub then bind (set_of_objects C ent arrange argsort shuffle mids false (basics mids ts)) get_rxns else Ok []) = Ok ob).
    { destruct ub; [|rewrite (Nb eq_refl); reflexivity]. destruct (Sb eq_refl) as (-> & _ & G & _). exact G. }
    assert (Go : (if ub then bind (set_of_objects C ent arrange argsort shuffle mids false (gases0 mids ts)) get_rxns else Ok []) = Ok oo).
    { destruct ub; [|rewrite (Noo eq_refl); reflexivity]. destruct (So eq_refl) as (-> & _ & G & _). exact G. }
    assert (Gm : (if um then bind (set_of_objects C ent arrange argsort shuffle mids false (minis mids ts)) get_rxns else Ok []) = Ok om).
    { destruct um; [|rewrite (No eq_refl); reflexivity]. destruct (Sm eq_refl) as (-> & _ & G & _). exact G. }
    rewrite Gb. cbn [bind]. rewrite Go. cbn [bind]. rewrite Gm. cbn [bind]. fold out.
    assert (Eall : exists vs, mapM (grand_per_atom C el mu ents) out = Ok vs).
    { assert (H : forall x, In x out -> exists v, grand_per_atom C el mu ents x = Ok v).
      { intros x Ix. destruct (Items x Ix) as (_ & _ & l & r & p & E & Nl & Ml & _). destruct (En x l Ix E Nl Ml) as (v & Ev & _). exists v. exact Ev. }
      clear -H. induction out as [|x out IH]; [exists []; reflexivity|]. destruct (H x (or_introl eq_refl)) as (v & Ev). destruct IH as (vs & Evs); [intros y Iy; apply H; right; exact Iy|]. exists (v :: vs). cbn. rewrite Ev. cbn. rewrite Evs. reflexivity. }
    destruct Eall as (vs & ->). cbn [bind]. rewrite (map_ext _ here (fun i => set_entry_here C ent Eid i)).
    rewrite (same_open_call _ _ _ _ sb so sm sg _ (fun H => proj1 (Sb H)) (fun H => proj1 (So H)) (fun H => proj1 (Sm H)) (fun H => proj1 (Sg H))), Ek. cbn [bind]. rewrite Gk. cbn [bind]. f_equal. apply map_ext_in. intros y Iy. destruct (Yout y Iy) as (x & _ & -> & _). reflexivity.
  - intros y Iy. destruct (Yout y Iy) as (x & Ix & -> & Bx). destruct (Items x Ix) as (_ & Px & l & r & p & E & Nl & Ml & _ & Nrp & _ & Q & T). split; [exact Px|]. split.
    + exists l. split; [exact E|]. split; [exact Nl|]. split; [exact Ml|]. intros Nf. apply (Bel x l Ix E Nl Ml Nf). exact Bx.
    + exists r, p. split; [exact Nrp|]. split; [exact Q|exact T].
  - intros r p v Q Nf0 O S Low. pose proof (NoDup_map_inv _ _ Nf0) as Nrp. destruct (Cover r p v Q Nf0 O S) as (x & k & Ix & Pk & Hk). destruct (Items x Ix) as (_ & Px & l & _ & _ & E & Nl & Ml & Ll & _).
    assert (Pl : Permutation (r ++ p) l).
    { apply NoDup_Permutation; [exact Nrp|exact Nl|]. destruct O as ((Lv & _) & Nz & _). rewrite map_length in Lv. intros i.
      assert (Ai : (amount x i == coef l (x_coeffs x) i)%Q) by exact (amount_here C ent x l (x_coeffs x) i E eq_refl). split; intros I.
      - destruct (in_dec Nat.eq_dec i l) as [J|J]; [exact J|exfalso]. rewrite (coef_none l _ i J), Hk in Ai. apply In_nth_error in I as (j & Ej). destruct (nth_error v j) as [a|] eqn:Ev; [|apply nth_error_None in Ev; assert (j < length (r ++ p)) by (apply nth_error_Some; rewrite Ej; discriminate); lia].
        rewrite (coef_nth _ _ j i a Nrp Lv Ej Ev) in Ai. apply (Nz a (nth_error_In _ _ Ev)). apply Qmult_integral in Ai as [Ai|Ai]; [lra|exact Ai].
      - destruct (in_dec Nat.eq_dec i (r ++ p)) as [J|J]; [exact J|exfalso]. rewrite Hk, (coef_none _ _ i J), Qmult_0_r in Ai. destruct Px as (_ & _ & Z). apply In_nth_error in I as (j & Ej). destruct (nth_error (x_coeffs x) j) as [a|] eqn:Ev; [|apply nth_error_None in Ev; assert (j < length l) by (apply nth_error_Some; rewrite Ej; discriminate); lia].
        rewrite (coef_nth _ _ j i a Nl Ll Ej Ev) in Ai. apply (Z a (nth_error_In _ _ Ev)). symmetry. exact Ai. }
    destruct O as ((Lv & _) & _). rewrite map_length in Lv.
    assert (Bx : below0 x = true).
    { apply (Bel x l Ix E Nl Ml); [exact (Permutation_NoDup (Permutation_map form0 Pl) Nf0)|]. apply (grand_low_scaled C el mu ent cutoff (r ++ p) l v (x_coeffs x) k Nrp); [exact Pl|exact Lv|exact Ll|exact Pk| |exact Low]. intros i. rewrite <- (amount_here C ent x l (x_coeffs x) i E eq_refl). apply Hk. }
    destruct (Complete x Ix) as (y & Iy & My); [exact Bx| |].
    + intros e Ie. apply (proj2 (Harr (map here mids))). rewrite E in Ie. apply in_map_iff in Ie as (i & <- & I). apply in_map, Hm, Ml. exact I.
    + destruct (multiples_amount x y My) as (k' & Pk' & Hk'). exists y, (k' * k)%Q. split; [exact Iy|]. split; [apply Qmult_lt_0_compat; assumption|]. intros i. rewrite Hk', Hk. ring.
Qed.

Theorem open_spec : sharp_open -> exists ys,
  find_open C (exact_solve C) (exact_rank C) diagram build kinks pair_order arrange argsort shuffle wait owait mwait order chunk jobs mchunk mjobs grand el mu gas cutoff ub um ents rxns net0 = Ok ys
  /\ (forall y, In y ys -> open_of_entries ents el mu y /\ (distinct C (parts y) -> grand_low C el mu cutoff (parts y)) /\ exists r p, open_found r p /\ turns_into C r p y /\ one_way C (formula_at C ents) (r ++ p))
  /\ (forall r p es v, open_sure r p -> Forall2 (fun i e => nth_error ents i = Some e) (r ++ p) es -> NoDup (map (fun e => red C (e_comp e)) es) -> only_combination C (map (fun e => red C (e_comp e)) es) v -> LinSpec.sides (length r) v -> grand_low C el mu cutoff (combine es v) ->
       exists y k, In y ys /\ (0 < k)%Q /\ (forall j i a, nth_error (r ++ p) j = Some i -> nth_error v j = Some a -> (turnover y i == k * a)%Q) /\ forall i, ~ In i (r ++ p) -> (turnover y i == 0)%Q)
  /\ ForallOrdPairs (fun x y => ~ ChainFindSpec.proportional x y) ys.
Proof.
  intros Sh. destruct (open_search Sh) as (ys & E & Sound & Comp & Once). pose proof (ent_id ents Hids) as Eid. eexists. split; [exact E|].
  assert (Pt : forall x, parts (ROpen {| o_base := object_of C ents x; chempots := [(el, mu)] |}) = parts (RComputed (object_of C ents x))) by reflexivity.
  assert (Tn : forall x i, turnover (ROpen {| o_base := object_of C ents x; chempots := [(el, mu)] |}) i = turnover (RComputed (object_of C ents x)) i) by reflexivity. split; [|split].
  - intros y Iy. apply in_map_iff in Iy as (x & <- & Ix). destruct (Sound x Ix) as (Px & (l & El & Nl & Ml & Low) & r & p & Nrp & Q & T & Ow). split; [|split].
    + exists (object_of C ents x). split; [reflexivity|]. rewrite (object_items C ents x l El). unfold computed_init. cbn [c_base c_entries coeffs basic_init]. split; [rewrite map_length; destruct Px as (_ & L & _); rewrite L, El, map_length; reflexivity|].
      intros e I. apply in_map_iff in I as (i & <- & I). rewrite Eid. apply (mid_at C ents rxns net0 Hnet Hrxns), Ml. exact I.
    + rewrite Pt, (object_parts C ents x l El). intros Nf. apply Low. unfold distinct in Nf. rewrite <- (map_map fst (fun e => red C (e_comp e))), map_fst_combined, map_map in Nf; [exact Nf|]. destruct Px as (_ & L & _). rewrite map_length, L, El, map_length. reflexivity.
    + exists r, p. split; [exact Q|]. split; [exact (turns_turnover C ents Hids x l r p Px El T Nrp)|]. eapply one_way_same; [|exact Ow].
      intros i I. pose proof (sides_of C ents x l r p Px El T Nrp) as Pl. rewrite (mid_formula C ents rxns net0 Hnet Hrxns i (Ml i (Permutation_in _ Pl I))). reflexivity.
  - intros r p es v Q F Nf O S Low. assert (Ees : es = map ent (r ++ p)). { clear -F. induction F as [|i e l es H F IH]; [reflexivity|]. cbn [map]. rewrite (ent_some ents i e H), IH. reflexivity. }
    subst es. rewrite map_map in O, Nf. pose proof (NoDup_map_inv _ _ Nf) as Nrp. destruct (Comp r p v Q Nf O S Low) as (x & k & Ix & Pk & Hk). exists (ROpen {| o_base := object_of C ents x; chempots := [(el, mu)] |}), k. split; [apply in_map_iff; exists x; split; [reflexivity|exact Ix]|]. split; [exact Pk|].
    destruct (Sound x Ix) as (_ & (l & El & _) & _). destruct O as ((Lv & _) & _). rewrite map_length in Lv. split.
    + intros j i a Ej Ea. rewrite Tn, (object_turnover C ents Hids x l i El), Hk, (coef_nth _ _ j i a Nrp Lv Ej Ea). reflexivity.
    + intros i I. rewrite Tn, (object_turnover C ents Hids x l i El), Hk, (coef_none _ _ i I). ring.
  - clear E Comp. induction Once as [|x ys F Once IH]; cbn [map]; constructor.
    + rewrite Forall_forall in F. apply Forall_forall. intros r' I. apply in_map_iff in I as (y & <- & Iy). intros (k & Pk & Hk). apply (F y Iy). destruct (Sound x (or_introl eq_refl)) as (Px & (l & El & _) & _). destruct (Sound y (or_intror Iy)) as (Py & (m & Em & _) & _).
      apply NetJobProofs.multiples_sym, (scaled_multiples x y k Px Py); [|exact Pk|].
      * intros a b Ia Ib. rewrite El, Em, <- map_app in Ia, Ib. apply (uid_here C ent (l ++ m)); assumption.
      * intros u. specialize (Hk u). rewrite !Tn, (object_turnover C ents Hids x l u El), (object_turnover C ents Hids y m u Em) in Hk. exact Hk.
    + apply IH. intros y Iy. apply Sound. right. exact Iy.
Qed.
End Main.
