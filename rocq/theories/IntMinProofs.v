(* Looking for reactions between the intermediates, with an enumerator that minimises. *)
From Coq Require Import Lqa.
From Verif Require Import Prelude NumQ SumQ ListFacts UtilsModel UtilsSpec UtilsProofs ReactionModel ReactionSpec ReactionBaseProofs RxnSetModel RxnSetSpec RxnSetBaseProofs PathModel SolverModel SolverSpec SolverInterProofs
  SolveJobModel SolveJobSpec EnumModel EnumSpec EnumProofs EnumLinkModel LinModel LinSpec LinProofs LinBalanceProofs CoefProofs FreeSpec FreeProofs NetJobSpec ChainSpec ChainFindSpec ChainFindProofs
  MinModel MinSpec JoinModel JoinSpec JoinProofs FreeJoinProofs MinJoinModel MinJoinSpec MinJoinProofs IntModel IntSpec IntProofs IntMinModel IntMinSpec.
From Verif Require NetJobProofs ProcessProofs.
Open Scope nat_scope.

Section Main.
Variable C : chem.
Hypothesis W : wf_chem C.
Hypothesis Hbig : forall c e, In e (ReactionModel.elems C c) -> (1 # 100 < amt C (red C c) e)%Q.
Variable ents : list entry.
Hypothesis Hids : forall i e, nth_error ents i = Some e -> e_id e = i.
Hypothesis Hels : forall i e, nth_error ents i = Some e -> ReactionModel.elems C (e_comp e) <> [].
Variable rxns : list rxn.
Variable net0 : rxn.
Hypothesis Hnet : names_entries ents net0.
Hypothesis Hrxns : forall r, In r rxns -> names_entries ents r.
Hypothesis Hfull : forall r, In r rxns -> each_with_amount r.
Hypothesis Hone : forall i j a b, target net0 i -> intermediate C ents rxns net0 j -> nth_error ents i = Some a -> nth_error ents j = Some b -> red C (e_comp b) = red C (e_comp a) -> j = i \/ (e_energy a / natoms C (e_comp a) < e_energy b / natoms C (e_comp b))%Q.
Hypothesis Htarget : exists t, target net0 t.
Context {D P : Type}.
Variable diagram : list nat -> D.
Variable wait : nat -> list (list (list (list nat * list nat) * D)) -> list (list (list (list nat * list nat) * D)) * list (list (list (list nat * list nat) * D)).
Hypothesis Hw : valid_schedule wait.
Variable build : list nat -> result P.
Variable kinks : P -> nat -> nat -> result (list (list nat * list nat)).
Variable pair_order : list nat -> list nat.
Hypothesis Hpair : forall l, Permutation (pair_order l) l.
Variable mwait : nat -> list (list (list (list nat * list nat) * option (list nat * P))) ->
  list (list (list (list nat * list nat) * option (list nat * P))) * list (list (list (list nat * list nat) * option (list nat * P))).
Hypothesis Hmw : valid_schedule mwait.
Variable arrange : list sentry -> list sentry.
Hypothesis Harr : arranges arrange.
Variable argsort : list Q -> list nat.
Hypothesis Harg : forall l, Permutation (argsort l) (seq 0 (length l)).
Variable shuffle : list nat -> list nat.
Hypothesis Hsh : forall l, Permutation (shuffle l) l.
Variable order : list nat -> list nat.
Hypothesis Hord : forall l, Permutation (order l) l.
Variable chunk jobs mchunk mjobs : nat.
Hypothesis Hchunk : 1 <= chunk.
Hypothesis Hjobs : 1 <= jobs.
Hypothesis Hmchunk : 1 <= mchunk.
Hypothesis Hmjobs : 1 <= mjobs.
Variable cutoff : Q.
Variables ub um : bool.
Notation ent := (with_index ents).
Notation els := (fun i => ReactionModel.elems C (e_comp (ent i))).
Notation form0 := (fun i => red C (e_comp (ent i))).
Notation epa0 := (fun i => (e_energy (ent i) / natoms C (e_comp (ent i)))%Q).
Notation here := (in_set C ent).
Notation mid := (intermediate C ents rxns net0).
Notation system := (system C ents rxns net0).

(* --- interfaces --- *)
Lemma mid_at i : mid i -> nth_error ents i = Some (ent i).
Proof. exact (mid_some C ents rxns net0 Hnet Hrxns i). Qed.
Lemma mid_occurs i el : mid i -> (occurs C ents i el <-> In el (els i)).
Proof.
  intros Hi. unfold occurs. rewrite (mid_at i Hi). split; [intros (e & [= <-] & I); exact I|intros I; exists (ent i); split; [reflexivity|exact I]].
Qed.
Lemma mid_formula i : mid i -> formula_at C ents i = form0 i.
Proof. intros Hi. unfold formula_at. rewrite (mid_at i Hi). reflexivity. Qed.
Lemma mid_energy i : mid i -> atom_energy C ents i = epa0 i.
Proof. intros Hi. unfold atom_energy. rewrite (mid_at i Hi). reflexivity. Qed.

Lemma sorted_nodup k : StronglySorted lt k -> NoDup k.
Proof. intros Ss. induction Ss as [|x l S IH F]; constructor; [|exact IH]. intros I. rewrite Forall_forall in F. specialize (F x I). lia. Qed.

Section Given.
Variable mids ts : list nat.
Hypothesis Nmids : NoDup mids.
Hypothesis Hmids : forall i, In i mids <-> mid i.
Hypothesis Hts : forall i, In i ts <-> target net0 i.

Lemma system_of c k s : combination mids [] c -> chemsys_of els [] c k -> within els mids k s -> system c s.
Proof.
  intros (Sc & Lc & _) (_ & Hk) Hs. assert (Mc : forall i, In i c -> mid i) by (intros i I; apply Hmids; exact (subseq_In _ _ _ Sc I)).
  split; [split; [exact (subseq_nodup mids Nmids c Sc)|exact Lc]|]. split; [exact Mc|]. split; [exact (ProcessProofs.picks_NoDup _ _ _ Hs Nmids)|].
  intros i. rewrite (picks_members _ _ _ Hs i), Hmids. split; intros (Hi & H); (split; [exact Hi|]); intros el Hel.
  - apply (mid_occurs i el Hi), H, Hk in Hel as [(j & Ij & Hj)|[]]. exists j. split; [exact Ij|]. apply mid_occurs; [apply Mc; exact Ij|exact Hj].
  - apply Hk. left. destruct (H el) as (j & Ij & Hj); [apply mid_occurs; assumption|]. exists j. split; [exact Ij|]. apply mid_occurs; [apply Mc; exact Ij|exact Hj].
Qed.
Lemma system_mid c s i : system c s -> In i s -> mid i.
Proof. intros (_ & _ & _ & H) I. apply H. exact I. Qed.
Lemma system_perm c c' s : Permutation c c' -> system c s -> system c' s.
Proof.
  intros Pc ((Nc & Lc) & Mc & Ns & Hs). split; [split; [exact (Permutation_NoDup Pc Nc)|rewrite <- (Permutation_length Pc); exact Lc]|].
  split; [intros i I; apply Mc; exact (Permutation_in _ (Permutation_sym Pc) I)|]. split; [exact Ns|]. intros i. rewrite Hs.
  split; intros (Hi & H); (split; [exact Hi|]); intros el Hel; destruct (H el Hel) as (j & Ij & Hj); exists j; (split; [|exact Hj]); [exact (Permutation_in _ Pc Ij)|exact (Permutation_in _ (Permutation_sym Pc) Ij)].
Qed.
Lemma interfaces_good : kinks_make_sense C ents rxns net0 build kinks -> good_interfaces els (formula C ent) build kinks mids [].
Proof.
  intros H c k s Hc Hk Hs. pose proof (system_of c k s Hc Hk Hs) as Sy. destruct (H c s Sy) as (pd & Eb & Hk'). exists pd. split; [exact Eb|]. intros a b Ia Ib. destruct (Hk' a b Ia Ib) as (ks & Ek & Hks). exists ks. split; [exact Ek|].
  intros kink I. destruct (Hks kink I) as (A & B & F). split; [exact A|]. split; [exact B|]. intros f Hf. destruct (F f Hf) as (e & Ie & Ef). exists e. split; [exact Ie|]. rewrite (mid_formula e (system_mid c s e Sy Ie)) in Ef. exact Ef.
Qed.
Lemma phases_stable c s fs es : system c s -> Forall2 (stable_phase C ent epa0 s) fs es -> Forall2 (stable C ents s) fs es.
Proof.
  intros Sy F. induction F as [|f e fs es (Ef & Ie & G) F IH]; constructor; [|exact IH]. split; [rewrite (mid_formula e (system_mid c s e Sy Ie)); exact Ef|]. split; [exact Ie|].
  intros x Ix Fx. rewrite (mid_energy e (system_mid c s e Sy Ie)), (mid_energy x (system_mid c s x Sy Ix)). apply G; [exact Ix|]. rewrite (mid_formula x (system_mid c s x Sy Ix)) in Fx. exact Fx.
Qed.
Lemma stable_phases c s fs es : system c s -> Forall2 (most_stable_only C ents s) fs es -> Forall2 (only_stable_phase C ent epa0 s) fs es.
Proof.
  intros Sy F. induction F as [|f e fs es (Ef & Ie & G) F IH]; constructor; [|exact IH]. split; [rewrite (mid_formula e (system_mid c s e Sy Ie)) in Ef; exact Ef|]. split; [exact Ie|].
  intros x Ix Fx. rewrite <- (mid_energy e (system_mid c s e Sy Ie)), <- (mid_energy x (system_mid c s x Sy Ix)). apply G; [exact Ix|]. rewrite (mid_formula x (system_mid c s x Sy Ix)). exact Fx.
Qed.

Lemma kink_here r p : at_kink C ent build kinks epa0 mids (min_finder mchunk mjobs ts) r p -> kink_between C ents rxns net0 build kinks r p.
Proof.
  intros ((c & s & pd & a & b & ks & kink & (Hc & Hsr & k & Hk & Hs & Eb) & He & Ek & Ikink & F1 & F2) & _ & O). pose proof (system_of c k s Hc Hk Hs) as Sy. split.
  - exists c, s, pd, a, b, ks, kink. split; [exact Sy|]. split; [|split; [exact Eb|split; [exact He|split; [exact Ek|split; [exact Ikink|split; [exact (phases_stable c s _ _ Sy F1)|exact (phases_stable c s _ _ Sy F2)]]]]]].
    destruct Hsr as ((k' & (Ss & Hk') & L & _) & _). exists k'. split; [exact (sorted_nodup k' Ss)|]. split; [exact L|]. destruct Sy as (_ & Mc & _). intros el. rewrite Hk'. split.
    + intros [(j & Ij & Hj)|[]]. exists j. split; [exact Ij|]. apply mid_occurs; [apply Mc; exact Ij|exact Hj].
    + intros (j & Ij & Hj). left. exists j. split; [exact Ij|]. apply mid_occurs in Hj; [exact Hj|apply Mc; exact Ij].
  - cbn [min_finder mi_options mi_targets default_options o_tfunc] in O. destruct O as [O|(t & It & Tt & _)]; [contradiction (ts_some net0 Htarget ts Hts O)|]. exists t. split; [exact It|]. apply Hts. exact Tt.
Qed.

Lemma here_kink r p : sure_kink C ents rxns net0 build kinks r p -> surely_at_kink C ent build kinks epa0 mids (min_finder mchunk mjobs ts) r p.
Proof.
  intros ((c0 & kink & (Nc & Lc) & Mc0 & (el0 & Ne & Le & He) & H) & (t & It & Tt)).
  destruct (in_order c0 mids Nc Nmids) as (c & Sc & Pc); [intros i I; apply Hmids, Mc0; exact I|].
  assert (Mc : forall i, In i c -> mid i) by (intros i I; apply Mc0; exact (Permutation_in _ (Permutation_sym Pc) I)).
  destruct (sorted_set_spec el0) as (Ss & Hs). set (k := sorted_set el0) in *.
  assert (Hk : chemsys_of els [] c k).
  { split; [exact Ss|]. intros x. rewrite Hs, He. split.
    - intros (j & Ij & Hj). apply (Permutation_in _ Pc) in Ij. left. exists j. split; [exact Ij|]. apply mid_occurs in Hj; [exact Hj|apply Mc; exact Ij].
    - intros [(j & Ij & Hj)|[]]. exists j. split; [exact (Permutation_in _ (Permutation_sym Pc) Ij)|]. apply mid_occurs; [apply Mc; exact Ij|exact Hj]. }
  assert (Hc : combination mids [] c) by (split; [exact Sc|split; [rewrite <- (Permutation_length Pc); exact Lc|intros e _ []]]).
  set (s := filter (fun e => forallb (fun x => memb Nat.eqb x k) (els e)) mids).
  assert (Hw' : within els mids k s).
  { apply picks_filter. intros e _. rewrite forallb_forall. split; intros G x I; [apply memb_iff; apply G; exact I|apply memb_iff; apply G; exact I]. }
  pose proof (system_of c k s Hc Hk Hw') as Sy. destruct (H s (system_perm _ _ _ (Permutation_sym Pc) Sy)) as (F1 & F2 & pd & Eb & Hk').
  assert (Is : In t s). { clear -F2 It. revert It. induction F2 as [|f e fs es (_ & I & _) F IH]; intros [<-|J] || intros []; [exact I|apply IH; exact J]. }
  split; [|split; [left; reflexivity|right; exists t; split; [exact It|split; [apply Hts; exact Tt|intros []]]]].
  exists c, s, pd, kink. split; [split; [exact Hc|split; [split; [|split]|]]|split; [|split; [exact (stable_phases c s _ _ Sy F1)|exact (stable_phases c s _ _ Sy F2)]]].
  - exists k. split; [exact Hk|]. split; [|intros f [=]]. replace (length k) with (length el0); [exact Le|]. apply Permutation_length, NoDup_Permutation; [exact Ne|exact (sorted_nodup k Ss)|intros x; symmetry; apply Hs].
  - left. reflexivity.
  - right. cbn [min_finder mi_options default_options o_tfunc mi_targets]. pose proof (system_mid c s t Sy Is) as Mt. pose proof (mid_elems C ents Hels rxns net0 Hnet Hrxns t Mt) as Et. destruct (els t) as [|x l] eqn:Ex; [contradiction|].
    assert (Ix : In x (els t)) by (rewrite Ex; left; reflexivity). exists x. destruct Sy as (_ & _ & _ & Hin). apply Hin in Is as (_ & Is). destruct (Is x) as (j & Ij & Hj); [apply mid_occurs; assumption|].
    split; [left; exists j; split; [exact Ij|apply mid_occurs in Hj; [exact Hj|apply Mc; exact Ij]]|left; exists t; split; [apply Hts; exact Tt|exact Ix]].
  - exists k. split; [exact Hk|]. split; [exact Hw'|exact Eb].
  - intros a b Hab. apply Hk'. clear -Pc Hab. destruct Hab as [[-> ->]|[->| ->]].
    + apply Permutation_sym, Permutation_length_1_inv in Pc. left. split; [exact Pc|reflexivity].
    + apply Permutation_sym, Permutation_length_2_inv in Pc. right. destruct Pc as [->| ->]; auto.
    + apply Permutation_sym, Permutation_length_2_inv in Pc. right. destruct Pc as [->| ->]; auto.
Qed.
End Given.

(* --- one reaction at a kink --- *)
Notation solve := (entry_solve C ent).
Notation rank := (entry_rank C ent).
Lemma kink_reacts r p x : balance_object C ent solve rank r p = Ok x -> exists l, react_objects C ent solve rank r p tt = Ok l /\ In x l.
Proof.
  unfold balance_object, react_objects. destruct (real_balance C ent solve rank r p) as [y|]; [|discriminate]. cbn [bind]. intros [= <-]. eexists. split; [reflexivity|left; reflexivity].
Qed.
Lemma kink_one_way r p x : NoDup (r ++ p) -> balance_object C ent solve rank r p = Ok x -> er_constraints (see_object C x) <= 1 -> one_way C (formula C ent) (r ++ p).
Proof.
  intros N E Nc. assert (Rk : er_constraints (see_object C x) = num_constraints (length r) (length p) (rank r p)).
  { unfold balance_object in E. destruct (real_balance C ent solve rank r p) as [y|]; [|discriminate]. cbn [bind] in E. injection E as <-. reflexivity. }
  rewrite Rk, constraints_max in Nc. destruct (ways_rank C W (formula C ent) (map (formula C ent) r) (map (formula C ent) p) (r ++ p) N (map_app _ _ _)) as [_ Wy]. rewrite !map_length in Wy. fold (entry_rank C ent r p) in Wy.
  apply (ways_one C _ _ (length r + length p - rank r p)); [lia|exact Wy].
Qed.

(* --- the two enumerators --- *)
Definition found_by (r p : list nat) : Prop := (ub = true /\ might_react C ents rxns net0 r p) \/ (um = true /\ kink_between C ents rxns net0 build kinks r p).
Definition sure_by (r p : list nat) : Prop := (ub = true /\ might_react C ents rxns net0 r p) \/ (um = true /\ sure_kink C ents rxns net0 build kinks r p).
Hypothesis Hsense : um = true -> kinks_make_sense C ents rxns net0 build kinks.
Hypothesis Htidy : um = true -> tidy_kinks kinks.
Notation basics := (basic_objects C (exact_solve C) (exact_rank C) diagram wait chunk jobs ents).
Notation minis := (min_objects C (exact_solve C) (exact_rank C) build kinks pair_order mwait mchunk mjobs ents).
Definition sharp_options : Prop := forall targets mids xb xm, targets_of net0 = Ok targets -> intermediates C order ents rxns targets = Ok mids ->
  (if ub then basics mids (map e_id targets) else Ok []) = Ok xb -> (if um then minis mids (map e_id targets) else Ok []) = Ok xm -> sharp (map (set_rxn C) (xb ++ xm)).

(* What a reaction found looks like. *)
Definition fine (x : srxn) (Q : list nat -> list nat -> Prop) : Prop :=
  x_mu x = None /\ plain x /\ exists l r p, x_entries x = map here l /\ NoDup l /\ (forall i, In i l -> mid i) /\ length (x_coeffs x) = length l
  /\ NoDup (r ++ p) /\ p <> [] /\ Q r p /\ turns C ent r p x /\ one_way C (formula C ent) (r ++ p).
Definition covers (out : list srxn) (Q : list nat -> list nat -> Prop) : Prop := forall r p v, Q r p -> NoDup (map form0 (r ++ p)) -> only_combination C (map form0 (r ++ p)) v -> LinSpec.sides (length r) v ->
  exists x k, In x out /\ (0 < k)%Q /\ forall i, (amount x i == k * coef (r ++ p) v i)%Q.

Section Both.
Variable mids ts : list nat.
Hypothesis Nm : NoDup mids.
Hypothesis Hm : forall i, In i mids <-> mid i.
Hypothesis Hts : forall i, In i ts <-> target net0 i.

Lemma mids_some : mids <> [].
Proof. destruct Htarget as (t & Ht). assert (I : In t mids) by (apply Hm; right; left; exact Ht). intros ->. destruct I. Qed.
Lemma mids_elems : forall i, In i mids -> ReactionModel.elems C (e_comp (ent i)) <> [].
Proof. intros i I. apply (mid_elems C ents Hels rxns net0 Hnet Hrxns). apply Hm. exact I. Qed.
Lemma listed x : (forall e, In e (x_entries x) -> exists i, In i mids /\ e = here i) -> plain x -> exists l, x_entries x = map here l /\ NoDup l /\ (forall i, In i l -> mid i) /\ length (x_coeffs x) = length l.
Proof.
  intros He Px. assert (E : x_entries x = map here (map uid (x_entries x))) by (apply as_here; intros e I; destruct (He e I) as (i & _ & ->); exists i; reflexivity).
  exists (map uid (x_entries x)). split; [exact E|]. split; [destruct Px as (Np & _); rewrite E in Np; exact (NoDup_map_inv _ _ Np)|]. split; [|rewrite map_length; apply Px].
  intros i I. apply in_map_iff in I as (e & <- & I). destruct (He e I) as (j & J & ->). apply Hm. exact J.
Qed.

Lemma basic_made : (forall xs, basics mids ts = Ok xs -> sharp (map (set_rxn C) xs)) ->
  exists s out, set_of_objects C ent arrange argsort shuffle mids false (basics mids ts) = Ok s
  /\ (well_formed s /\ get_rxns s = Ok out /\ r_entries s = arrange (map here mids)) /\ (exists xs, basics mids ts = Ok xs /\ incl out (map (set_rxn C) xs))
  /\ (forall x, In x out -> fine x (might_react C ents rxns net0)) /\ covers out (might_react C ents rxns net0).
Proof.
  intros Sh. pose proof mids_some as Ne. pose proof mids_elems as Hel. pose proof (ent_id ents Hids) as Eid.
  assert (Us : usable (finder chunk jobs ts)) by (repeat split; cbn; try assumption; lia).
  destruct (free_set_made C W Hbig ent Eid diagram wait Hw mids Nm Ne Hel arrange Harr argsort Harg shuffle Hsh (finder chunk jobs ts) Us Sh) as (s & out & Es & (Ws & Gs & Ens & _ & _) & (xs & Ex & Inc) & Good & Comp).
  assert (Fine : forall x, In x out -> fine x (might_react C ents rxns net0)).
  { intros x Ix. destruct (Good x Ix) as (Px & He & r & p & (Lk & d & Hd & Wy) & T). split; [|split; [exact Px|]].
    - apply Inc in Ix. apply in_map_iff in Ix as (o & <- & _). reflexivity.
    - destruct (listed x He Px) as (l & E & Nl & Ml & Ll). pose proof (looks_might C ents rxns net0 Hnet Hrxns Htarget chunk jobs mids ts Nm Hm Hts r p Lk) as Mr. exists l, r, p. repeat (split; [assumption|]).
      split; [exact (might_nodup C ents rxns net0 r p Mr)|]. split; [destruct Mr as (_ & (_ & Lp) & _); destruct p; [cbn in Lp; lia|discriminate]|]. split; [exact Mr|]. split; [exact T|exact (ways_one C _ _ d Hd Wy)]. }
  exists s, out. split; [exact Es|]. split; [split; [exact Ws|split; [exact Gs|exact Ens]]|]. split; [exists xs; split; [exact Ex|exact Inc]|]. split; [exact Fine|].
  intros r p v Mr Nf0 O S. pose proof (might_nodup C ents rxns net0 r p Mr) as Nrp. destruct (might_looks C ents rxns net0 Hnet Hrxns chunk jobs mids ts Nm Hm Hts r p Mr) as (r' & p' & Pr & Pp & Lk). pose proof (Permutation_app Pr Pp) as Pm.
  assert (Mrp : forall i, In i (r ++ p) -> mid i) by apply Mr. destruct (reordered C ents rxns net0 chunk jobs Hchunk Hjobs r p r' p' v Nrp Mrp Pr Pp Nf0 O S) as (Nf & O' & S').
  destruct (Comp r' p' Lk) as (x & Ix & T); [split; [exact Nf|]; eexists; split; [exact O'|exact S']|].
  destruct (Fine x Ix) as (_ & Px & _). pose proof (Permutation_NoDup Pm Nrp) as Nrp'.
  pose proof (Inc x Ix) as Ixs. apply in_map_iff in Ixs as (o & Eo & Io). destruct (enumerated_seen C W Hbig ent Eid diagram wait Hw mids Nm Hel (finder chunk jobs ts) Us) as (xs' & Ex' & Seen).
  assert (xs' = xs) by (apply (f_equal (fun r => match r with Ok l => l | Err _ => [] end)) in Ex'; apply (f_equal (fun r => match r with Ok l => l | Err _ => [] end)) in Ex; cbv beta iota in Ex, Ex'; rewrite <- Ex, <- Ex'; reflexivity). subst xs'.
  destruct (Seen o Io) as (r0 & p0 & t & lo & ((Hr0 & Hp0) & _) & Er & Ilo).
  assert (E0 : x_entries x = map here (r0 ++ p0)).
  { rewrite <- Eo. destruct (real_balance_ok C ent (entry_solve C ent) (entry_rank C ent) r0 p0 Hr0 Hp0) as (b & Eb & Cb). unfold react_objects in Er. rewrite Eb in Er. cbn [bind] in Er. injection Er as <-.
    assert (Es' : map (set_entry C) (map ent r0 ++ map ent p0) = map here (r0 ++ p0)) by (rewrite <- map_app, map_map; apply map_ext; intros i; apply set_entry_here; exact Eid).
    destruct Ilo as [<-|[<-|[]]]; unfold set_rxn; cbn [ro_rxn x_entries]; [rewrite Cb; exact Es'|]. unfold computed_reverse, computed_init. cbn [c_entries]. rewrite Cb. exact Es'. }
  assert (P0 : Permutation (r' ++ p') (r0 ++ p0)) by (apply (sides_of C ents x (r0 ++ p0) r' p' Px E0 T Nrp')).
  assert (Hr' : r' <> []) by (apply looks_some in Lk; tauto). rewrite <- Eo in T.
  destruct (exact_object C W ent Eid r0 p0 t lo o r' p' _ Er Ilo Hr0 Hp0 Hr' Nrp' P0 T O' S') as (k & Pk & Hk). exists x, k. split; [exact Ix|]. split; [exact Pk|]. intros i. rewrite <- Eo, Hk.
  destruct (in_dec Nat.eq_dec i (r' ++ p')) as [I|I]; [rewrite coef_self by assumption; reflexivity|]. rewrite (coef_none _ _ i I), coef_none; [reflexivity|]. intros J. apply I. exact (Permutation_in _ Pm J).
Qed.

Lemma mini_made : um = true -> (forall xs, minis mids ts = Ok xs -> sharp (map (set_rxn C) xs)) ->
  exists s out, set_of_objects C ent arrange argsort shuffle mids false (minis mids ts) = Ok s
  /\ (well_formed s /\ get_rxns s = Ok out /\ r_entries s = arrange (map here mids)) /\ (exists xs, minis mids ts = Ok xs /\ incl out (map (set_rxn C) xs))
  /\ (forall x, In x out -> fine x (kink_between C ents rxns net0 build kinks)) /\ covers out (sure_kink C ents rxns net0 build kinks).
Proof.
  intros Hum Sh. pose proof mids_some as Ne. pose proof mids_elems as Hel. pose proof (ent_id ents Hids) as Eid. pose proof (interfaces_good mids Nm Hm (Hsense Hum)) as Hgood.
  assert (Us : minimizer_usable (min_finder mchunk mjobs ts)) by (repeat split; cbn; try assumption; lia).
  assert (Made : forall m, minimizer_usable m -> _) by exact (gibbs_spec C W Hbig ent Eid build kinks pair_order Hpair epa0 mwait Hmw mids Nm Hel Hgood (Htidy Hum)).
  destruct (general_set_made C ent Eid mids Nm Ne arrange Harr argsort Harg shuffle Hsh _ mi_duplicates minimizer_usable _ _ Made (min_finder mchunk mjobs ts) Us Sh) as (s & out & Es & (Ws & Gs & Ens & _ & _) & (xs & Ex & Inc) & _ & Comp).
  destruct (gibbs_made C W Hbig ent Eid build kinks pair_order Hpair epa0 mwait Hmw mids Nm Hel Hgood (Htidy Hum) (min_finder mchunk mjobs ts) Us) as (xs' & Ex' & Good & _).
  assert (xs' = xs) by (apply (f_equal (fun r => match r with Ok l => l | Err _ => [] end)) in Ex'; apply (f_equal (fun r => match r with Ok l => l | Err _ => [] end)) in Ex; cbv beta iota in Ex, Ex'; rewrite <- Ex, <- Ex'; reflexivity). subst xs'.
  assert (Fine : forall x, In x out -> fine x (kink_between C ents rxns net0 build kinks)).
  { intros x Ix. apply Inc, in_map_iff in Ix as (o & <- & Io). destruct (Good o Io) as (Px & He & r & p & Kk & T & Nrp & Hr & Hp & Eb & Nc). split; [reflexivity|]. split; [exact Px|].
    destruct (listed _ He Px) as (l & E & Nl & Ml & Ll). exists l, r, p. repeat (split; [assumption|]). split; [exact (kink_here mids ts Nm Hm Hts r p Kk)|]. split; [exact T|exact (kink_one_way r p o Nrp Eb Nc)]. }
  exists s, out. split; [exact Es|]. split; [split; [exact Ws|split; [exact Gs|exact Ens]]|]. split; [exists xs; split; [exact Ex|exact Inc]|]. split; [exact Fine|].
  intros r p v Mr Nf O S. pose proof (NoDup_map_inv _ _ Nf) as Nrp.
  destruct (Comp r p) as (x & Ix & T); [split; [exact (here_kink mids ts Nm Hm Hts r p Mr)|]; split; [exact Nf|]; exists v; split; [exact O|exact S]|].
  pose proof (Inc x Ix) as Ixs. apply in_map_iff in Ixs as (o & Eo & Io). destruct (Good o Io) as (Px & He & r0 & p0 & _ & T0 & Nrp0 & Hr0 & Hp0 & Eb & _). destruct (kink_reacts r0 p0 o Eb) as (lo & Er & Ilo).
  rewrite <- Eo in T. destruct (turns_sides C ent r0 p0 r p _ T0 T) as [S1 S2].
  assert (P0 : Permutation (r ++ p) (r0 ++ p0)).
  { apply NoDup_Permutation; [exact Nrp|exact Nrp0|]. intros i. rewrite !in_app_iff, (S1 i), (S2 i). reflexivity. }
  assert (Hr : r <> []). { intros ->. destruct r0 as [|i r0]; [contradiction|]. destruct (proj1 (S1 i) (or_introl eq_refl)). }
  destruct (exact_object C W ent Eid r0 p0 tt lo o r p v Er Ilo Hr0 Hp0 Hr Nrp P0 T O S) as (k & Pk & Hk). exists x, k. split; [exact Ix|]. split; [exact Pk|]. intros i. rewrite <- Eo. apply Hk.
Qed.
End Both.

Definition no_set : rset := rset_init [] [] [] None 0%Q None.
Lemma same_call b m sb sm es : (ub = true -> b = Ok sb) -> (um = true -> m = Ok sm) ->
  find_intermediate_rxns argsort shuffle arrange (below C ents cutoff) es None 0%Q ub um b b m m = find_intermediate_rxns argsort shuffle arrange (below C ents cutoff) es None 0%Q ub um (Ok sb) (Ok sb) (Ok sm) (Ok sm).
Proof. intros Hb Hm. unfold find_intermediate_rxns. destruct ub, um; rewrite ?Hb, ?Hm by reflexivity; reflexivity. Qed.

Lemma options_search : sharp_options -> exists ys,
  find_with_options C (exact_solve C) (exact_rank C) diagram build kinks pair_order arrange argsort shuffle wait mwait order chunk jobs mchunk mjobs cutoff ub um ents rxns net0 = Ok (map (fun x => RComputed (object_of C ents x)) ys)
  /\ (forall x, In x ys -> plain x /\ (exists l, x_entries x = map here l /\ NoDup l /\ (forall i, In i l -> mid i) /\ (NoDup (map form0 l) -> low C cutoff (combine (map ent l) (x_coeffs x))))
       /\ exists r p, NoDup (r ++ p) /\ found_by r p /\ turns C ent r p x /\ one_way C (formula C ent) (r ++ p))
  /\ (forall r p v, sure_by r p -> NoDup (map form0 (r ++ p)) -> only_combination C (map form0 (r ++ p)) v -> LinSpec.sides (length r) v -> low C cutoff (combine (map ent (r ++ p)) v) ->
       exists y k, In y ys /\ (0 < k)%Q /\ forall i, (amount y i == k * coef (r ++ p) v i)%Q)
  /\ ForallOrdPairs (fun x y => ~ multiples x y) ys.
Proof.
  intros Sh. destruct (mids_made C ents Hids rxns net0 Hnet Hrxns Hfull Hone order Hord) as (targets & mids & Et & Em & Hts & Nm & Hm & Emin).
  set (ts := map e_id targets) in *. pose proof (ent_id ents Hids) as Eid. specialize (Sh targets mids).
  assert (Xb : exists xb, (if ub then basics mids ts else Ok []) = Ok xb).
  { destruct ub; [|exists []; reflexivity]. destruct (enumerated_full C W Hbig ent Eid diagram wait Hw mids Nm (mids_elems mids Hm) (finder chunk jobs ts)) as (xs & E & _); [repeat split; cbn; try assumption; lia|]. exists xs. exact E. }
  assert (Xm : exists xm, (if um then minis mids ts else Ok []) = Ok xm).
  { assert (Hu : um = true \/ um = false) by (clear; destruct um; auto). destruct Hu as [Hum|Hum]; rewrite Hum; [|exists []; reflexivity].
    destruct (gibbs_made C W Hbig ent Eid build kinks pair_order Hpair epa0 mwait Hmw mids Nm (mids_elems mids Hm) (interfaces_good mids Nm Hm (Hsense Hum)) (Htidy Hum) (min_finder mchunk mjobs ts)) as (xs & E & _); [repeat split; cbn; try assumption; lia|]. exists xs. exact E. }
  destruct Xb as (xb & Xb), Xm as (xm & Xm). specialize (Sh xb xm Et Em Xb Xm). rewrite map_app in Sh.
  assert (Shb : sharp (map (set_rxn C) xb)) by (apply (sharp_incl _ _ (incl_appl _ (incl_refl _)) Sh)). assert (Shm : sharp (map (set_rxn C) xm)) by (apply (sharp_incl _ _ (incl_appr _ (incl_refl _)) Sh)).
  assert (B : exists sb ob, (ub = true -> set_of_objects C ent arrange argsort shuffle mids false (basics mids ts) = Ok sb /\ well_formed sb /\ get_rxns sb = Ok ob /\ r_entries sb = arrange (map here mids))
    /\ (ub = false -> ob = []) /\ incl ob (map (set_rxn C) xb) /\ (forall x, In x ob -> ub = true /\ fine x (might_react C ents rxns net0)) /\ (ub = true -> covers ob (might_react C ents rxns net0))).
  { destruct ub.
    - destruct (basic_made mids ts Nm Hm Hts) as (s & o & E & (K1 & K2 & K3) & (xs & Ex & Inc) & F & Cv); [intros xs Ex; rewrite Xb in Ex; injection Ex as <-; exact Shb|]. rewrite Xb in Ex. injection Ex as <-.
      exists s, o. split; [intros _; repeat (split; [assumption|]); assumption|]. split; [discriminate|]. split; [exact Inc|]. split; [intros x Ix; split; [reflexivity|exact (F x Ix)]|intros _; exact Cv].
    - exists no_set, []. split; [discriminate|]. split; [reflexivity|]. split; [intros x []|]. split; [intros x []|discriminate]. }
  assert (M : exists sm om, (um = true -> set_of_objects C ent arrange argsort shuffle mids false (minis mids ts) = Ok sm /\ well_formed sm /\ get_rxns sm = Ok om /\ r_entries sm = arrange (map here mids))
    /\ (um = false -> om = []) /\ incl om (map (set_rxn C) xm) /\ (forall x, In x om -> um = true /\ fine x (kink_between C ents rxns net0 build kinks)) /\ (um = true -> covers om (sure_kink C ents rxns net0 build kinks))).
  { assert (Hu : um = true \/ um = false) by (clear; destruct um; auto). destruct Hu as [Hum|Hum].
    - rewrite Hum in Xm. destruct (mini_made mids ts Nm Hm Hts Hum) as (s & o & E & (K1 & K2 & K3) & (xs & Ex & Inc) & F & Cv); [intros xs Ex; rewrite Xm in Ex; injection Ex as <-; exact Shm|]. rewrite Xm in Ex. injection Ex as <-.
      exists s, o. split; [intros _; repeat (split; [assumption|]); assumption|]. split; [congruence|]. split; [exact Inc|]. split; [intros x Ix; split; [exact Hum|exact (F x Ix)]|intros _; exact Cv].
    - exists no_set, []. split; [congruence|]. split; [reflexivity|]. split; [intros x []|]. split; [intros x []|congruence]. }
  destruct B as (sb & ob & Sb & Nb & Ib & Fb & Cb), M as (sm & om & Sm & No & Im & Fm & Cm).
  set (out := ob ++ om).
  assert (Items : forall x, In x out -> fine x found_by).
  { intros x Ix. apply in_app_iff in Ix as [Ix|Ix].
    - destruct (Fb x Ix) as (Hub & Hmu & Px & l & r & p & E & Nl & Ml & Ll & Nrp & Hp & Q & T). split; [exact Hmu|]. split; [exact Px|]. exists l, r, p. repeat (split; [assumption|]). split; [left; split; assumption|exact T].
    - destruct (Fm x Ix) as (Hum & Hmu & Px & l & r & p & E & Nl & Ml & Ll & Nrp & Hp & Q & T). split; [exact Hmu|]. split; [exact Px|]. exists l, r, p. repeat (split; [assumption|]). split; [right; split; assumption|exact T]. }
  assert (Cover : covers out sure_by).
  { intros r p v [(Hub & Q)|(Hum & Q)] N O S.
    - destruct (Cb Hub r p v Q N O S) as (x & k & Ix & H). exists x, k. split; [apply in_app_iff; left; exact Ix|exact H].
    - destruct (Cm Hum r p v Q N O S) as (x & k & Ix & H). exists x, k. split; [apply in_app_iff; right; exact Ix|exact H]. }
  assert (En : forall x l, In x out -> x_entries x = map here l -> NoDup l -> (forall i, In i l -> mid i) -> exists v, computed_energy_per_atom C (object_of C ents x) = Ok v /\ (NoDup (map form0 l) -> (v < cutoff)%Q <-> low C cutoff (combine (map ent l) (x_coeffs x)))).
  { intros x l Ix E Nl Ml. destruct (Items x Ix) as (_ & (_ & Lc & _) & _ & r & p & _ & _ & _ & _ & _ & Hp & _ & (_ & Mk & _) & _).
    destruct p as [|i p]; [contradiction|]. destruct (proj2 (Mk (here i)) (ex_intro _ i (conj (or_introl eq_refl) eq_refl))) as (c & Tc & Pc).
    assert (L0 : length (map ent l) = length (x_coeffs x)) by (rewrite map_length, Lc, E, map_length; reflexivity).
    assert (E0 : forall e, In e (map ent l) -> ReactionModel.elems C (e_comp e) <> []) by (intros e I; apply in_map_iff in I as (j & <- & J); apply (mids_elems mids Hm), Hm, Ml; exact J).
    assert (K0 : exists k, In k (x_coeffs x) /\ (0 < k)%Q) by (exists c; split; [exact (in_combine_r _ _ _ _ Tc)|exact Pc]).
    destruct (energy_some C W (map ent l) (x_coeffs x) L0 E0 K0) as (v & Ev). exists v. rewrite (object_items C ents x l E). split; [exact Ev|]. intros Nf.
    destruct (energy_value C W (map ent l) (x_coeffs x)) as (v' & Ev' & Pv & Hv); [rewrite map_map; exact Nf|exact L0|exact E0|exact K0|]. rewrite Ev in Ev'. injection Ev' as <-. exact (low_iff C _ _ v cutoff Pv Hv). }
  assert (Bel : forall x l, In x out -> x_entries x = map here l -> NoDup l -> (forall i, In i l -> mid i) -> NoDup (map form0 l) -> (below C ents cutoff x = true <-> low C cutoff (combine (map ent l) (x_coeffs x)))).
  { intros x l Ix E Nl Ml Nf. destruct (En x l Ix E Nl Ml) as (v & Ev & Hv). unfold below. rewrite Ev, Qlt_bool_iff'. exact (Hv Nf). }
  assert (Mu : forall x, In x out -> with_mu None x = x). { intros x Ix. destruct (Items x Ix) as (Hx & _). destruct x as [a b c d]. cbn in *. subst d. reflexivity. }
  assert (Ea : kept_sets None ub um ob ob om = out).
  { unfold kept_sets, out. rewrite app_nil_r. destruct ub; [|rewrite (Nb eq_refl)]; (destruct um; [|rewrite (No eq_refl)]); reflexivity. }
  destruct (intermediates_spec argsort shuffle Harg Hsh arrange Harr (below C ents cutoff) (arrange (map here mids)) None 0%Q ub um sb sb sm sm ob ob om) as (kept & ys & Ek & _ & Gk & Sound & Complete & Once).
  { intros a b Ia Ib' Eu. apply (proj2 (Harr (map here mids))) in Ia. apply (proj2 (Harr (map here mids))) in Ib'. exact (uid_here C ent mids a b Ia Ib' Eu). }
  { intros H. apply (Sb H). }
  { intros _ H. contradiction H. reflexivity. }
  { intros H. apply (Sm H). }
  { intros _ H. contradiction H. reflexivity. }
  { rewrite Ea. intros x Ix. apply (Items x Ix). }
  { rewrite Ea. apply (sharp_incl (map (set_rxn C) xb ++ map (set_rxn C) xm)); [|exact Sh]. intros x Ix. apply in_app_iff in Ix as [Ix|Ix]; apply in_app_iff; [left; apply Ib|right; apply Im]; exact Ix. }
  rewrite Ea in Sound, Complete. cbn in Sound, Complete.
  assert (Yout : forall y, In y ys -> In y out /\ below C ents cutoff y = true).
  { intros y Iy. destruct (Sound y Iy) as (x & Ix & -> & Bx & _). rewrite (Mu x Ix) in *. split; assumption. }
  exists ys. split; [|split; [|split; [|exact Once]]].
  - unfold find_with_options. rewrite Et. cbn [bind]. rewrite Em. cbn [bind]. rewrite Emin. cbn [bind]. fold ts.
    assert (Gb : (if ub then bind (set_of_objects C ent arrange argsort shuffle mids false (basics mids ts)) get_rxns else Ok []) = Ok ob).
    { destruct ub; [|rewrite (Nb eq_refl); reflexivity]. destruct (Sb eq_refl) as (-> & _ & G & _). exact G. }
    assert (Gm : (if um then bind (set_of_objects C ent arrange argsort shuffle mids false (minis mids ts)) get_rxns else Ok []) = Ok om).
    { destruct um; [|rewrite (No eq_refl); reflexivity]. destruct (Sm eq_refl) as (-> & _ & G & _). exact G. }
    rewrite Gb. cbn [bind]. rewrite Gm. cbn [bind]. fold out.
    assert (Eall : exists vs, mapM (fun x => computed_energy_per_atom C (object_of C ents x)) out = Ok vs).
    { assert (H : forall x, In x out -> exists v, computed_energy_per_atom C (object_of C ents x) = Ok v).
      { intros x Ix. destruct (Items x Ix) as (_ & _ & l & r & p & E & Nl & Ml & _). destruct (En x l Ix E Nl Ml) as (v & Ev & _). exists v. exact Ev. }
      clear -H. induction out as [|x out IH]; [exists []; reflexivity|]. destruct (H x (or_introl eq_refl)) as (v & Ev). destruct IH as (vs & Evs); [intros y Iy; apply H; right; exact Iy|]. exists (v :: vs). cbn. rewrite Ev. cbn. rewrite Evs. reflexivity. }
    destruct Eall as (vs & ->). cbn [bind]. rewrite (map_ext _ here (fun i => set_entry_here C ent Eid i)).
    rewrite (same_call _ _ sb sm _ (fun H => proj1 (Sb H)) (fun H => proj1 (Sm H))), Ek. cbn [bind]. rewrite Gk. reflexivity.
  - intros y Iy. destruct (Yout y Iy) as (Io & Bx). destruct (Items y Io) as (_ & Px & l & r & p & E & Nl & Ml & _ & Nrp & _ & Q & T). split; [exact Px|]. split.
    + exists l. split; [exact E|]. split; [exact Nl|]. split; [exact Ml|]. intros Nf. apply (Bel y l Io E Nl Ml Nf). exact Bx.
    + exists r, p. split; [exact Nrp|]. split; [exact Q|exact T].
  - intros r p v Q Nf0 O S Low. pose proof (NoDup_map_inv _ _ Nf0) as Nrp. destruct (Cover r p v Q Nf0 O S) as (x & k & Ix & Pk & Hk). destruct (Items x Ix) as (_ & Px & l & _ & _ & E & Nl & Ml & Ll & _).
    assert (Pl : Permutation (r ++ p) l).
    { apply NoDup_Permutation; [exact Nrp|exact Nl|]. destruct O as ((Lv & _) & Nz & _). rewrite map_length in Lv. intros i.
      assert (Ai : (amount x i == coef l (x_coeffs x) i)%Q) by exact (amount_here C ent x l (x_coeffs x) i E eq_refl). split; intros I.
      - destruct (in_dec Nat.eq_dec i l) as [J|J]; [exact J|exfalso]. rewrite (coef_none l _ i J), Hk in Ai. apply In_nth_error in I as (j & Ej). destruct (nth_error v j) as [a|] eqn:Ev; [|apply nth_error_None in Ev; assert (j < length (r ++ p)) by (apply nth_error_Some; rewrite Ej; discriminate); lia].
        rewrite (coef_nth _ _ j i a Nrp Lv Ej Ev) in Ai. apply (Nz a (nth_error_In _ _ Ev)). apply Qmult_integral in Ai as [Ai|Ai]; [lra|exact Ai].
      - destruct (in_dec Nat.eq_dec i (r ++ p)) as [J|J]; [exact J|exfalso]. rewrite Hk, (coef_none _ _ i J), Qmult_0_r in Ai. destruct Px as (_ & _ & Z). apply In_nth_error in I as (j & Ej). destruct (nth_error (x_coeffs x) j) as [a|] eqn:Ev; [|apply nth_error_None in Ev; assert (j < length l) by (apply nth_error_Some; rewrite Ej; discriminate); lia].
        rewrite (coef_nth _ _ j i a Nl Ll Ej Ev) in Ai. apply (Z a (nth_error_In _ _ Ev)). symmetry. exact Ai. }
    destruct O as ((Lv & _) & _). rewrite map_length in Lv.
    assert (Bx : below C ents cutoff x = true).
    { apply (Bel x l Ix E Nl Ml); [exact (Permutation_NoDup (Permutation_map form0 Pl) Nf0)|]. apply (low_scaled C ent cutoff (r ++ p) l v (x_coeffs x) k Nrp); [exact Pl|exact Lv|exact Ll|exact Pk| |exact Low]. intros i. rewrite <- (amount_here C ent x l (x_coeffs x) i E eq_refl). apply Hk. }
    destruct (Complete x Ix) as (y & Iy & My); [rewrite (Mu x Ix); exact Bx| |].
    + intros e Ie. apply (proj2 (Harr (map here mids))). rewrite E in Ie. apply in_map_iff in Ie as (i & <- & I). apply in_map, Hm, Ml. exact I.
    + destruct (multiples_amount x y My) as (k' & Pk' & Hk'). exists y, (k' * k)%Q. split; [exact Iy|]. split; [apply Qmult_lt_0_compat; assumption|]. intros i. rewrite Hk', Hk. ring.
Qed.

Theorem options_spec : sharp_options -> exists ys,
  find_with_options C (exact_solve C) (exact_rank C) diagram build kinks pair_order arrange argsort shuffle wait mwait order chunk jobs mchunk mjobs cutoff ub um ents rxns net0 = Ok ys
  /\ (forall y, In y ys -> of_entries ents y /\ (distinct C (parts y) -> low C cutoff (parts y)) /\ exists r p, found_by r p /\ turns_into C r p y /\ one_way C (formula_at C ents) (r ++ p))
  /\ (forall r p es v, sure_by r p -> Forall2 (fun i e => nth_error ents i = Some e) (r ++ p) es -> NoDup (map (fun e => red C (e_comp e)) es) -> only_combination C (map (fun e => red C (e_comp e)) es) v -> LinSpec.sides (length r) v -> low C cutoff (combine es v) ->
       exists y k, In y ys /\ (0 < k)%Q /\ (forall j i a, nth_error (r ++ p) j = Some i -> nth_error v j = Some a -> (turnover y i == k * a)%Q) /\ forall i, ~ In i (r ++ p) -> (turnover y i == 0)%Q)
  /\ ForallOrdPairs (fun x y => ~ ChainFindSpec.proportional x y) ys.
Proof.
  intros Sh. destruct (options_search Sh) as (ys & E & Sound & Comp & Once). pose proof (ent_id ents Hids) as Eid. eexists. split; [exact E|]. split; [|split].
  - intros y Iy. apply in_map_iff in Iy as (x & <- & Ix). destruct (Sound x Ix) as (Px & (l & El & Nl & Ml & Low) & r & p & Nrp & Q & T & Ow). split; [|split].
    + exists (object_of C ents x). split; [reflexivity|]. rewrite (object_items C ents x l El). unfold computed_init. cbn [c_base c_entries coeffs basic_init]. split; [rewrite map_length; destruct Px as (_ & L & _); rewrite L, El, map_length; reflexivity|].
      intros e I. apply in_map_iff in I as (i & <- & I). rewrite Eid. apply mid_at, Ml. exact I.
    + rewrite (object_parts C ents x l El). intros Nf. apply Low. unfold distinct in Nf. rewrite <- (map_map fst (fun e => red C (e_comp e))), map_fst_combined, map_map in Nf; [exact Nf|]. destruct Px as (_ & L & _). rewrite map_length, L, El, map_length. reflexivity.
    + exists r, p. split; [exact Q|]. split; [exact (turns_turnover C ents Hids x l r p Px El T Nrp)|]. eapply one_way_same; [|exact Ow].
      intros i I. pose proof (sides_of C ents x l r p Px El T Nrp) as Pl. rewrite (mid_formula i (Ml i (Permutation_in _ Pl I))). reflexivity.
  - intros r p es v Q F Nf O S Low. assert (Ees : es = map ent (r ++ p)). { clear -F. induction F as [|i e l es H F IH]; [reflexivity|]. cbn [map]. rewrite (ent_some ents i e H), IH. reflexivity. }
    subst es. rewrite map_map in O, Nf. pose proof (NoDup_map_inv _ _ Nf) as Nrp. destruct (Comp r p v Q Nf O S Low) as (x & k & Ix & Pk & Hk). exists (RComputed (object_of C ents x)), k. split; [apply in_map_iff; exists x; split; [reflexivity|exact Ix]|]. split; [exact Pk|].
    destruct (Sound x Ix) as (_ & (l & El & _) & _). destruct O as ((Lv & _) & _). rewrite map_length in Lv. split.
    + intros j i a Ej Ea. rewrite (object_turnover C ents Hids x l i El), Hk, (coef_nth _ _ j i a Nrp Lv Ej Ea). reflexivity.
    + intros i I. rewrite (object_turnover C ents Hids x l i El), Hk, (coef_none _ _ i I). ring.
  - clear E Comp. induction Once as [|x ys F Once IH]; cbn [map]; constructor.
    + rewrite Forall_forall in F. apply Forall_forall. intros r' I. apply in_map_iff in I as (y & <- & Iy). intros (k & Pk & Hk). apply (F y Iy). destruct (Sound x (or_introl eq_refl)) as (Px & (l & El & _) & _). destruct (Sound y (or_intror Iy)) as (Py & (m & Em & _) & _).
      apply NetJobProofs.multiples_sym, (scaled_multiples x y k Px Py); [|exact Pk|].
      * intros a b Ia Ib. rewrite El, Em, <- map_app in Ia, Ib. apply (uid_here C ent (l ++ m)); assumption.
      * intros u. specialize (Hk u). rewrite (object_turnover C ents Hids x l u El), (object_turnover C ents Hids y m u Em) in Hk. exact Hk.
    + apply IH. intros y Iy. apply Sound. right. exact Iy.
Qed.
End Main.
