(* Proofs about a flow with minimising enumerators: C142. *)
From Coq Require Import Lqa FinFun.
From Verif Require Import Prelude NumQ SumQ ListFacts UtilsModel UtilsSpec UtilsProofs ReactionModel ReactionSpec ReactionBaseProofs ReactionBalanceProofs RxnSetModel RxnSetSpec RxnSetBaseProofs RxnSetParProofs EnumModel EnumSpec EnumProofs EnumReactProofs EnumLinkModel EnumLinkProofs
  EntrySetModel EntrySetSpec LinModel LinSpec LinProofs LinBalanceProofs NetModel YenModel YenSpec ShortestPath FlowModel NetJobModel NetJobSpec RunModel MinModel MinSpec MinProofs JoinModel JoinSpec JoinProofs MinJoinModel MinJoinSpec.
Open Scope nat_scope.

Section MinJoin.
Variable C : chem.
Hypothesis W : wf_chem C.
Hypothesis Hbig : forall c e, In e (ReactionModel.elems C c) -> (1 # 100 < amt C (red C c) e)%Q.
Variable ent : nat -> entry.
Hypothesis Hid : forall i, e_id (ent i) = i.
Notation solve := (entry_solve C ent).
Notation rank := (entry_rank C ent).
Notation els := (fun i => ReactionModel.elems C (e_comp (ent i))).
Notation form0 := (formula C ent).
Notation here := (in_set C ent).

(* --- a phase that does not react --- *)
Lemma same_only c : (exists e, ~ (amt C c e == 0)%Q) -> only_combination C ([c] ++ [c]) [(-1)%Q; 1%Q].
Proof.
  intros (e & He). split; [|split].
  - split; [reflexivity|]. intros e'. unfold ReactionSpec.net. cbn [app combine]. rewrite !sumQ_cons. cbn. ring.
  - intros k [<-|[<-|[]]] Z; vm_compute in Z; discriminate.
  - intros w (L & K). destruct w as [|x [|y [|]]]; try discriminate. specialize (K e). unfold ReactionSpec.net in K. cbn [app combine] in K. rewrite !sumQ_cons in K. cbn [sumQ fold_right map fst snd] in K.
    assert (Z : (x + y == 0)%Q). { apply (Qmult_integral_l (amt C c e)); [exact He|]. rewrite Qmult_plus_distr_r. revert K. cbn. intros K. lra. }
    exists y. repeat constructor; lra.
Qed.

Lemma identity_dropped a b x : form0 a = form0 b -> els a <> [] -> real_balance C ent solve rank [a] [b] = Ok x -> is_identity (c_base x) = true.
Proof.
  intros Ef Ne Ex. set (c := form0 a). assert (Hc : exists e, ~ (amt C c e == 0)%Q).
  { destruct (els a) as [|e l] eqn:E; [contradiction|]. exists e. assert (I : In e (els a)) by (rewrite E; left; reflexivity). pose proof (Hbig _ _ I). unfold c, formula. lra. }
  pose proof (same_only c Hc) as Hv. pose proof (exact_rank_bound C W [c] [c] _ Hv) as Rk.
  destruct (determined_coeffs C W [c] [c] _ (solve [a] [b]) (rank [a] [b]) Hv) as (ks & m & t & E & Tn & M & _).
  { cbn. lia. }
  { unfold entry_rank. cbn [map]. rewrite <- Ef. exact Rk. }
  { intros l Hl. unfold entry_solve. cbn [map]. rewrite <- Ef. unfold entry_rank in Hl. cbn [map] in Hl. rewrite <- Ef in Hl. apply (exact_fits C [c] [c] _ l) in Hl. exact Hl. }
  unfold real_balance, computed_balance in Ex. cbn [map length Nat.add Nat.eqb] in Ex. change (red C (e_comp (ent a))) with c in Ex. change (red C (e_comp (ent b))) with (form0 b) in Ex. rewrite <- Ef in Ex. change (form0 a) with c in Ex. rewrite E in Ex.
  injection Ex as <-. inversion M as [|? k1 ? l1 M1 M']; subst. inversion M' as [|? k2 ? l2 M2 M'']; subst. inversion M''; subst.
  unfold computed_init. cbn [c_base map app]. change (red C (e_comp (ent a))) with c. change (red C (e_comp (ent b))) with (form0 b). rewrite <- Ef. change (form0 a) with c.
  unfold is_identity, reactants, products, basic_init. cbn [reactant_coeffs product_coeffs balanced combine filter snd].
  assert (Cl : forall x y, (x * -1 == y)%Q -> isclose (x * -1) y = true).
  { intros q q' G. unfold isclose. apply Qle_bool_iff. rewrite G. setoid_replace (q' - q')%Q with 0%Q by ring. cbn. pose proof (Qabs_nonneg q'). lra. }
  assert (B : forall q q', (Qlt_bool q q' = true <-> q < q')%Q) by (intros; apply Qlt_bool_iff').
  assert (Bf : forall q q', ((~ q < q') -> Qlt_bool q q' = false)%Q) by (intros q q' G; apply not_true_iff_false; rewrite B; exact G).
  destruct (Q_dec t 0%Q) as [[L|L]|L]; [| |contradiction].
  - rewrite (Bf k1 0%Q), (proj2 (B k2 0%Q)), (proj2 (B 0%Q k1)), (Bf 0%Q k2) by lra. match goal with |- context [almost_equal_totals ?A ?B0 ?C0] => generalize (almost_equal_totals A B0 C0); intros bl end. change (ReactionModel.dict_of [(c, k1)]) with [(c, k1)]. change (ReactionModel.dict_of [(c, k2)]) with [(c, k2)]. unfold ReactionModel.same_set. cbn [map fst snd forallb memb existsb]. rewrite Nat.eqb_refl. cbn [andb orb negb]. destruct bl; [|reflexivity]. cbn [negb forallb fst snd dict_get]. rewrite ?Nat.eqb_refl, Cl by lra. reflexivity.
  - rewrite (proj2 (B k1 0%Q)), (Bf k2 0%Q), (Bf 0%Q k1), (proj2 (B 0%Q k2)) by lra. match goal with |- context [almost_equal_totals ?A ?B0 ?C0] => generalize (almost_equal_totals A B0 C0); intros bl end. change (ReactionModel.dict_of [(c, k1)]) with [(c, k1)]. change (ReactionModel.dict_of [(c, k2)]) with [(c, k2)]. unfold ReactionModel.same_set. cbn [map fst snd forallb memb existsb]. rewrite Nat.eqb_refl. cbn [andb orb negb]. destruct bl; [|reflexivity]. cbn [negb forallb fst snd dict_get]. rewrite ?Nat.eqb_refl, Cl by lra. reflexivity.
Qed.

(* --- one reaction --- *)
Lemma balance_object_ok r p : r <> [] -> p <> [] -> exists x, balance_object C ent solve rank r p = Ok x.
Proof. intros Hr Hp. unfold balance_object. destruct (real_balance_ok C ent solve rank r p Hr Hp) as (x & -> & _). eexists. reflexivity. Qed.

Lemma object_made r p x : r <> [] -> p <> [] -> balance_object C ent solve rank r p = Ok x -> er_errors (see_object C x) = Some 0 ->
  turns C ent r p (set_rxn C x) /\ x_entries (set_rxn C x) = map here (r ++ p) /\ length (x_coeffs (set_rxn C x)) = length (r ++ p)
  /\ (forall c, In c (x_coeffs (set_rxn C x)) -> ~ (c == 0)%Q)
  /\ EnumSpec.same_set (er_reactants (see_object C x)) r /\ EnumSpec.same_set (er_products (see_object C x)) p.
Proof.
  intros Hr Hp E Z. unfold balance_object in E. destruct (real_balance C ent solve rank r p) as [y|] eqn:By; [|discriminate]. cbn [bind] in E. injection E as <-. cbn in Z.
  destruct (balance_split C W ent solve rank (entry_solve_length C ent) r p y Hr Hp By Z) as (kr & kp & Ee & Ek & Lr & Lp & Hkr & Hkp & Hn).
  assert (Es : map (set_entry C) (map ent (r ++ p)) = map here (r ++ p)) by (rewrite map_map; apply map_ext; intros i; apply set_entry_here; exact Hid).
  set (x := {| ro_rxn := y; ro_constraints := _ |}). assert (T : turns C ent r p (set_rxn C x)).
  { apply (turns_by_sign C ent r p kr kp); try assumption; unfold set_rxn, x; cbn [x_entries x_coeffs ro_rxn]; rewrite Ee, Es, Ek.
    - rewrite map_app, combine_app by (rewrite map_length; exact Lr). apply Permutation_refl.
    - intros el. rewrite sum_here. apply Hn. }
  split; [exact T|]. split; [unfold set_rxn, x; cbn [x_entries ro_rxn]; rewrite Ee; exact Es|]. split; [unfold set_rxn, x; cbn [x_coeffs ro_rxn]; rewrite Ek, !app_length; lia|]. split.
  - unfold set_rxn, x. cbn [x_coeffs ro_rxn]. rewrite Ek. intros c Hc Zc. apply in_app_iff in Hc as [Hc|Hc]; [specialize (Hkr c Hc)|specialize (Hkp c Hc)]; rewrite Zc in *; lra.
  - apply (seen_sides C ent); [|exact T]. unfold x. cbn [ro_rxn]. rewrite Ee, Ek, map_length, !app_length. lia.
Qed.

Section Enumerator.
Context {P : Type}.
Variable build : list nat -> result P.
Variable kinks : P -> nat -> nat -> result (list (list nat * list nat)).
Variable order : list nat -> list nat.
Hypothesis Hord : forall l, Permutation (order l) l.
Variable epa : nat -> Q.
Variable mwait : nat -> list (list (list (list nat * list nat) * option (list nat * P))) ->
  list (list (list (list nat * list nat) * option (list nat * P))) * list (list (list (list nat * list nat) * option (list nat * P))).
Hypothesis Hmw : valid_schedule mwait.
Variable entries : list nat.
Hypothesis Hn : NoDup entries.
Hypothesis Hel : forall e, In e entries -> els e <> [].
Hypothesis Hgood : good_interfaces els form0 build kinks entries [].
Hypothesis Htidy : tidy_kinks kinks.

Lemma picks_members {A} (Q : A -> Prop) l l' : picks Q l l' -> forall x, In x l' <-> In x l /\ Q x.
Proof.
  intros H. induction H as [|x l out HP H IH|x l out HP H IH]; intros y; cbn [In].
  - tauto.
  - rewrite IH. split; [intros [<-|[I Qy]]; auto|intros [[<-|I] Qy]; auto].
  - rewrite IH. split; [tauto|intros [[<-|I] Qy]; tauto].
Qed.

Lemma formulas_of s fs es : Forall2 (fun f e => form0 e = f /\ ground_state form0 epa (fun m => In m s) e) fs es -> map form0 es = fs /\ incl es s /\ Forall2 (stable_phase C ent epa s) fs es.
Proof.
  intros F. induction F as [|f e fs es (Ef & (I & G)) F (IH1 & IH2 & IH3)]; [repeat split; [intros x []|constructor]|]. split; [cbn; congruence|]. split; [intros x [<-|H]; auto|].
  constructor; [|exact IH3]. split; [exact Ef|]. split; [exact I|]. intros x Hx Hf. apply G; [exact Hx|]. rewrite Ef. exact Hf.
Qed.
Lemma surely_ground s fs es es' : Forall2 (only_stable_phase C ent epa s) fs es -> Forall2 (fun f e => form0 e = f /\ ground_state form0 epa (fun m => In m s) e) fs es' -> es' = es.
Proof.
  intros F. revert es'. induction F as [|f e fs es (Ef & I & G) F IH]; intros es' F'; inversion F' as [|? e' ? l' (Ef' & (I' & G')) F'']; subst; [reflexivity|]. f_equal; [|apply IH; exact F''].
  destruct (G e' I' Ef') as [->|L]; [reflexivity|]. specialize (G' e I (eq_sym Ef')). lra.
Qed.

Lemma gibbs_made m : minimizer_usable m -> exists xs, gibbs_enumerated C ent solve rank build kinks order epa mwait entries m = Ok xs
  /\ (forall x, In x xs -> plain (set_rxn C x) /\ (forall e, In e (x_entries (set_rxn C x)) -> exists i, In i entries /\ e = here i)
       /\ exists r p, at_kink C ent build kinks epa entries m r p /\ turns C ent r p (set_rxn C x)
            /\ NoDup (r ++ p) /\ r <> [] /\ p <> [] /\ balance_object C ent solve rank r p = Ok x /\ er_constraints (see_object C x) <= o_constraints (mi_options m))
  /\ forall r p, surely_at_kink C ent build kinks epa entries m r p /\ determined C form0 r p -> exists x, In x xs /\ turns C ent r p (set_rxn C x).
Proof.
  intros (Hon & Hch & H1 & H2 & Hc). set (o := mi_options m) in *. set (pre := mi_precursors m). set (tar := mi_targets m).
  destruct (diagrams_ok els form0 build kinks o entries pre tar [] (fun x (H : In x []) => match H with end) Hon Hgood) as (ds & Ed).
  destruct (min_kept els form0 epa build kinks (balance_object C ent solve rank) order Hord balance_object_ok o entries pre tar [] Hn Hel (fun x (H : In x []) => match H with end) Hch Hon Hgood (see_object C)
    (gibbs_react form0 epa kinks (balance_object C ent solve rank) order) (fun _ _ _ _ => eq_refl) ds Ed) as (ys & cs & outs & Ey & N & Ics & F & Pm).
  set (dg := fun k => lookup list_eqb k (combine (map fst (combos_dict els o entries pre tar [])) ds)) in *.
  assert (Hlen : forall cs : list (list nat), minimize_iter_length cs [] = length (minimize_iterable cs [])) by (intros; unfold minimize_iterable; rewrite map_length; reflexivity).
  pose proof (keep_all (see_object C) els minimize_iterable minimize_iter_length (gibbs_react form0 epa kinks (balance_object C ent solve rank) order) dg o entries pre tar [] [] mwait H1 H2 Hmw Hlen) as A.
  change (cat (fun kp => keep_pair (see_object C) (gibbs_react form0 epa kinks (balance_object C ent solve rank) order) o pre tar [] (dg (fst kp)) (snd kp)) (tagged (map (fun kv => (fst kv, minimize_iterable (snd kv) [])) (combos_dict els o entries pre tar []))) = Ok ys) in Ey.
  rewrite Ey in A. unfold gibbs_enumerated. fold o pre tar. change (fun i => red C (e_comp (ent i))) with form0. rewrite Ed. cbn [bind]. fold dg.
  destruct (keep_rxns _ _ _ _ _ _ _ _ _ _ _ _ _) as [xs|]; [|destruct A]. cbn [agree] in A. exists xs. split; [reflexivity|].
  assert (Mem : forall x, In x xs <-> In x (concat outs)).
  { intros x. split; intros I; [apply (Permutation_in _ Pm), (Permutation_in _ A); exact I|apply (Permutation_in _ (Permutation_sym A)), (Permutation_in _ (Permutation_sym Pm)); exact I]. }
  split.
  - intros x Ix. apply Mem, in_concat in Ix as (rs & Irs & Ix). destruct (Forall2_In_r _ _ _ _ F Irs) as (c & Ic & k & s & pd & a & b & ks & all & Hk & Hs & Eb & He & Ek & Fa & Pk).
    apply (picks_members _ _ _ Pk) in Ix as [Ix ((Hi & _ & Her & Hnc) & (W1 & W2))]. destruct (Forall2_In_r _ _ _ _ Fa Ix) as (kink & Ikink & r & p & F1 & F2 & Ex).
    destruct (formulas_of _ _ _ F1) as (M1 & S1 & T1). destruct (formulas_of _ _ _ F2) as (M2 & S2 & T2). apply Ics in Ic as [Hcomb Hsrch].
    assert (Sub : incl s entries). { intros e I. apply (picks_members _ _ _ Hs) in I as [I _]. exact I. }
    destruct (Hgood c k s Hcomb Hk Hs) as (pd' & Eb' & Hkk). assert (pd' = pd) as -> by congruence.
    assert (Iab : In a c /\ In b c) by (destruct He as [[-> ->]|[->| ->]]; cbn; auto). destruct (Hkk a b (proj1 Iab) (proj2 Iab)) as (ks' & Ek' & Hks). assert (ks' = ks) as -> by congruence.
    destruct (Hks kink Ikink) as (Nr & Np & _). assert (Hr : r <> []) by (intros ->; apply Nr; rewrite <- M1; reflexivity). assert (Hp : p <> []) by (intros ->; apply Np; rewrite <- M2; reflexivity).
    destruct (object_made r p x Hr Hp Ex Her) as (T & E1 & E2 & E3 & R1 & R2). destruct (Htidy pd a b ks kink Ek Ikink) as (N1 & N2 & Sides).
    assert (Nrp : NoDup (r ++ p)).
    { rewrite <- M1 in N1. rewrite <- M2 in N2. apply NoDup_app_intro; [exact (NoDup_map_inv _ _ N1)|exact (NoDup_map_inv _ _ N2)|]. intros i I1 I2. destruct Sides as [Dj|(f & ->)].
      - apply (Dj (form0 i)); [rewrite <- M1|rewrite <- M2]; apply in_map; assumption.
      - cbn [fst snd] in M1, M2. destruct r as [|a0 [|]]; try discriminate. destruct p as [|b0 [|]]; try discriminate. injection M1 as M1. injection M2 as M2.
        unfold balance_object in Ex. destruct (real_balance C ent solve rank [a0] [b0]) as [y|] eqn:By; [|discriminate]. cbn [bind] in Ex. injection Ex as <-. cbn in Hi.
        rewrite (identity_dropped a0 b0 y) in Hi; [discriminate|congruence| |exact By]. apply Hel, Sub, S1. left. reflexivity. }
    split; [|split].
    + split; [rewrite E1; apply Injective_map_NoDup; [intros i j; apply (here_inj C ent)|exact Nrp]|]. split; [rewrite E1, map_length; exact E2|exact E3].
    + intros e I. rewrite E1 in I. apply in_map_iff in I as (i & <- & I). exists i. split; [|reflexivity]. apply Sub. apply in_app_iff in I as [I|I]; [apply S1|apply S2]; exact I.
    + exists r, p. split; [|split; [exact T|split; [exact Nrp|split; [exact Hr|split; [exact Hp|split; [exact Ex|exact Hnc]]]]]]. split; [|split; [exact (option_met_same _ _ _ _ _ R1 W1)|exact (option_met_same _ _ _ _ _ R2 W2)]].
      exists c, s, pd, a, b, ks, kink. split; [split; [exact Hcomb|split; [exact Hsrch|exists k; split; [exact Hk|split; [exact Hs|exact Eb]]]]|].
      split; [exact He|]. split; [exact Ek|]. split; [exact Ikink|]. split; assumption.
  - intros r p (((c & s & pd & kink & (Hcomb & Hsrch & k & Hk & Hs & Eb) & Hkink & F1 & F2) & O1 & O2) & Hdet).
    assert (Ic : In c cs) by (apply Ics; split; assumption). destruct (Forall2_In_l _ _ _ _ F Ic) as (rs & Irs & k' & s' & pd' & a & b & ks & all & Hk' & Hs' & Eb' & He & Ek & Fa & Pk).
    assert (k' = k) as -> by exact (eq_trans (chemsys_key _ _ _ _ Hk') (eq_sym (chemsys_key _ _ _ _ Hk))). pose proof (picks_unique _ _ _ _ Hs' Hs) as ->. assert (pd' = pd) as -> by congruence.
    destruct (Hkink a b He) as (ks' & Ek' & Ikink). assert (ks' = ks) as -> by congruence.
    destruct (Hgood c k s Hcomb Hk Hs) as (pd' & Eb'' & Hkk). assert (pd' = pd) as -> by congruence.
    assert (Iab : In a c /\ In b c) by (destruct He as [[-> ->]|[->| ->]]; cbn; auto). destruct (Hkk a b (proj1 Iab) (proj2 Iab)) as (ks' & Ek'' & Hks). assert (ks' = ks) as -> by congruence.
    destruct (Hks kink Ikink) as (Nr & Np & _).
    destruct (Forall2_In_l _ _ _ _ Fa Ikink) as (x & Ix & r' & p' & G1 & G2 & Ex). pose proof (surely_ground _ _ _ _ F1 G1) as ->. pose proof (surely_ground _ _ _ _ F2 G2) as ->.
    assert (Hr : r <> []) by (intros ->; inversion F1; congruence). assert (Hp : p <> []) by (intros ->; inversion F2; congruence).
    destruct Hdet as (Nd & v & Hv & Sd). destruct (LinBalanceProofs.found C W ent r p v Hr Hp Nd Hv (or_introl Sd)) as [(Fi & Fb & Fe & Fc) _].
    assert (Ef : forward_rxn C ent solve rank r p = see_object C x).
    { unfold forward_rxn, balance_object in *. destruct (real_balance C ent solve rank r p) as [y|]; [|discriminate]. cbn [bind] in Ex. injection Ex as <-. reflexivity. }
    rewrite Ef in Fi, Fb, Fe, Fc. destruct (object_made r p x Hr Hp Ex Fe) as (T & _ & _ & _ & R1 & R2). exists x. split; [|exact T]. apply Mem, in_concat. exists rs. split; [exact Irs|].
    apply (picks_members _ _ _ Pk). split; [exact Ix|]. split; [split; [exact Fi|split; [intros _; exact Fb|split; [exact Fe|lia]]]|].
    split; [apply (option_met_same _ _ _ r); [intros i; symmetry; apply R1|exact O1]|apply (option_met_same _ _ _ p); [intros i; symmetry; apply R2|exact O2]].
Qed.
Lemma gibbs_spec m : minimizer_usable m -> exists xs, gibbs_enumerated C ent solve rank build kinks order epa mwait entries m = Ok xs
  /\ (forall x, In x xs -> plain (set_rxn C x) /\ (forall e, In e (x_entries (set_rxn C x)) -> exists i, In i entries /\ e = here i)
       /\ exists r p, at_kink C ent build kinks epa entries m r p /\ turns C ent r p (set_rxn C x))
  /\ forall r p, surely_at_kink C ent build kinks epa entries m r p /\ determined C form0 r p -> exists x, In x xs /\ turns C ent r p (set_rxn C x).
Proof.
  intros Us. destruct (gibbs_made m Us) as (xs & E & Hx & Hf). exists xs. split; [exact E|]. split; [|exact Hf].
  intros x Ix. destruct (Hx x Ix) as (A & B & r & p & K & T & _). split; [exact A|]. split; [exact B|]. exists r, p. split; assumption.
Qed.

Context {D : Type}.
Variable diagram : list nat -> D.
Variable wait : nat -> list (list (list (list nat * list nat) * D)) -> list (list (list (list nat * list nat) * D)) * list (list (list (list nat * list nat) * D)).
Hypothesis Hw : valid_schedule wait.
Notation outs_of := (any_enumerated C ent solve rank diagram build kinks order epa wait mwait entries).
Notation looks := (any_looks C ent build kinks epa entries).
Notation finds := (any_finds C ent build kinks epa entries).

Lemma any_spec a : any_usable a -> exists xs, outs_of a = Ok xs
  /\ (forall x, In x xs -> plain (set_rxn C x) /\ (forall e, In e (x_entries (set_rxn C x)) -> exists i, In i entries /\ e = here i) /\ exists r p, looks a r p /\ turns C ent r p (set_rxn C x))
  /\ forall r p, finds a r p -> exists x, In x xs /\ turns C ent r p (set_rxn C x).
Proof.
  destruct a as [en|m]; intros Us.
  - destruct (enumerated_spec C W Hbig ent Hid diagram wait Hw entries Hn Hel en Us) as (xs & E & Hx & Hf). exists xs. split; [exact E|]. split; [exact Hx|].
    intros r p (L & Dt). exact (Hf r p L Dt).
  - exact (gibbs_spec m Us).
Qed.

Hypothesis Hne : entries <> [].
Variable arrange : list sentry -> list sentry.
Hypothesis Harr : arranges arrange.
Variable argsort : list Q -> list nat.
Hypothesis Harg : forall l, Permutation (argsort l) (seq 0 (length l)).
Variable shuffle : list nat -> list nat.
Hypothesis Hsh : forall l, Permutation (shuffle l) l.

Theorem any_enumeration_spec ens : ens <> [] -> (forall a, In a ens -> any_usable a) ->
  (forall outs, Forall2 (fun a xs => outs_of a = Ok xs) ens outs -> sharp (map (set_rxn C) (concat outs))) ->
  exists s out, any_enumeration C ent solve rank diagram build kinks order epa arrange argsort shuffle wait mwait ens entries = Ok (Some s) /\ get_rxns s = Ok out
  /\ r_entries s = arrange (map here entries)
  /\ (forall x, In x out -> plain x /\ exists a r p, In a ens /\ looks a r p /\ turns C ent r p x)
  /\ (forall r p, any_reacts C ent build kinks epa entries ens r p -> exists x, In x out /\ turns C ent r p x)
  /\ ForallOrdPairs (fun x y => ~ multiples x y) out.
Proof.
  intros Hens Us Sh. destruct (general_enumeration_spec C ent Hid entries Hn Hne arrange Harr argsort Harg shuffle Hsh outs_of any_duplicates any_usable looks finds any_spec ens Hens Us Sh) as (s & out & K1 & K2 & K3 & K4 & K5 & K6 & _).
  exists s, out. split; [exact K1|]. split; [exact K2|]. split; [exact K3|]. split; [|split; [intros r p (a & Ia & Fd); exact (K5 a r p Ia Fd)|exact K6]].
  intros x Ix. destruct (K4 x Ix) as (a & Ia & Pl & _ & r & p & L & T). split; [exact Pl|]. exists a, r, p. split; [exact Ia|]. split; assumption.
Qed.

Variable cpus : nat.
Hypothesis Hcpus : 2 <= cpus.
Variable nwait : nat -> list (nat * list (option (list nat)) * result (list nat)) ->
  list (nat * list (option (list nat)) * result (list nat)) * list (nat * list (option (list nat)) * result (list nat)).
Hypothesis Hnw : valid_schedule nwait.
Variable cost : srxn -> Q.
Hypothesis Hcost : forall r, (0 <= cost r)%Q.
Variable sp : (payload -> Q) -> list (nat * nat * payload) -> nat -> nat -> option (list nat).
Hypothesis Hsp : forall weight, shortest weight (sp weight).

Theorem any_flow_spec ens mk ps ts k : ens <> [] -> (forall a, In a ens -> any_usable a) ->
  (forall outs, Forall2 (fun a xs => outs_of a = Ok xs) ens outs -> sharp (map (set_rxn C) (concat outs))) ->
  incl (ps ++ ts) entries -> most_stable C ent epa entries (ps ++ ts) ->
  nm_precursors mk = Some (map form0 ps) -> ps <> [] -> nm_targets mk = Some (map form0 ts) -> ts <> [] -> nm_k mk = Some k -> 0 < k ->
  (forall i, In i (ps ++ ts) -> exists r p, any_reacts C ent build kinks epa entries ens r p /\ In i (r ++ p)) ->
  exists w rs per, any_flow C ent solve rank diagram build kinks order epa arrange argsort shuffle wait mwait cpus nwait cost sp ens entries mk = Ok (w, rs, Some (concat per))
  /\ (forall x, In x rs -> plain x /\ exists a r p, In a ens /\ looks a r p /\ turns C ent r p x)
  /\ (forall r p, any_reacts C ent build kinks epa entries ens r p -> exists x, In x rs /\ turns C ent r p x)
  /\ Forall2 (fun t pathways => pathways_to cost rs (map here ps) (here t) k pathways
                               /\ ((exists l, route (any_reacts C ent build kinks epa entries ens) ps t [] l) -> pathways <> [])) ts per.
Proof.
  exact (general_join_spec C ent Hid entries Hn Hne arrange Harr argsort Harg shuffle Hsh outs_of any_duplicates any_usable looks finds any_spec cpus Hcpus nwait Hnw epa cost Hcost sp Hsp ens mk ps ts k).
Qed.
End Enumerator.
End MinJoin.
