(* Proofs about the enumerator for an open element: C153. *)
From Coq Require Import Lqa FinFun.
From Verif Require Import Prelude NumQ SumQ ListFacts UtilsModel UtilsSpec UtilsProofs ReactionModel ReactionSpec ReactionBaseProofs ReactionBalanceProofs RxnSetModel RxnSetSpec RxnSetBaseProofs RxnSetProofs RxnSetParProofs RxnSetDupProofs RxnSetFilterProofs RxnSetTempProofs RunProofs EnumModel EnumSpec EnumProofs EnumReactProofs EnumLinkModel EnumLinkProofs
  EntrySetModel EntrySetSpec LinModel LinSpec LinProofs LinBalanceProofs NetModel YenModel YenSpec ShortestPath FlowModel NetJobModel NetJobSpec RunModel MinModel MinSpec MinProofs JoinModel JoinSpec JoinProofs MinJoinModel MinJoinSpec MinJoinProofs IntModel IntMinModel AnyWholeModel OpenWholeModel AnyWholeSpec GrandJoinModel GrandJoinSpec.
Open Scope nat_scope.


Lemma one_multiple r : multiples r r.
Proof.
  exists 1%Q, (map (fun ec => (fst ec, snd ec, snd ec)) (combine (x_entries r) (x_coeffs r))). split; [reflexivity|]. split.
  - split; rewrite map_map; cbn [fst snd]; (rewrite (map_ext _ (fun x => x)) by (intros [a b]; reflexivity)); rewrite map_id; apply Permutation_refl.
  - intros e x y H. apply in_map_iff in H as (p & E & _). injection E as <- <- <-. ring.
Qed.

Section GrandJoin.
Variable C : chem.
Hypothesis W : wf_chem C.
Hypothesis Hbig : forall c e, In e (ReactionModel.elems C c) -> (1 # 100 < amt C (red C c) e)%Q.
Variable ent : nat -> entry.
Hypothesis Hid : forall i, e_id (ent i) = i.
Notation solve := (entry_solve C ent).
Notation rank := (entry_rank C ent).
Notation els := (fun i => ReactionModel.elems C (e_comp (ent i))).
Notation form0 := (formula C ent).
Notation here := (in_set C ent).
Context {G : Type}.
Variable grand_diagram : nat -> Q -> list (nat * Q) -> result G.
Variable grand_interface : G -> nat -> nat -> result (list (list nat * list nat)).
Hypothesis Htidy0 : forall pd a b ks kink, grand_interface pd a b = Ok ks -> In kink ks -> NoDup (fst kink) /\ NoDup (snd kink) /\ (disjoint (fst kink) (snd kink) \/ exists f, kink = ([f], [f])).
Variable order : list nat -> list nat.
Hypothesis Hord : forall l, Permutation (order l) l.
Variable gwait : nat -> list (list (list (list nat * list nat) * option (list nat * G))) ->
  list (list (list (list nat * list nat) * option (list nat * G))) * list (list (list (list nat * list nat) * option (list nat * G))).
Hypothesis Hmw : valid_schedule gwait.
Variable gas_of : nat -> nat.
Variable el : nat.
Variable mu : Q.
Variable entries : list nat.
Hypothesis Hn : NoDup entries.
Hypothesis Hel : forall e, In e entries -> els e <> [].
Notation build := (diagram_for (grand_diagram el mu) ent).
Notation kinks := (kinks_for grand_interface ent).
Notation epa := (fun u => e_energy (ent u) / natoms C (e_comp (ent u)))%Q.
Notation op := (gases_in C ent entries (gas_of el)).
Hypothesis Hoe : forall e, In e entries -> els e = [el] -> form0 e = gas_of el.
Hypothesis Hgood : good_interfaces els form0 build kinks entries op.

Lemma Htidy : tidy_kinks kinks.
Proof. intros pd a b ks kink E I. exact (Htidy0 _ _ _ _ _ E I). Qed.
Lemma op_in : incl op entries.
Proof. intros x I. apply filter_In in I. apply I. Qed.
Lemma op_is : phases_open C ent entries [gas_of el] = op.
Proof. unfold phases_open, gases_in. apply filter_ext. intros i. cbn [existsb]. apply orb_false_r. Qed.
Lemma react_same o : o_n o = 2 -> forall c s pd, In c (limited_powerset (minus entries op) (o_n o)) ->
  grand_react els form0 epa kinks (balance_object C ent solve rank) order el c [] (Some (s, pd)) = gibbs_react form0 epa kinks (balance_object C ent solve rank) order c [] (Some (s, pd)).
Proof.
  intros Hon c s pd Hc. apply combos_iff in Hc as (Hs & _ & Hd); [|exact Hon].
  unfold grand_react, gibbs_react. assert (E : existsb (is_open_elem els el) (order c) = false).
  { destruct (existsb (is_open_elem els el) (order c)) eqn:E; [|reflexivity]. apply existsb_exists in E as (e & He & E).
    apply (Permutation_in _ (Hord c)) in He. exfalso. apply (Hd e He). apply filter_In. pose proof (subseq_In _ _ _ Hs He) as Ie. split; [exact Ie|]. apply Nat.eqb_eq. apply (Hoe e Ie). unfold is_open_elem in E.
    destruct (ReactionModel.elems C (e_comp (ent e))) as [|x [|y l]]; try discriminate. apply Nat.eqb_eq in E as ->. reflexivity. }
  rewrite E. destruct (order c) as [|r0 [|r1 l]]; reflexivity.
Qed.

Lemma grand_made m : minimizer_usable m -> exists xs, grand_enumerated C ent solve rank grand_diagram grand_interface order gwait gas_of el mu entries m = Ok xs
  /\ (forall x, In x xs -> plain (set_rxn C x) /\ (forall e, In e (x_entries (set_rxn C x)) -> exists i, In i entries /\ e = here i)
       /\ exists r p, r <> [] /\ at_open_kink C ent build kinks epa entries (gas_of el) m r p /\ turns C ent r p (set_rxn C x))
  /\ forall r p, surely_at_open_kink C ent build kinks epa entries (gas_of el) m r p /\ determined C form0 r p -> exists x, In x xs /\ turns C ent r p (set_rxn C x).
Proof.
  intros (Hon & Hch & H1 & H2 & Hc). set (o := mi_options m) in *. set (pre := mi_precursors m). set (tar := mi_targets m).
  destruct (diagrams_ok els form0 build kinks o entries pre tar op op_in Hon Hgood) as (ds & Ed).
  destruct (min_kept els form0 epa build kinks (balance_object C ent solve rank) order Hord (balance_object_ok C ent) o entries pre tar op Hn Hel op_in Hch Hon Hgood (see_object C)
    (grand_react els form0 epa kinks (balance_object C ent solve rank) order el) (react_same o Hon) ds Ed) as (ys & cs & outs & Ey & N & Ics & F & Pm).
  set (dg := fun k => lookup list_eqb k (combine (map fst (combos_dict els o entries pre tar op)) ds)) in *.
  assert (Hlen : forall cs : list (list nat), minimize_iter_length cs [] = length (minimize_iterable cs [])) by (intros; unfold minimize_iterable; rewrite map_length; reflexivity).
  pose proof (keep_all (see_object C) els minimize_iterable minimize_iter_length (grand_react els form0 epa kinks (balance_object C ent solve rank) order el) dg o entries pre tar op [] gwait H1 H2 Hmw Hlen) as A.
  change (cat (fun kp => keep_pair (see_object C) (grand_react els form0 epa kinks (balance_object C ent solve rank) order el) o pre tar op (dg (fst kp)) (snd kp)) (tagged (map (fun kv => (fst kv, minimize_iterable (snd kv) [])) (combos_dict els o entries pre tar op))) = Ok ys) in Ey.
  rewrite Ey in A. unfold grand_enumerated. fold o pre tar. change (fun i => red C (e_comp (ent i))) with form0. rewrite op_is. change (diagram_of (grand_diagram el mu) ent) with build. change (kinks_of grand_interface ent) with kinks. rewrite Ed. cbn [bind]. fold dg.
  destruct (keep_rxns _ _ _ _ _ _ _ _ _ _ _ _ _) as [xs|]; [|destruct A]. cbn [agree] in A. exists xs. split; [reflexivity|].
  assert (Mem : forall x, In x xs <-> In x (concat outs)).
  { intros x. split; intros I; [apply (Permutation_in _ Pm), (Permutation_in _ A); exact I|apply (Permutation_in _ (Permutation_sym A)), (Permutation_in _ (Permutation_sym Pm)); exact I]. }
  split.
  - intros x Ix. apply Mem, in_concat in Ix as (rs & Irs & Ix). destruct (Forall2_In_r _ _ _ _ F Irs) as (c & Ic & k & s & pd & a & b & ks & all & Hk & Hs & Eb & He & Ek & Fa & Pk).
    apply (picks_members _ _ _ Pk) in Ix as [Ix ((Hi & _ & Her & Hnc) & (W1 & W2))]. destruct (Forall2_In_r _ _ _ _ Fa Ix) as (kink & Ikink & r & p & F1 & F2 & Ex).
    destruct ((formulas_of C ent epa) _ _ _ F1) as (M1 & S1 & T1). destruct ((formulas_of C ent epa) _ _ _ F2) as (M2 & S2 & T2). apply Ics in Ic as [Hcomb Hsrch].
    assert (Sub : incl s entries). { intros e I. apply (picks_members _ _ _ Hs) in I as [I _]. exact I. }
    destruct (Hgood c k s Hcomb Hk Hs) as (pd' & Eb' & Hkk). assert (pd' = pd) as -> by congruence.
    assert (Iab : In a c /\ In b c) by (destruct He as [[-> ->]|[->| ->]]; cbn; auto). destruct (Hkk a b (proj1 Iab) (proj2 Iab)) as (ks' & Ek' & Hks). assert (ks' = ks) as -> by congruence.
    destruct (Hks kink Ikink) as (Nr & Np & _). assert (Hr : r <> []) by (intros ->; apply Nr; rewrite <- M1; reflexivity). assert (Hp : p <> []) by (intros ->; apply Np; rewrite <- M2; reflexivity).
    destruct (object_made C W ent Hid r p x Hr Hp Ex Her) as (T & E1 & E2 & E3 & R1 & R2). destruct (Htidy pd a b ks kink Ek Ikink) as (N1 & N2 & Sides).
    assert (Nrp : NoDup (r ++ p)).
    { rewrite <- M1 in N1. rewrite <- M2 in N2. apply NoDup_app_intro; [exact (NoDup_map_inv _ _ N1)|exact (NoDup_map_inv _ _ N2)|]. intros i I1 I2. destruct Sides as [Dj|(f & ->)].
      - apply (Dj (form0 i)); [rewrite <- M1|rewrite <- M2]; apply in_map; assumption.
      - cbn [fst snd] in M1, M2. destruct r as [|a0 [|]]; try discriminate. destruct p as [|b0 [|]]; try discriminate. injection M1 as M1. injection M2 as M2.
        unfold balance_object in Ex. destruct (real_balance C ent solve rank [a0] [b0]) as [y|] eqn:By; [|discriminate]. cbn [bind] in Ex. injection Ex as <-. cbn in Hi.
        rewrite (identity_dropped C W Hbig ent a0 b0 y) in Hi; [discriminate|congruence| |exact By]. apply Hel, Sub, S1. left. reflexivity. }
    split; [|split].
    + split; [rewrite E1; apply Injective_map_NoDup; [intros i j; apply (here_inj C ent)|exact Nrp]|]. split; [rewrite E1, map_length; exact E2|exact E3].
    + intros e I. rewrite E1 in I. apply in_map_iff in I as (i & <- & I). exists i. split; [|reflexivity]. apply Sub. apply in_app_iff in I as [I|I]; [apply S1|apply S2]; exact I.
    + exists r, p. split; [exact Hr|]. split; [|exact T]. split; [|split; [exact (option_met_same _ _ _ _ _ R1 W1)|exact (option_met_same _ _ _ _ _ R2 W2)]].
      exists c, s, pd, a, b, ks, kink. split; [split; [exact Hcomb|split; [exact Hsrch|exists k; split; [exact Hk|split; [exact Hs|exact Eb]]]]|].
      split; [exact He|]. split; [exact Ek|]. split; [exact Ikink|]. split; assumption.
  - intros r p (((c & s & pd & kink & (Hcomb & Hsrch & k & Hk & Hs & Eb) & Hkink & F1 & F2) & O1 & O2) & Hdet).
    assert (Ic : In c cs) by (apply Ics; split; assumption). destruct (Forall2_In_l _ _ _ _ F Ic) as (rs & Irs & k' & s' & pd' & a & b & ks & all & Hk' & Hs' & Eb' & He & Ek & Fa & Pk).
    assert (k' = k) as -> by exact (eq_trans (chemsys_key _ _ _ _ Hk') (eq_sym (chemsys_key _ _ _ _ Hk))). pose proof (picks_unique _ _ _ _ Hs' Hs) as ->. assert (pd' = pd) as -> by congruence.
    destruct (Hkink a b He) as (ks' & Ek' & Ikink). assert (ks' = ks) as -> by congruence.
    destruct (Hgood c k s Hcomb Hk Hs) as (pd' & Eb'' & Hkk). assert (pd' = pd) as -> by congruence.
    assert (Iab : In a c /\ In b c) by (destruct He as [[-> ->]|[->| ->]]; cbn; auto). destruct (Hkk a b (proj1 Iab) (proj2 Iab)) as (ks' & Ek'' & Hks). assert (ks' = ks) as -> by congruence.
    destruct (Hks kink Ikink) as (Nr & Np & _).
    destruct (Forall2_In_l _ _ _ _ Fa Ikink) as (x & Ix & r' & p' & G1 & G2 & Ex). pose proof ((surely_ground C ent epa) _ _ _ _ F1 G1) as ->. pose proof ((surely_ground C ent epa) _ _ _ _ F2 G2) as ->.
    assert (Hr : r <> []) by (intros ->; inversion F1; congruence). assert (Hp : p <> []) by (intros ->; inversion F2; congruence).
    destruct Hdet as (Nd & v & Hv & Sd). destruct (LinBalanceProofs.found C W ent r p v Hr Hp Nd Hv (or_introl Sd)) as [(Fi & Fb & Fe & Fc) _].
    assert (Ef : forward_rxn C ent solve rank r p = see_object C x).
    { unfold forward_rxn, balance_object in *. destruct (real_balance C ent solve rank r p) as [y|]; [|discriminate]. cbn [bind] in Ex. injection Ex as <-. reflexivity. }
    rewrite Ef in Fi, Fb, Fe, Fc. destruct (object_made C W ent Hid r p x Hr Hp Ex Fe) as (T & _ & _ & _ & R1 & R2). exists x. split; [|exact T]. apply Mem, in_concat. exists rs. split; [exact Irs|].
    apply (picks_members _ _ _ Pk). split; [exact Ix|]. split; [split; [exact Fi|split; [intros _; exact Fb|split; [exact Fe|lia]]]|].
    split; [apply (option_met_same _ _ _ r); [intros i; symmetry; apply R1|exact O1]|apply (option_met_same _ _ _ p); [intros i; symmetry; apply R2|exact O2]].
Qed.

Hypothesis Hne : entries <> [].
Variable arrange : list sentry -> list sentry.
Hypothesis Harr : arranges arrange.
Variable argsort : list Q -> list nat.
Hypothesis Harg : forall l, Permutation (argsort l) (seq 0 (length l)).
Variable shuffle : list nat -> list nat.
Hypothesis Hsh : forall l, Permutation (shuffle l) l.
Notation looks m := (at_open_kink C ent build kinks epa entries (gas_of el) m).
Notation finds m r p := (surely_at_open_kink C ent build kinks epa entries (gas_of el) m r p /\ determined C form0 r p).
Notation found m := (grand_enumerated C ent solve rank grand_diagram grand_interface order gwait gas_of el mu entries m).

Lemma grand_enumeration_spec m : minimizer_usable m -> (forall xs, found m = Ok xs -> sharp (map (open_set_rxn C el mu) xs)) ->
  exists s out, grand_enumeration C ent solve rank grand_diagram grand_interface order arrange argsort shuffle gwait gas_of el mu entries m = Ok (Some s) /\ get_rxns s = Ok out
  /\ (forall x, In x out -> plain x /\ (forall e, In e (x_entries x) -> exists i, In i entries /\ e = here i) /\ exists r p, r <> [] /\ looks m r p /\ turns C ent r p x)
  /\ (forall r p, finds m r p -> exists x, In x out /\ turns C ent r p x)
  /\ forall xs, found m = Ok xs -> incl out (map (open_set_rxn C el mu) xs).
Proof.
  intros Us Sh. destruct (grand_made m Us) as (xs & E & Hx & Hf). specialize (Sh xs E).
  unfold grand_enumeration, grand_set. rewrite E. cbn [bind].
  assert (Ee : map (fun i => set_entry C (ent i)) entries = map here entries) by (apply map_ext; intros i; apply set_entry_here; exact Hid). rewrite Ee.
  set (rxns := map (open_set_rxn C el mu) xs) in *. set (es := map here entries) in *.
  assert (Hes : forall e, In e es -> exists i, e = here i) by (intros e I; apply in_map_iff in I as (i & <- & _); exists i; reflexivity).
  assert (Hin : forall r e, In r rxns -> In e (x_entries r) -> In e es).
  { intros r e Ir Ie. apply in_map_iff in Ir as (x & <- & Ix). destruct (Hx x Ix) as (_ & H & _). destruct (H e Ie) as (i & Hi & ->). apply in_map. exact Hi. }
  assert (Gv : given es rxns = es). { unfold given, es. destruct entries; [contradiction|reflexivity]. }
  assert (Good0 : forall x, In x rxns -> plain x /\ (forall e, In e (x_entries x) -> exists i, In i entries /\ e = here i) /\ exists r p, r <> [] /\ looks m r p /\ turns C ent r p x).
  { intros x I. apply in_map_iff in I as (y & <- & Iy). exact (Hx y Iy). }
  assert (Comp0 : forall r p, finds m r p -> exists x, In x rxns /\ turns C ent r p x).
  { intros r p L. destruct (Hf r p L) as (x & Ix & T). exists (open_set_rxn C el mu x). split; [apply in_map; exact Ix|exact T]. }
  destruct (from_rxns_spec arrange rxns es None 0%Q Harr) as (s & out & Ef & Wf & Gs & Hp & _ & _ & Es & Em).
  { right. exact Hin. }
  { intros x y Ix Iy. apply (here_uid C ent); [apply in_app_iff in Ix as [Ix|Ix]|apply in_app_iff in Iy as [Iy|Iy]]; try (apply Hes; assumption).
    - apply in_flat_map in Ix as (r & Ir & Ix). apply Hes. exact (Hin r x Ir Ix).
    - apply in_flat_map in Iy as (r & Ir & Iy). apply Hes. exact (Hin r y Ir Iy). }
  { intros r Ir. apply in_map_iff in Ir as (x & <- & Ix). destruct (Hx x Ix) as ((_ & L & _) & _). exact L. }
  assert (Hp' : Permutation out rxns).
  { destruct xs as [|x0 xs0] eqn:Exs; [exact Hp|]. assert (Cm : common_mu rxns = Some (el, mu)).
    { unfold common_mu. assert (A : forall l, forallb (fun r => match x_mu r with Some _ => true | None => false end) (map (open_set_rxn C el mu) l) = true) by (intros l; apply forallb_forall; intros r Ir; apply in_map_iff in Ir as (y & <- & _); reflexivity).
      unfold rxns. rewrite A. cbn [map flat_map open_set_rxn x_mu app].
      assert (B : forall l, forallb (fun em => Nat.eqb (fst em) el && Qeq_bool (snd em) mu) (flat_map (fun r => match x_mu r with Some m0 => m0 | None => [] end) (map (open_set_rxn C el mu) l)) = true).
      { intros l. apply forallb_forall. intros em I. apply in_flat_map in I as (r & Ir & I). apply in_map_iff in Ir as (y & <- & _). destruct I as [<-|[]]. cbn. rewrite Nat.eqb_refl. apply Qeq_bool_iff. reflexivity. }
      cbn [forallb fst snd]. rewrite Nat.eqb_refl, B. rewrite (proj2 (Qeq_bool_iff mu mu)) by reflexivity. reflexivity. }
    assert (Sm : spec_mu rxns None 0%Q = (Some el, mu)) by (unfold spec_mu; rewrite Cm; reflexivity).
    rewrite Sm in Em. rewrite Em, with_mu_id in Hp by (intros r Ir; apply in_map_iff in Ir as (x & <- & _); reflexivity). exact Hp. }
  rewrite Gv in Es. rewrite Ef. cbn [bind].
  assert (Mem : forall r, In r out <-> In r rxns) by (intros r; split; apply Permutation_in; [exact Hp'|apply Permutation_sym; exact Hp']).
  assert (Ns : NoDup (r_entries s)) by (rewrite Es; apply Harr).
  assert (D : exists s1 out1, (if mi_duplicates m then filter_duplicates argsort shuffle s [] else Ok s) = Ok s1 /\ well_formed s1 /\ get_rxns s1 = Ok out1 /\ NoDup (r_entries s1) /\ incl out1 rxns /\ forall r, In r rxns -> exists r', In r' out1 /\ multiples r r').
  { destruct (mi_duplicates m).
    - destruct (no_ensured_families argsort shuffle Harg Hsh s Wf Ns out Gs) as (s' & out' & E' & W' & G' & (rest & Pr) & Fam & _).
      + intros r Ir. apply Good0, Mem. exact Ir.
      + apply (sharp_incl rxns); [intros r Ir; apply Mem; exact Ir|exact Sh].
      + destruct (filtered_keeps _ _ _ _ E') as (K1 & K2 & K3). exists s', out'. split; [exact E'|]. split; [exact W'|]. split; [exact G'|]. split; [congruence|]. split; [intros x I; apply Mem, (Permutation_in _ (Permutation_sym Pr)), in_app_iff; left; exact I|].
        intros r Ir. apply Fam, Mem. exact Ir.
    - exists s, out. split; [reflexivity|]. split; [exact Wf|]. split; [exact Gs|]. split; [exact Ns|]. split; [intros x I; apply Mem; exact I|]. intros r Ir. exists r. split; [apply Mem; exact Ir|]. apply one_multiple. }
  destruct D as (s1 & out1 & E1 & W1 & G1 & N1 & I1 & F1). rewrite E1.
  destruct (run_spec argsort shuffle Harg Hsh (r_entries s1) (r_open s1) (r_chempot s1) [s1] [out1]) as (s2 & out2 & R1 & R2 & R3 & (rest & R4) & R5 & R6).
  - discriminate.
  - exact N1.
  - constructor; [|constructor]. split; [exact W1|]. split; [exact G1|]. split; [reflexivity|]. split; reflexivity.
  - cbn [concat]. rewrite app_nil_r. intros r Ir. apply Good0, I1. exact Ir.
  - cbn [concat]. rewrite app_nil_r. exact (sharp_incl _ _ I1 Sh).
  - cbn [concat] in R4, R5. rewrite app_nil_r in R4, R5. assert (Sub : incl out2 rxns) by (intros x I; apply I1, (Permutation_in _ (Permutation_sym R4)), in_app_iff; left; exact I).
    exists s2, out2. split; [exact R1|]. split; [exact R2|]. split; [intros x I; apply Good0, Sub; exact I|]. split.
    + intros r p L. destruct (Comp0 r p L) as (x & Ix & T). destruct (F1 x Ix) as (x1 & Ix1 & M1). destruct (R5 x1 Ix1) as (x2 & Ix2 & M2). exists x2. split; [exact Ix2|].
      destruct (Good0 x1 (I1 x1 Ix1)) as (_ & _ & r1 & p1 & _ & _ & T1). destruct (Good0 x2 (Sub x2 Ix2)) as (_ & _ & r2 & p2 & _ & _ & T2).
      apply (turns_sided C ent r p r2 p2 x1 x2 (turns_sided C ent r p r1 p1 x x1 T T1 (multiples_sides _ _ M1)) T2 (multiples_sides _ _ M2)).
    + intros ys Ey. assert (ys = xs) by congruence. subst ys. exact Sub.
Qed.
End GrandJoin.
