(* C80-C82: process_entries, get_entries_with_new_temperature, from_computed_entries. *)
From Coq Require Import Lqa.
From Verif Require Import Prelude NumQ ListFacts SumQ UtilsModel ReactionModel ReactionSpec ReactionBaseProofs RxnSetBaseProofs EnumModel EnumSpec RunModel RunProofs SolverModel GibbsModel EntrySetModel EntrySetSpec EntrySetProofs EntryFilterProofs EntryBuildModel FromPdProofs.
Open Scope nat_scope.

(* --- C81 --- *)
Lemma warm_loop_ok warm : forall l, (forall e x, In e l -> warm e = Err x -> x = ValueError) ->
  exists r, warm_loop warm l = Ok r /\ forall x, In x r <-> exists e, In e l /\ warm e = Ok x.
Proof.
  induction l as [|e l IH]; intros H; [exists []; split; [reflexivity|]; intros x; split; [intros []|intros (e & [] & _)]|].
  destruct IH as (r & E & S); [intros a x I; apply H; right; exact I|]. cbn [warm_loop].
  destruct (warm e) as [y|x0] eqn:W.
  - rewrite E. exists (y :: r). split; [reflexivity|]. intros x. cbn. rewrite S. split.
    + intros [<-|(a & I & J)]; [exists e; tauto|exists a; tauto].
    + intros (a & [<-|I] & J); [left; congruence|right; exists a; tauto].
  - assert (X := H e x0 (or_introl eq_refl) W). subst x0. exists r. split; [exact E|]. intros x. rewrite S. split.
    + intros (a & I & J). exists a. cbn. tauto.
    + intros (a & [<-|I] & J); [congruence|exists a; tauto].
Qed.
Lemma warm_loop_err warm : forall l, (exists e x, In e l /\ warm e = Err x /\ x <> ValueError) ->
  exists e x, In e l /\ warm e = Err x /\ x <> ValueError /\ warm_loop warm l = Err x.
Proof.
  induction l as [|e l IH]; intros (a & x & I & W & N); [destruct I|]. cbn [warm_loop].
  destruct (warm e) as [y|x0] eqn:We.
  - destruct I as [<-|I]; [congruence|]. destruct IH as (b & z & Ib & Wb & Nb & Eb); [exists a, x; tauto|].
    exists b, z. rewrite Eb. cbn. tauto.
  - assert (D : x0 = ValueError \/ x0 <> ValueError) by (destruct x0; (left; reflexivity) || (right; discriminate)).
    destruct D as [->|D].
    + destruct I as [<-|I]; [congruence|]. destruct IH as (b & z & Ib & Wb & Nb & Eb); [exists a, x; tauto|].
      exists b, z. cbn. tauto.
    + exists e, x0. split; [left; reflexivity|]. split; [exact We|]. split; [exact D|]. destruct x0; try reflexivity. contradiction.
Qed.
Lemma new_temperature_spec sorted warm members : (forall l, Permutation (sorted l) l) ->
  ((forall e x, In e members -> warm e = Err x -> x = ValueError) ->
     exists r, new_temperature sorted warm members = Ok r /\ NoDup r /\ forall x, In x r <-> exists e, In e members /\ warm e = Ok x)
  /\ ((exists e x, In e members /\ warm e = Err x /\ x <> ValueError) ->
     exists e x, In e members /\ warm e = Err x /\ x <> ValueError /\ new_temperature sorted warm members = Err x).
Proof.
  intros P. assert (I : forall e, In e (sorted members) <-> In e members) by (intros e; split; apply Permutation_in; [|apply Permutation_sym]; apply P).
  unfold new_temperature. split.
  - intros H. destruct (warm_loop_ok warm (sorted members)) as (r & E & S); [intros e x J; apply H, I; exact J|].
    rewrite E. cbn [bind]. exists (set_update r []). split; [reflexivity|]. split; [apply set_update_NoDup; constructor|].
    intros x. rewrite set_update_In, S. cbn. split; [intros [(e & A & B)|[]]; exists e; rewrite <- I; tauto|intros (e & A & B); left; exists e; rewrite I; tauto].
  - intros (e & x & J & W & N). destruct (warm_loop_err warm (sorted members)) as (b & z & Ib & Wb & Nb & Eb).
    + exists e, x. rewrite I. tauto.
    + exists b, z. rewrite <- I, Eb. cbn. tauto.
Qed.

(* --- C80 --- *)
Section Process.
Variable elems : nat -> list nat.
Variable formula : nat -> nat.
Variable epa : nat -> Q.
Variable sorted : list nat -> list nat.
Variable e_hull : list nat -> nat -> Q.
Variables interp warm : nat -> result nat.
Hypothesis interp_formula : forall f e, interp f = Ok e -> formula e = f.

Lemma initialize_spec members f :
  (forall e, initialize_entry formula epa interp members f = Ok e -> formula e = f
     /\ ((ground_state formula epa (fun e => In e members) e) \/ ((forall m, In m members -> formula m <> f) /\ interp f = Ok e)))
  /\ (forall x, initialize_entry formula epa interp members f = Err x -> (forall m, In m members -> formula m <> f) /\ interp f = Err x).
Proof.
  destruct (min_entry_spec formula epa members f) as (A & B & D). unfold initialize_entry.
  destruct (get_min_entry formula epa members f) as [m|x] eqn:E.
  - destruct (A m eq_refl) as [F G]. split; [|discriminate]. intros e H. inversion H; subst. split; [reflexivity|]. left. exact G.
  - assert (X := D x eq_refl). subst x. assert (B' := proj1 B eq_refl). split.
    + intros e H. split; [apply interp_formula; exact H|]. right. split; assumption.
    + intros x H. split; assumption.
Qed.

Lemma process_same members cutoff poly formulas :
  (forall f, In f formulas -> exists e, initialize_entry formula epa interp members f = Ok e) ->
  exists kept included out, filter_by_stability elems formula epa e_hull members cutoff poly = Ok kept
    /\ Forall2 (fun f e => initialize_entry formula epa interp members f = Ok e) formulas included
    /\ process_entries elems formula epa sorted e_hull interp warm members cutoff poly formulas false = Ok out
    /\ NoDup out
    /\ (forall e, In e out <-> In e kept \/ In e included)
    /\ (forall f, In f formulas -> exists e, In e out /\ formula e = f).
Proof.
  intros H. unfold process_entries.
  destruct (mapM (initialize_entry formula epa interp members) formulas) as [inc|x] eqn:E.
  2: { apply mapM_err in E as (f & If & Ef). destruct (H f If) as (e & He). congruence. }
  assert (F2 := proj1 (mapM_Forall2 _ _ _) E). cbn [bind].
  assert (K : exists kept, filter_by_stability elems formula epa e_hull members cutoff poly = Ok kept /\ NoDup kept).
  { unfold filter_by_stability. destruct poly.
    - destruct (with_polymorphs formula epa e_hull cutoff (map snd (expand_pd elems members))) as (l & El & N & _). exists l. split; assumption.
    - destruct (no_polymorphs formula epa e_hull cutoff (map snd (expand_pd elems members))) as (l & El & N & _). exists l. split; assumption. }
  destruct K as (kept & Ek & Nk). exists kept, inc, (set_update inc kept). rewrite Ek. split; [reflexivity|]. split; [exact F2|]. split; [reflexivity|].
  split; [apply set_update_NoDup; exact Nk|]. split; [intros e; rewrite set_update_In; tauto|].
  intros f I. destruct (Forall2_In_l _ _ _ _ F2 I) as (e & Ie & He). exists e. split; [rewrite set_update_In; tauto|].
  apply (initialize_spec members f). exact He.
Qed.

Lemma process_other members cutoff poly formulas : (forall l, Permutation (sorted l) l) ->
  (forall f, In f formulas -> exists e, initialize_entry formula epa interp members f = Ok e) ->
  (forall e x, warm e = Err x -> x = ValueError) -> (forall e x, warm e = Ok x -> formula x = formula e) ->
  exists kept included out, filter_by_stability elems formula epa e_hull members cutoff poly = Ok kept
    /\ Forall2 (fun f e => initialize_entry formula epa interp members f = Ok e) formulas included
    /\ process_entries elems formula epa sorted e_hull interp warm members cutoff poly formulas true = Ok out
    /\ NoDup out
    /\ (forall x, In x out <-> exists e, (In e kept \/ In e included) /\ warm e = Ok x)
    /\ (forall f e, initialize_entry formula epa interp members f = Ok e -> In f formulas -> (exists x, warm e = Ok x) -> exists x, In x out /\ formula x = f).
Proof.
  intros P H W WF. destruct (process_same members cutoff poly formulas H) as (kept & inc & s & Ek & F2 & Es & Ns & S & _).
  exists kept, inc. unfold process_entries in Es |- *.
  destruct (mapM (initialize_entry formula epa interp members) formulas) as [inc'|x] eqn:Em; [|discriminate]. cbn [bind] in Es |- *.
  rewrite Ek in Es |- *. cbn [bind] in Es |- *. inversion Es; subst s.
  destruct (proj1 (new_temperature_spec sorted warm (set_update inc' kept) P)) as (r & Er & Nr & Sr); [intros e x _; apply W|].
  exists r. rewrite Er. split; [reflexivity|]. split; [exact F2|]. split; [reflexivity|]. split; [exact Nr|].
  assert (S' : forall x, In x r <-> exists e, (In e kept \/ In e inc) /\ warm e = Ok x).
  { intros x. rewrite Sr. split; intros (e & A & B); exists e; (split; [|exact B]); apply S; exact A. }
  split; [exact S'|]. intros f e He If (x & Hx).
  destruct (Forall2_In_l _ _ _ _ F2 If) as (e' & Ie & He'). assert (e' = e) by congruence. subst e'.
  exists x. split; [apply S'; exists e; tauto|]. rewrite (WF e x Hx). apply (initialize_spec members f). exact He.
Qed.
End Process.

(* --- C82 --- *)
Lemma made_eqb_iff a b : made_eqb a b = true <-> a = b.
Proof. destruct a, b; cbn; rewrite ?Nat.eqb_eq; split; congruence. Qed.
Lemma made_memb x l : memb made_eqb x l = true <-> In x l.
Proof.
  unfold memb. rewrite existsb_exists. split; [intros (y & I & E); apply made_eqb_iff in E; subst; exact I|intros I; exists x; split; [exact I|apply made_eqb_iff; reflexivity]].
Qed.
Lemma made_update_spec new : forall old, NoDup old -> NoDup (made_update new old) /\ forall x, In x (made_update new old) <-> In x new \/ In x old.
Proof.
  unfold made_update. induction new as [|a new IH]; intros old N; [split; [exact N|]; intros x; cbn; tauto|]. cbn [fold_left].
  destruct (memb made_eqb a old) eqn:M.
  - apply made_memb in M. destruct (IH old N) as [A B]. split; [exact A|]. intros x. rewrite B. cbn. split; [tauto|]. intros [[<-|H]|H]; tauto.
  - assert (M' : ~ In a old) by (rewrite <- made_memb; congruence).
    destruct (IH (old ++ [a])) as [A B].
    { apply Permutation_NoDup with (a :: old); [apply Permutation_cons_append|constructor; assumption]. }
    split; [exact A|]. intros x. rewrite B, in_app_iff. cbn. tauto.
Qed.

Section Build.
Variable elems : nat -> list nat.
Hypothesis elems_nodup : forall e, NoDup (elems e).
Variable formula : nat -> nat.
Variable is_el : nat -> bool.
Variable is_ref : list nat -> nat -> bool.
Variables nist freed : source.
Hypothesis nist_ok : well_behaved nist.
Hypothesis freed_ok : well_behaved freed.
Variables use_nist use_freed ignore_solids : bool.
Variable build : nat -> result unit.
Hypothesis build_ok : forall e, exists u, build e = Ok u.
Notation has_nist := (available use_nist ignore_solids nist).
Notation has_freed := (available use_freed false freed).
Hypothesis no_gap : forall f, has_nist f -> use_freed = true -> has_freed f.
Notation one := (one_pd formula is_el is_ref nist freed use_nist use_freed ignore_solids build).
Notation each := (each_pd formula is_el is_ref nist freed use_nist use_freed ignore_solids build).

Lemma one_pd_spec entries : NoDup entries ->
  exists out, one entries = Ok out /\ NoDup out
  /\ (forall e, In (FromPd e) out <-> In e entries /\ considered is_el (is_ref entries) e /\ ~ has_nist (formula e) /\ ~ has_freed (formula e))
  /\ (forall f, In (FromNist f) out <-> has_nist f /\ exists e, In e entries /\ considered is_el (is_ref entries) e /\ formula e = f)
  /\ (forall f, In (FromFreed f) out <-> has_freed f /\ exists e, In e entries /\ considered is_el (is_ref entries) e /\ formula e = f).
Proof. apply from_pd_spec; assumption. Qed.

Lemma each_pd_spec : forall pds acc, (forall pd, In pd pds -> NoDup pd) -> NoDup acc ->
  exists out, each pds acc = Ok out /\ NoDup out /\ forall x, In x out <-> In x acc \/ exists pd l, In pd pds /\ one pd = Ok l /\ In x l.
Proof.
  induction pds as [|pd pds IH]; intros acc D N.
  { exists acc. split; [reflexivity|]. split; [exact N|]. intros x. split; [tauto|]. intros [H|(pd & l & [] & _)]. exact H. }
  destruct (one_pd_spec pd (D pd (or_introl eq_refl))) as (l & E & _). cbn [each_pd]. rewrite E. cbn [bind].
  destruct (made_update_spec l acc N) as [N' M].
  destruct (IH (made_update l acc)) as (out & Eo & No & So); [intros p I; apply D; right; exact I|exact N'|].
  exists out. split; [exact Eo|]. split; [exact No|]. intros x. rewrite So, M. split.
  - intros [[H|H]|(p & l' & I & E' & H)]; [right; exists pd, l; cbn; tauto|tauto|right; exists p, l'; cbn; tauto].
  - intros [H|(p & l' & [<-|I] & E' & H)]; [tauto|rewrite E in E'; inversion E'; subst; tauto|right; exists p, l'; tauto].
Qed.

Lemma picks_NoDup {A} (P : A -> Prop) l out : picks P l out -> NoDup l -> NoDup out.
Proof.
  induction 1; intros N; [constructor| |]; inversion N; subst; auto. constructor; auto.
  intros I. match goal with H : ~ In _ _ |- _ => apply H end. eapply picks_incl; eassumption.
Qed.

(* The references of a diagram are those of the diagram of all entries. *)
Lemma from_computed_spec entries calc : NoDup entries ->
  (forall k pd e, In (k, pd) (expand_pd elems entries) -> In e pd -> is_ref pd e = is_ref entries e) ->
  exists out flag, from_computed elems formula is_el is_ref nist freed use_nist use_freed ignore_solids build entries calc = Ok (out, flag)
  /\ NoDup out
  /\ (forall e, In (FromPd e) out <-> In e entries /\ considered is_el (is_ref entries) e /\ ~ has_nist (formula e) /\ ~ has_freed (formula e))
  /\ (forall f, In (FromNist f) out <-> has_nist f /\ exists e, In e entries /\ considered is_el (is_ref entries) e /\ formula e = f)
  /\ (forall f, In (FromFreed f) out <-> has_freed f /\ exists e, In e entries /\ considered is_el (is_ref entries) e /\ formula e = f)
  /\ (length (chem_sys elems entries) <= 9 -> flag = calc).
Proof.
  intros N R. unfold from_computed. destruct (length (chem_sys elems entries) <=? 9) eqn:L.
  - destruct (one_pd_spec entries N) as (out & E & _ & A1 & A2 & A3). rewrite E. cbn [bind].
    destruct (made_update_spec out [] (NoDup_nil _)) as [N' M]. exists (made_update out []), calc. split; [reflexivity|]. split; [exact N'|].
    assert (M' : forall x, In x (made_update out []) <-> In x out) by (intros x; rewrite M; cbn; tauto).
    split; [intros e; rewrite M'; apply A1|]. split; [intros f; rewrite M'; apply A2|]. split; [intros f; rewrite M'; apply A3|]. reflexivity.
  - apply Nat.leb_gt in L. destruct (expand_pd_spec elems elems_nodup entries) as (S1 & S2 & _).
    assert (D : forall pd, In pd (map snd (expand_pd elems entries)) -> NoDup pd /\ incl pd entries /\ forall e, In e pd -> is_ref pd e = is_ref entries e).
    { intros pd I. apply in_map_iff in I as ([k es] & <- & I). cbn [snd]. destruct (S2 k es I) as [Pk _].
      split; [exact (picks_NoDup _ _ _ Pk N)|]. split; [exact (picks_incl _ _ _ Pk)|]. intros e. apply (R k es e I). }
    destruct (each_pd_spec (map snd (expand_pd elems entries)) [] (fun pd I => proj1 (D pd I)) (NoDup_nil _)) as (out & E & No & So).
    rewrite E. cbn [bind]. exists out, false. split; [reflexivity|]. split; [exact No|].
    assert (C' : forall pd e, In pd (map snd (expand_pd elems entries)) -> In e pd -> (considered is_el (is_ref pd) e <-> considered is_el (is_ref entries) e)).
    { intros pd e I J. destruct (D pd I) as (_ & _ & Rf). unfold considered. rewrite (Rf e J). reflexivity. }
    assert (Cov : forall e, In e entries -> exists pd, In pd (map snd (expand_pd elems entries)) /\ In e pd).
    { intros e I. destruct (S1 e I) as (k & es & J & _ & K). exists es. split; [apply in_map_iff; exists (k, es); split; [reflexivity|exact J]|exact K]. }
    split; [|split; [|split; [|lia]]].
    + intros e. rewrite So. split.
      * intros [[]|(pd & l & I & El & H)]. destruct (one_pd_spec pd (proj1 (D pd I))) as (l' & El' & _ & A1 & _). assert (l' = l) by congruence. subst l'.
        apply A1 in H as (H1 & H2 & H3). split; [apply (D pd I); exact H1|]. split; [apply (C' pd e I H1); exact H2|exact H3].
      * intros (H1 & H2 & H3). right. destruct (Cov e H1) as (pd & I & J). destruct (one_pd_spec pd (proj1 (D pd I))) as (l & El & _ & A1 & _).
        exists pd, l. split; [exact I|]. split; [exact El|]. apply A1. split; [exact J|]. split; [apply (C' pd e I J); exact H2|exact H3].
    + intros f. rewrite So. split.
      * intros [[]|(pd & l & I & El & H)]. destruct (one_pd_spec pd (proj1 (D pd I))) as (l' & El' & _ & _ & A2 & _). assert (l' = l) by congruence. subst l'.
        apply A2 in H as (H1 & e & H2 & H3 & H4). split; [exact H1|]. exists e. split; [apply (D pd I); exact H2|]. split; [apply (C' pd e I H2); exact H3|exact H4].
      * intros (H1 & e & H2 & H3 & H4). right. destruct (Cov e H2) as (pd & I & J). destruct (one_pd_spec pd (proj1 (D pd I))) as (l & El & _ & _ & A2 & _).
        exists pd, l. split; [exact I|]. split; [exact El|]. apply A2. split; [exact H1|]. exists e. split; [exact J|]. split; [apply (C' pd e I J); exact H3|exact H4].
    + intros f. rewrite So. split.
      * intros [[]|(pd & l & I & El & H)]. destruct (one_pd_spec pd (proj1 (D pd I))) as (l' & El' & _ & _ & _ & A3). assert (l' = l) by congruence. subst l'.
        apply A3 in H as (H1 & e & H2 & H3 & H4). split; [exact H1|]. exists e. split; [apply (D pd I); exact H2|]. split; [apply (C' pd e I H2); exact H3|exact H4].
      * intros (H1 & e & H2 & H3 & H4). right. destruct (Cov e H2) as (pd & I & J). destruct (one_pd_spec pd (proj1 (D pd I))) as (l & El & _ & _ & _ & A3).
        exists pd, l. split; [exact I|]. split; [exact El|]. apply A3. split; [exact H1|]. exists e. split; [exact J|]. split; [apply (C' pd e I J); exact H3|exact H4].
Qed.
End Build.
