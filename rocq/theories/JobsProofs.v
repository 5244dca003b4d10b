(* Proofs about the competition job: C62, C85, C86. *)
From Coq Require Import Qround Lqa.
From Verif Require Import EnumReactProofs.
From Verif Require Import Prelude NumQ ListFacts UtilsModel UtilsSpec UtilsProofs SolverModel SolverProofs RxnSetSpec RxnSetBaseProofs RxnSetParProofs ReactionBaseProofs JobsModel JobsSpec.
Open Scope nat_scope.

(* --- chunk sizes --- *)
Lemma chunk_pos c n num cpus mem : 1 <= c -> fits num cpus mem -> exists k, pick_chunk_size c n num cpus mem = Ok k /\ 1 <= k.
Proof.
  intros Hc Hf. unfold pick_chunk_size.
  assert (Ei : (inject_Z (250 * Z.of_nat num) == 250 * inject_Z (Z.of_nat num))%Q) by (rewrite inject_Z_mult; reflexivity).
  destruct (Qlt_bool mem (cpus * inject_Z (250 * Z.of_nat num))) eqn:E; [|exists c; split; [reflexivity|exact Hc]].
  apply Qlt_bool_iff' in E. rewrite Ei in E.
  destruct Hf as [H|[Hn H]]; [lra|].
  assert (Hp : (0 < inject_Z (250 * Z.of_nat num))%Q) by (change 0%Q with (inject_Z 0); rewrite <- Zlt_Qlt; lia).
  unfold floordiv at 1. destruct (Qeq_bool (inject_Z (250 * Z.of_nat num)) 0) eqn:E0; [apply Qeq_bool_iff in E0; lra|]. cbn [bind].
  assert (Hk : (1 <= Qfloor (mem / inject_Z (250 * Z.of_nat num)))%Z).
  { change 1%Z with (Qfloor 1). apply Qfloor_resp_le. apply Qle_shift_div_l; [exact Hp|]. rewrite Ei. lra. }
  set (k := Qfloor _) in *. unfold floordiv. destruct (Qeq_bool (inject_Z k) 0) eqn:Ek.
  { apply Qeq_bool_iff in Ek. change 0%Q with (inject_Z 0) in Ek. rewrite inject_Z_injective in Ek. lia. }
  cbn [bind]. eexists. split; [reflexivity|].
  assert (Hq : (0 <= Qfloor (inject_Z (Z.of_nat n) / inject_Z k))%Z).
  { change 0%Z with (Qfloor 0). apply Qfloor_resp_le. apply Qle_shift_div_l.
    - change 0%Q with (inject_Z 0). rewrite <- Zlt_Qlt. lia.
    - rewrite Qmult_0_l. change 0%Q with (inject_Z 0). rewrite <- Zle_Qle. lia. }
  lia.
Qed.

Definition opt_list {A} (o : option A) : list A := match o with Some r => [r] | None => [] end.

Lemma opts_some {A} (l : list A) k : flat_map opt_list (map Some l ++ repeat None k) = l.
Proof.
  induction l as [|x l IH]; cbn; [|f_equal; exact IH]. induction k as [|k IH]; cbn; [reflexivity|exact IH].
Qed.

Lemma flat_map_concat {A B} (f : A -> list B) ls : flat_map f (concat ls) = concat (map (flat_map f) ls).
Proof. induction ls as [|l ls IH]; cbn; [reflexivity|]. rewrite flat_map_app, IH. reflexivity. Qed.

Lemma mapM_mapped {A B D} (f : B -> result D) (g : A -> B) l : mapM f (map g l) = mapM (fun x => f (g x)) l.
Proof. induction l as [|x l IH]; [reflexivity|]. cbn. rewrite IH. reflexivity. Qed.

(* Grouped evaluation is evaluation. *)
Lemma mapM_concat {A B} (f : A -> result B) ls : bind (mapM (mapM f) ls) (fun rs => Ok (concat rs)) = mapM f (concat ls).
Proof.
  assert (app : forall l m, mapM f (l ++ m) = bind (mapM f l) (fun a => bind (mapM f m) (fun b => Ok (a ++ b)))).
  { intros l m. induction l as [|x l IH]; cbn; [destruct (mapM f m); reflexivity|]. destruct (f x); [|reflexivity]. rewrite IH. destruct (mapM f l); [|reflexivity]. cbn. destruct (mapM f m); reflexivity. }
  induction ls as [|l ls IH]; [reflexivity|]. cbn [concat]. rewrite app, <- IH. cbn [mapM]. destruct (mapM f l); [|reflexivity]. cbn [bind].
  destruct (mapM (mapM f) ls); reflexivity.
Qed.

Lemma gather_err {T V} wait (f : T -> result V) tasks e : valid_schedule wait -> mapM f tasks = Err e -> exists e', gather wait f tasks = Err e'.
Proof.
  intros Hw E. destruct (gather wait f tasks) as [out|e'] eqn:G; [|exists e'; reflexivity].
  apply gather_inv in G as (vs & Hv & _); [|exact Hw]. rewrite Hv in E. discriminate.
Qed.

Lemma competition_spec same round4 interface arrange wait c num cpus mem targets all open :
  valid_schedule wait -> 1 <= c -> fits num cpus mem ->
  agree (@Permutation scored) (competition same round4 interface arrange wait c num cpus mem targets all open)
    (mapM (decorate same round4 interface arrange all open) targets).
Proof.
  intros Hw Hc Hf. unfold competition. destruct (chunk_pos c (length targets) num cpus mem Hc Hf) as (n & -> & Hn). cbn [bind].
  destruct (grouper_spec (map Some targets) n None Hn) as (gs & k & -> & Hg & _). cbn [bind].
  set (D := decorate same round4 interface arrange all open).
  assert (E : bind (mapM (by_chunk same round4 interface arrange all open) gs) (fun rs => Ok (concat rs)) = mapM D targets).
  { rewrite <- (opts_some targets k), <- Hg, flat_map_concat, <- mapM_concat. unfold by_chunk. fold D.
    rewrite mapM_mapped. reflexivity. }
  rewrite <- E. destruct (mapM (by_chunk same round4 interface arrange all open) gs) as [vs|e] eqn:M.
  - destruct (gather_ok wait _ _ _ Hw M) as (out & -> & P). cbn [bind agree]. apply Permutation_concat. exact P.
  - destruct (gather_err wait _ _ _ Hw M) as (e' & ->). cbn. exact I.
Qed.

(* --- one precursor --- *)
Lemma fold_min (l : list Q) : forall x, let m := fold_left (fun a b => if Qlt_bool b a then b else a) l x in
  In m (x :: l) /\ forall e, In e (x :: l) -> (m <= e)%Q.
Proof.
  induction l as [|y l IH]; intros x; cbn [fold_left].
  - split; [left; reflexivity|]. intros e [<-|[]]. apply Qle_refl.
  - destruct (IH (if Qlt_bool y x then y else x)) as [I1 I2]. cbv zeta. split.
    + destruct I1 as [<-|I1]; [|right; right; exact I1]. destruct (Qlt_bool y x); [right; left; reflexivity|left; reflexivity].
    + assert (M : forall e, e = x \/ e = y -> ((if Qlt_bool y x then y else x) <= e)%Q).
      { intros e [->| ->]; destruct (Qlt_bool y x) eqn:E; try apply Qle_refl.
        - apply Qlt_bool_iff' in E. lra.
        - apply Qlt_bool_false in E. lra. }
      intros e [<-|[<-|He]].
      * eapply Qle_trans; [apply I2; left; reflexivity|apply M; left; reflexivity].
      * eapply Qle_trans; [apply I2; left; reflexivity|apply M; right; reflexivity].
      * apply I2. right. exact He.
Qed.
Lemma fold_max (l : list Q) : forall x, let m := fold_left (fun a b => if Qlt_bool a b then b else a) l x in
  In m (x :: l) /\ forall e, In e (x :: l) -> (e <= m)%Q.
Proof.
  induction l as [|y l IH]; intros x; cbn [fold_left].
  - split; [left; reflexivity|]. intros e [<-|[]]. apply Qle_refl.
  - destruct (IH (if Qlt_bool x y then y else x)) as [I1 I2]. cbv zeta. split.
    + destruct I1 as [<-|I1]; [|right; right; exact I1]. destruct (Qlt_bool x y); [right; left; reflexivity|left; reflexivity].
    + assert (M : forall e, e = x \/ e = y -> (e <= (if Qlt_bool x y then y else x))%Q).
      { intros e [->| ->]; destruct (Qlt_bool x y) eqn:E; try apply Qle_refl.
        - apply Qlt_bool_iff' in E. lra.
        - apply Qlt_bool_false in E. lra. }
      intros e [<-|[<-|He]].
      * eapply Qle_trans; [apply M; left; reflexivity|apply I2; left; reflexivity].
      * eapply Qle_trans; [apply M; right; reflexivity|apply I2; left; reflexivity].
      * apply I2. right. exact He.
Qed.
Lemma arr_min_spec l : l <> [] -> exists m, arr_min l = Ok m /\ In m l /\ forall e, In e l -> (m <= e)%Q.
Proof. destruct l as [|x l]; [congruence|]. intros _. eexists. split; [reflexivity|apply fold_min]. Qed.
Lemma arr_max_spec l : l <> [] -> exists m, arr_max l = Ok m /\ In m l /\ forall e, In e l -> (e <= m)%Q.
Proof. destruct l as [|x l]; [congruence|]. intros _. eexists. split; [reflexivity|apply fold_max]. Qed.

Lemma close_zero e : isclose e 0 = true <-> (- (1 # 100000000) <= e /\ e <= 1 # 100000000)%Q.
Proof.
  unfold isclose. rewrite Qle_bool_iff. change (Qabs 0) with 0%Q.
  assert (E : ((1 # 100000000) + (1 # 100000) * 0 == 1 # 100000000)%Q) by reflexivity. rewrite E.
  rewrite Qabs_Qle_condition. split; intros [A B]; split; lra.
Qed.

Lemma in_by_reactants fs all x : In x (by_reactants fs all) <-> In x all /\ incl (j_reactants x) fs.
Proof.
  unfold by_reactants. rewrite filter_In, forallb_forall. split; intros [A B]; (split; [exact A|]).
  - intros f Hf. apply B in Hf. apply memb_iff in Hf. exact Hf.
  - intros f Hf. apply memb_iff. apply B. exact Hf.
Qed.

Lemma with_open open fs f : In f (match open with Some o => fs ++ [o] | None => fs end) <-> available open fs f.
Proof.
  unfold available. destruct open as [o|].
  - rewrite in_app_iff. cbn. intuition congruence.
  - intuition congruence.
Qed.

Lemma score_single_spec same round4 r competing :
  exists v p s, score_single same round4 r competing = Ok (round4 p, round4 s)
  /\ lowest (fun e => exists x, In x competing /\ same x r = false /\ j_energy x = e) v
  /\ (j_energy r - v - (1 # 100000000) <= p)%Q /\ (p <= j_energy r - v)%Q /\ (s == Qmax p 0)%Q
  /\ ((forall x, In x competing -> same x r = false -> (0 < j_energy x)%Q -> (1 # 100000000 < j_energy x)%Q) -> (p == j_energy r - v)%Q).
Proof.
  unfold score_single. set (others0 := map j_energy (filter (fun x => negb (same x r)) competing)).
  assert (Ho : forall e, In e others0 <-> exists x, In x competing /\ same x r = false /\ j_energy x = e).
  { intros e. unfold others0. rewrite in_map_iff. split.
    - intros (x & E & Hx). apply filter_In in Hx as [Hx Hs]. exists x. apply negb_true_iff in Hs. tauto.
    - intros (x & Hx & Hs & E). exists x. split; [exact E|]. apply filter_In. rewrite Hs. split; [exact Hx|reflexivity]. }
  set (others := if existsb (fun e => isclose e 0) others0 then others0 else others0 ++ [0%Q]).
  assert (Hne : others <> []).
  { unfold others. destruct (existsb _ others0) eqn:E; [|destruct others0; discriminate]. intro H. rewrite H in E. discriminate. }
  destruct (arr_min_spec others Hne) as (m & -> & Hm & Hmin). cbn [bind].
  set (diffs := map (fun e => (j_energy r - e)%Q) others). set (positive := filter (fun d => Qlt_bool 0 d) diffs).
  assert (Hs : exists s, (if existsb (fun d => negb (Qeq_bool d 0)) positive then arr_max positive else Ok 0%Q) = Ok s /\ (s == Qmax (j_energy r - m) 0)%Q).
  { assert (Hpos : forall d, In d positive <-> (0 < d)%Q /\ exists e, In e others /\ (j_energy r - e)%Q = d).
    { intros d. unfold positive. rewrite filter_In, Qlt_bool_iff'. unfold diffs. rewrite in_map_iff. split.
      - intros [(e & E & He) H]. split; [exact H|]. exists e. split; assumption.
      - intros [H (e & He & E)]. split; [exists e; split; assumption|exact H]. }
    destruct positive as [|d0 ds] eqn:Ep.
    - exists 0%Q. split; [reflexivity|]. symmetry. apply Q.max_r. destruct (Qlt_le_dec 0 (j_energy r - m)) as [L|L]; [|exact L].
      exfalso. apply (proj2 (Hpos (j_energy r - m)%Q)). split; [exact L|]. exists m. split; [exact Hm|reflexivity].
    - rewrite <- Ep in *. assert (Hpn : positive <> []) by (rewrite Ep; discriminate).
      assert (Hex : existsb (fun d => negb (Qeq_bool d 0)) positive = true).
      { apply existsb_exists. exists d0. assert (Hin : In d0 positive) by (rewrite Ep; left; reflexivity). split; [exact Hin|]. apply Hpos in Hin as [L _].
        apply negb_true_iff. destruct (Qeq_bool d0 0) eqn:E; [|reflexivity]. apply Qeq_bool_iff in E. lra. }
      rewrite Hex. destruct (arr_max_spec positive Hpn) as (s & -> & Hin & Hmax). exists s. split; [reflexivity|].
      apply Hpos in Hin as [Ls (e & He & <-)]. pose proof (Hmin e He) as Le.
      assert (Hm' : In (j_energy r - m)%Q positive) by (apply Hpos; split; [lra|exists m; split; [exact Hm|reflexivity]]).
      apply Hmax in Hm'. rewrite Q.max_l by lra. lra. }
  destruct Hs as (s & -> & Es). cbn [bind].
  destruct (Qlt_le_dec 0 m) as [Lm|Lm].
  - (* the lowest other energy is positive, and close to zero *)
    exists 0%Q, (j_energy r - m)%Q, s. split; [reflexivity|].
    assert (Hcl : m = m /\ existsb (fun e => isclose e 0) others0 = true).
    { split; [reflexivity|]. destruct (existsb (fun e => isclose e 0) others0) eqn:E; [reflexivity|]. exfalso.
      assert (H0 : (m <= 0)%Q). { apply Hmin. unfold others. apply in_or_app. right. left. reflexivity. } lra. }
    destruct Hcl as [_ Hcl]. assert (Eo : others = others0) by (unfold others; rewrite Hcl; reflexivity).
    apply existsb_exists in Hcl as (c & Hc & Ec). apply close_zero in Ec as [_ Ec]. pose proof (Hmin c ltac:(rewrite Eo; exact Hc)) as Lc.
    split.
    { split; [right; reflexivity|]. split; [apply Qle_refl|]. intros e He. apply Ho in He. rewrite <- Eo in He. apply Hmin in He. lra. }
    split; [lra|]. split; [lra|]. split; [exact Es|]. intros Hx. exfalso. rewrite Eo in Hm. apply Ho in Hm as (x & Hx1 & Hx2 & <-).
    specialize (Hx x Hx1 Hx2 Lm). lra.
  - exists m, (j_energy r - m)%Q, s. split; [reflexivity|]. split.
    { split.
      - unfold others in Hm. destruct (existsb _ others0) eqn:E; [left; apply Ho; exact Hm|]. apply in_app_iff in Hm as [Hm|[<-|[]]]; [left; apply Ho; exact Hm|right; reflexivity].
      - split; [exact Lm|]. intros e He. apply Hmin. apply Ho in He. unfold others. destruct (existsb _ others0); [exact He|]. apply in_or_app. left. exact He. }
    split; [lra|]. split; [apply Qle_refl|]. split; [exact Es|]. intros _. reflexivity.
Qed.

Lemma decorate_single same round4 interface arrange all open r : length (j_reactants r) = 1 ->
  exists v p s, decorate same round4 interface arrange all open r = Ok (r, (round4 p, round4 s))
  /\ lowest (other_energy same all open r) v
  /\ (j_energy r - v - (1 # 100000000) <= p)%Q /\ (p <= j_energy r - v)%Q /\ (s == Qmax p 0)%Q
  /\ ((forall e, other_energy same all open r e -> (0 < e)%Q -> (1 # 100000000 < e)%Q) -> (p == j_energy r - v)%Q).
Proof.
  intros H1. unfold decorate. rewrite H1. cbn [Nat.leb]. unfold decorate_one. rewrite H1. cbn [Nat.eqb].
  set (comp := by_reactants _ all).
  assert (Hc : forall e, (exists x, In x comp /\ same x r = false /\ j_energy x = e) <-> other_energy same all open r e).
  { intros e. unfold comp, other_energy. split.
    - intros (x & Hx & Hs & E). apply in_by_reactants in Hx as [Hx Hi]. exists x. split; [exact Hx|]. split; [|split; assumption]. intros f Hf. apply with_open. apply Hi. exact Hf.
    - intros (x & Hx & Hi & Hs & E). exists x. split; [|split; assumption]. apply in_by_reactants. split; [exact Hx|]. intros f Hf. apply with_open. apply Hi. exact Hf. }
  destruct (score_single_spec same round4 r comp) as (v & p & s & E & (L1 & L2 & L3) & P1 & P2 & P3 & P4).
  exists v, p, s. rewrite E. split; [reflexivity|]. split.
  { split; [destruct L1 as [L1|L1]; [left; apply Hc; exact L1|right; exact L1]|]. split; [exact L2|]. intros e He. apply L3. apply Hc. exact He. }
  split; [exact P1|]. split; [exact P2|]. split; [exact P3|]. intros He. apply P4. intros x Hx Hs Lx. apply He; [|exact Lx]. apply Hc. exists x. tauto.
Qed.

(* --- C85: the precursors --- *)
Lemma NoDup_filter' {A} (f : A -> bool) l : NoDup l -> NoDup (filter f l).
Proof. induction 1; cbn; [constructor|]. destruct (f x); [constructor; [rewrite filter_In; tauto|assumption]|assumption]. Qed.

Lemma filter_all {A} (f : A -> bool) l : (forall x, In x l -> f x = true) -> filter f l = l.
Proof. induction l as [|x l IH]; intros H; [reflexivity|]. cbn. rewrite (H x (or_introl eq_refl)), IH; [reflexivity|]. intros y Hy. apply H. right. exact Hy. Qed.

Lemma filter_sub {A} (f : A -> bool) l : subseq (filter f l) l.
Proof. induction l as [|x l IH]; cbn; [constructor|]. destruct (f x); constructor; exact IH. Qed.

Lemma filter_len {A} (f : A -> bool) l : length (filter f l) <= length l.
Proof. induction l as [|x l IH]; cbn; [lia|]. destruct (f x); cbn; lia. Qed.

Lemma decorate_closed same round4 interface arrange all r : 3 <= length (j_reactants r) ->
  decorate same round4 interface arrange all None r = Err ValueError.
Proof. intros H. unfold decorate. apply Nat.leb_le in H. rewrite H. reflexivity. Qed.

Lemma decorate_pair same round4 interface arrange all r a b : j_reactants r = [a; b] ->
  decorate same round4 interface arrange all None r = bind (interface a b (by_reactants [a; b] all) r) (fun s => Ok (r, s)).
Proof. intros H. unfold decorate. rewrite H. reflexivity. Qed.

Lemma decorate_three same round4 interface arrange all o r : (forall l, Permutation (arrange l) l) ->
  NoDup (j_reactants r) -> length (j_reactants r) = 3 -> In o (j_reactants r) ->
  exists a b, precursors (Some o) r [a; b]
  /\ decorate same round4 interface arrange all (Some o) r = bind (interface a b (by_reactants (j_reactants r ++ [o]) all) r) (fun s => Ok (r, s)).
Proof.
  intros Ha Hnd H3 Ho. unfold decorate. rewrite H3. cbn [Nat.leb]. unfold remove_open. set (l := filter (fun f => negb (Nat.eqb f o)) (j_reactants r)).
  assert (Hl : length l = 2).
  { apply in_split in Ho as (l1 & l2 & E). unfold l. rewrite E in *. rewrite filter_app. cbn. rewrite Nat.eqb_refl. cbn. rewrite <- filter_app.
    rewrite filter_all.
    - rewrite app_length in *. cbn in H3. lia.
    - intros f Hf. apply negb_true_iff. apply Nat.eqb_neq. intros ->. apply NoDup_remove_2 in Hnd. contradiction. }
  pose proof (Ha l) as P. pose proof (Permutation_length P) as PL. rewrite Hl in PL.
  destruct (arrange l) as [|a [|b [|]]] eqn:E; try discriminate. exists a, b. split; [|reflexivity]. split.
  - apply (Permutation_NoDup (Permutation_sym P)). apply NoDup_filter'. exact Hnd.
  - intros f. split.
    + intros Hf. apply (Permutation_in _ P) in Hf. apply filter_In in Hf as [Hf Hn]. split; [exact Hf|]. apply negb_true_iff, Nat.eqb_neq in Hn. congruence.
    + intros [Hf Hn]. apply (Permutation_in _ (Permutation_sym P)). apply filter_In. split; [exact Hf|]. apply negb_true_iff, Nat.eqb_neq. congruence.
Qed.

(* --- C86: the reactions that are kept --- *)
Lemma kept_enough T all open r : In r T -> (open = None \/ exists t o, open = Some o /\ In t T /\ In o (j_reactants t)) ->
  by_reactants (match open with Some o => j_reactants r ++ [o] | None => j_reactants r end) (by_reactants (flat_map j_reactants T) all)
  = by_reactants (match open with Some o => j_reactants r ++ [o] | None => j_reactants r end) all.
Proof.
  intros Hr Ho. set (fs := match open with Some o => _ | None => _ end).
  assert (Hi : incl fs (flat_map j_reactants T)).
  { intros f Hf. apply with_open in Hf as [Hf|Hf]; apply in_flat_map; [exists r; tauto|]. destruct Ho as [Ho|(t & o & E & Ht & Hin)]; [congruence|]. exists t. rewrite E in Hf. injection Hf as <-. tauto. }
  induction all as [|x all IH]; [reflexivity|]. unfold by_reactants in *. cbn [filter].
  destruct (forallb (fun f => memb Nat.eqb f fs) (j_reactants x)) eqn:E.
  - assert (E' : forallb (fun f => memb Nat.eqb f (flat_map j_reactants T)) (j_reactants x) = true).
    { apply forallb_forall. intros f Hf. apply memb_iff. apply Hi. rewrite forallb_forall in E. apply memb_iff. apply E. exact Hf. }
    rewrite E'. cbn [filter]. rewrite E. f_equal. exact IH.
  - destruct (forallb (fun f => memb Nat.eqb f (flat_map j_reactants T)) (j_reactants x)); [cbn [filter]; rewrite E|]; exact IH.
Qed.

Lemma make_exact same round4 interface arrange wait c cpus mem target all open :
  valid_schedule wait -> 1 <= c ->
  (open = None \/ exists t o, open = Some o /\ In t all /\ In target (j_products t) /\ In o (j_reactants t)) ->
  (forall n, n <= length all -> fits n cpus mem) ->
  (by_product target all = [] -> make same round4 interface arrange wait c cpus mem target all open = Err ValueError)
  /\ (by_product target all <> [] -> agree (@Permutation scored) (make same round4 interface arrange wait c cpus mem target all open)
       (mapM (decorate same round4 interface arrange all open) (by_product target all))).
Proof.
  intros Hw Hc Ho Hf.
  assert (Hin : forall r, In r (by_product target all) <-> In r all /\ In target (j_products r)).
  { intros r. unfold by_product. rewrite filter_In, memb_iff. reflexivity. }
  unfold make. split; [intros ->; reflexivity|].
  intros Hne. destruct (by_product target all) as [|t0 ts] eqn:E; [congruence|]. rewrite <- E in *.
  set (kept := by_reactants (flat_map j_reactants (by_product target all)) all).
  assert (Hk : mapM (decorate same round4 interface arrange all open) (by_product target all) = mapM (decorate same round4 interface arrange kept open) (by_product target all)).
  { apply mapM_ext. intros r Hr. unfold decorate. unfold kept. rewrite kept_enough; [reflexivity|exact Hr|].
    destruct Ho as [Ho|(t & o & E1 & Ht & Hp & Hi)]; [left; exact Ho|right; exists t, o]. split; [exact E1|]. split; [apply Hin; tauto|exact Hi]. }
  rewrite Hk. apply competition_spec; [exact Hw|exact Hc|]. apply Hf. apply filter_len.
Qed.

Lemma make_spec same round4 interface arrange wait c cpus mem target all open :
  valid_schedule wait -> 1 <= c ->
  (open = None \/ exists t o, open = Some o /\ In t all /\ In target (j_products t) /\ In o (j_reactants t)) ->
  (forall n, n <= length all -> fits n cpus mem) ->
  exists targets, (forall r, In r targets <-> In r all /\ In target (j_products r)) /\ subseq targets all
  /\ (targets = [] -> make same round4 interface arrange wait c cpus mem target all open = Err ValueError)
  /\ (targets <> [] -> agree (@Permutation scored) (make same round4 interface arrange wait c cpus mem target all open)
       (mapM (decorate same round4 interface arrange all open) targets)).
Proof.
  intros Hw Hc Ho Hf. exists (by_product target all). split; [intros r; unfold by_product; rewrite filter_In, memb_iff; reflexivity|].
  split; [apply filter_sub|]. exact (make_exact same round4 interface arrange wait c cpus mem target all open Hw Hc Ho Hf).
Qed.
