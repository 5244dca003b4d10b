From Coq Require Import QArith List Bool Lia.
Import ListNotations.
From Verif Require Import FlowModel FlowSpec.
Open Scope nat_scope.
Open Scope list_scope.

Definition ok_source (given : bool) (jobs : list job) (s : source) : Prop :=
  match s with Given => given = true | Out n o => exists j', nth_error jobs n = Some j' /\ has_output j' o end.

Lemma nth_lt {A} (l : list A) n x : nth_error l n = Some x -> n < length l.
Proof. intros H. apply nth_error_Some. rewrite H. discriminate. Qed.
Lemma nth_grow {A} (l l' : list A) n x : nth_error l n = Some x -> nth_error (l ++ l') n = Some x.
Proof. intros H. rewrite nth_error_app1; [exact H|exact (nth_lt _ _ _ H)]. Qed.

Lemma wired_nil given : wired given [].
Proof. intros [|i] j s H; discriminate H. Qed.

Lemma wired_snoc given jobs j : wired given jobs -> Forall (ok_source given jobs) (arguments j) -> wired given (jobs ++ [j]).
Proof.
  intros W F i j0 s Hj Hs. destruct (Nat.lt_ge_cases i (length jobs)) as [Hi|Hi].
  - rewrite nth_error_app1 in Hj by exact Hi. specialize (W i j0 s Hj Hs). destruct s as [|n o]; [exact W|]. destruct W as (H1 & j' & H2 & H3).
    split; [exact H1|]. exists j'. split; [exact (nth_grow _ _ _ _ H2)|exact H3].
  - rewrite nth_error_app2 in Hj by exact Hi. destruct (i - length jobs) as [|k] eqn:E; [|destruct k; discriminate Hj]. injection Hj as <-.
    rewrite Forall_forall in F. specialize (F s Hs). destruct s as [|n o]; [exact F|]. destruct F as (j' & H2 & H3). pose proof (nth_lt _ _ _ H2).
    split; [lia|]. exists j'. split; [exact (nth_grow _ _ _ _ H2)|exact H3].
Qed.

Lemma enumerated_grow given jobs l s : ok_source given jobs s -> enumerated (jobs ++ l) s = enumerated jobs s.
Proof.
  destruct s as [|n o]; [reflexivity|]. intros (j' & H & _). cbn [enumerated]. destruct o; try reflexivity. rewrite H, (nth_grow _ l _ _ H). reflexivity.
Qed.
Lemma from_network_grow given jobs l o s : ok_source given jobs s -> from_network (jobs ++ l) o s = from_network jobs o s.
Proof. destruct s as [|n o']; [reflexivity|]. intros (j' & H & _). cbn [from_network]. rewrite H, (nth_grow _ l _ _ H). reflexivity. Qed.

Lemma wired_ok given jobs j : wired given jobs -> In j jobs -> Forall (ok_source given jobs) (arguments j).
Proof.
  intros W Hj. apply Forall_forall. intros s Hs. destruct (In_nth_error _ _ Hj) as [i Hi]. specialize (W i j s Hi Hs).
  destruct s as [|n o]; [exact W|]. destruct W as (_ & j' & H). exists j'. exact H.
Qed.

Lemma flat_map_on {A B} (f g : A -> list B) l : (forall x, In x l -> f x = g x) -> flat_map f l = flat_map g l.
Proof. induction l as [|x l IH]; intros H; [reflexivity|]. cbn [flat_map]. rewrite (H x (or_introl eq_refl)), IH; [reflexivity|]. intros y Hy. apply H. right. exact Hy. Qed.

Lemma networks_snoc given jobs j : wired given jobs -> Forall (ok_source given jobs) (arguments j) ->
  networks (jobs ++ [j]) = networks jobs ++ match j with BuildNetwork mk ss => [(mk, map (enumerated jobs) ss)] | _ => [] end.
Proof.
  intros W F. unfold networks. rewrite flat_map_app. f_equal.
  - apply flat_map_on. intros x Hx. pose proof (wired_ok _ _ _ W Hx) as O. destruct x; try reflexivity. do 2 f_equal.
    apply map_ext_in. intros s Hs. apply (enumerated_grow given). rewrite Forall_forall in O. exact (O s Hs).
  - cbn [flat_map]. rewrite app_nil_r. destruct j; try reflexivity. do 2 f_equal. apply map_ext_in. intros s Hs. apply (enumerated_grow given).
    rewrite Forall_forall in F. exact (F s Hs).
Qed.

Lemma solvers_snoc given jobs j : wired given jobs -> Forall (ok_source given jobs) (arguments j) ->
  solvers (jobs ++ [j]) = solvers jobs ++ match j with Solve sm p s => [(sm, from_network jobs Paths p, from_network jobs NetworkEntries s)] | _ => [] end.
Proof.
  intros W F. unfold solvers. rewrite flat_map_app. f_equal.
  - apply flat_map_on. intros x Hx. pose proof (wired_ok _ _ _ W Hx) as O. destruct x; try reflexivity. cbn [arguments] in O. rewrite Forall_forall in O.
    rewrite (from_network_grow given jobs) by (apply O; left; reflexivity). rewrite (from_network_grow given jobs) by (apply O; right; left; reflexivity). reflexivity.
  - cbn [flat_map]. rewrite app_nil_r. destruct j; try reflexivity. cbn [arguments] in F. rewrite Forall_forall in F.
    rewrite (from_network_grow given jobs) by (apply F; left; reflexivity). rewrite (from_network_grow given jobs) by (apply F; right; left; reflexivity). reflexivity.
Qed.

Lemma sources_snoc jobs j : entry_sources (jobs ++ [j]) = entry_sources jobs ++ match j with Enumerate _ s => [s] | _ => [] end.
Proof. unfold entry_sources. rewrite flat_map_app. cbn [flat_map]. rewrite app_nil_r. reflexivity. Qed.

Section Flow.
Variable reduced : nat -> nat.
Variable elements : nat -> list nat.
Variable elem_formula : nat -> nat.
Variable arrange : list nat -> list nat.
Variable m : flow_maker.
Variable given : bool.
Let src := if given then Given else Out 0 Entries.
Let base := base_enumerators elem_formula m.

(* What holds of the jobs collected so far. *)
Record inv (b : nat) (jobs : list job) (pots : list (nat * Q)) : Prop := {
  i_wired : wired given jobs;
  i_src : ok_source given jobs src;
  i_base : nth_error jobs b = Some (Enumerate base src);
  i_sources : Forall (fun s => s = src) (entry_sources jobs);
  i_networks : networks jobs = (fm_network m, [Some base]) :: map (fun p => (network_at (fm_network m) (fst p) (snd p), [Some base; Some [MinGrand (fst p) (snd p) (fm_minimize_kw m)]])) pots;
  i_solvers : solvers jobs = match fm_solver m with None => []
    | Some sm => (sm, Some (fm_network m), Some (fm_network m))
        :: map (fun p => let mk := Some (network_at (fm_network m) (fst p) (snd p)) in (solver_at sm (fst p) (snd p), mk, mk)) pots end }.

Lemma ok_grow jobs l s : ok_source given jobs s -> ok_source given (jobs ++ l) s.
Proof. destruct s as [|n o]; [exact (fun H => H)|]. intros (j' & H & O). exists j'. split; [exact (nth_grow _ _ _ _ H)|exact O]. Qed.

Lemma nth_end {A} (l : list A) x : nth_error (l ++ [x]) (length l) = Some x.
Proof. rewrite nth_error_app2 by lia. rewrite Nat.sub_diag. reflexivity. Qed.

Lemma step_inv b e jobs pots mu : inv b jobs pots -> inv b (at_chempot m src (Out b Rxns) e jobs mu) (pots ++ [(e, mu)]).
Proof.
  intros I. unfold at_chempot. set (j1 := Enumerate [MinGrand e mu (fm_minimize_kw m)] src). set (j2 := BuildNetwork (network_at (fm_network m) e mu) [Out b Rxns; Out (length jobs) Rxns]).
  change (jobs ++ [j1; j2]) with (jobs ++ ([j1] ++ [j2])). rewrite app_assoc.
  assert (F1 : Forall (ok_source given jobs) (arguments j1)) by (constructor; [exact (i_src _ _ _ I)|constructor]).
  pose proof (wired_snoc _ _ _ (i_wired _ _ _ I) F1) as W1.
  assert (B1 : nth_error (jobs ++ [j1]) b = Some (Enumerate base src)) by exact (nth_grow _ _ _ _ (i_base _ _ _ I)).
  pose proof (nth_end jobs j1) as E1.
  assert (F2 : Forall (ok_source given (jobs ++ [j1])) (arguments j2)).
  { constructor; [exists (Enumerate base src); split; [exact B1|exact Logic.I]|]. constructor; [exists j1; split; [exact E1|exact Logic.I]|constructor]. }
  pose proof (wired_snoc _ _ _ W1 F2) as W2.
  assert (N2 : networks ((jobs ++ [j1]) ++ [j2]) = networks jobs ++ [(network_at (fm_network m) e mu, [Some base; Some [MinGrand e mu (fm_minimize_kw m)]])]).
  { rewrite (networks_snoc given _ _ W1 F2), (networks_snoc given _ _ (i_wired _ _ _ I) F1). unfold j2. cbn [map enumerated]. rewrite B1, E1. cbn [j1]. rewrite app_nil_r. reflexivity. }
  assert (S2 : solvers ((jobs ++ [j1]) ++ [j2]) = solvers jobs).
  { rewrite (solvers_snoc given _ _ W1 F2), (solvers_snoc given _ _ (i_wired _ _ _ I) F1). unfold j1, j2. rewrite !app_nil_r. reflexivity. }
  assert (R2 : Forall (fun s => s = src) (entry_sources ((jobs ++ [j1]) ++ [j2]))).
  { rewrite !sources_snoc. unfold j2. rewrite app_nil_r. apply Forall_app. split; [exact (i_sources _ _ _ I)|]. constructor; [reflexivity|constructor]. }
  assert (E2 : nth_error ((jobs ++ [j1]) ++ [j2]) (length jobs + 1) = Some j2).
  { replace (length jobs + 1) with (length (jobs ++ [j1])) by (rewrite app_length; reflexivity). apply nth_end. }
  rewrite (i_networks _ _ _ I) in N2. rewrite (i_solvers _ _ _ I) in S2.
  destruct (fm_solver m) as [sm|] eqn:Es.
  - set (j3 := Solve (solver_at sm e mu) (Out (length jobs + 1) Paths) (Out (length jobs + 1) NetworkEntries)).
    assert (F3 : Forall (ok_source given ((jobs ++ [j1]) ++ [j2])) (arguments j3)).
    { constructor; [exists j2; split; [exact E2|exact Logic.I]|]. constructor; [exists j2; split; [exact E2|exact Logic.I]|constructor]. }
    constructor.
    + exact (wired_snoc _ _ _ W2 F3).
    + apply ok_grow, ok_grow, ok_grow. exact (i_src _ _ _ I).
    + apply nth_grow, nth_grow. exact B1.
    + rewrite sources_snoc. unfold j3. rewrite app_nil_r. exact R2.
    + rewrite (networks_snoc given _ _ W2 F3), N2. unfold j3. rewrite map_app, app_nil_r. reflexivity.
    + rewrite Es, (solvers_snoc given _ _ W2 F3), S2. unfold j3. cbn [from_network]. rewrite E2. unfold j2. rewrite map_app. reflexivity.
  - constructor.
    + exact W2.
    + apply ok_grow, ok_grow. exact (i_src _ _ _ I).
    + apply nth_grow. exact B1.
    + exact R2.
    + rewrite N2, map_app. reflexivity.
    + rewrite Es. exact S2.
Qed.

Lemma loop_inv b e mus : forall jobs pots, inv b jobs pots -> inv b (fold_left (at_chempot m src (Out b Rxns) e) mus jobs) (pots ++ map (fun mu => (e, mu)) mus).
Proof.
  induction mus as [|mu mus IH]; intros jobs pots I; cbn [fold_left map]; [rewrite app_nil_r; exact I|].
  replace (pots ++ (e, mu) :: map (fun mu0 => (e, mu0)) mus) with ((pots ++ [(e, mu)]) ++ map (fun mu0 => (e, mu0)) mus) by (rewrite <- app_assoc; reflexivity).
  apply IH, step_inv, I.
Qed.

Lemma start_inv jobs : wired given jobs -> ok_source given jobs src -> networks jobs = [] -> solvers jobs = [] -> entry_sources jobs = [] ->
  let b := length jobs in
  let l := (jobs ++ [Enumerate base src]) ++ [BuildNetwork (fm_network m) [Out b Rxns]] in
  inv b (match fm_solver m with Some sm => l ++ [Solve sm (Out (length (jobs ++ [Enumerate base src])) Paths) (Out (length (jobs ++ [Enumerate base src])) NetworkEntries)] | None => l end) [].
Proof.
  intros W S N V R b l. set (j1 := Enumerate base src) in *. set (j2 := BuildNetwork (fm_network m) [Out b Rxns]) in *.
  assert (F1 : Forall (ok_source given jobs) (arguments j1)) by (constructor; [exact S|constructor]).
  pose proof (wired_snoc _ _ _ W F1) as W1. pose proof (nth_end jobs j1) as E1.
  assert (F2 : Forall (ok_source given (jobs ++ [j1])) (arguments j2)) by (constructor; [exists j1; split; [exact E1|exact Logic.I]|constructor]).
  pose proof (wired_snoc _ _ _ W1 F2) as W2. pose proof (nth_end (jobs ++ [j1]) j2) as E2.
  assert (N2 : networks l = [(fm_network m, [Some base])]).
  { unfold l. rewrite (networks_snoc given _ _ W1 F2), (networks_snoc given _ _ W F1), N. unfold j2, b. cbn [map enumerated]. rewrite E1. reflexivity. }
  assert (V2 : solvers l = []).
  { unfold l. rewrite (solvers_snoc given _ _ W1 F2), (solvers_snoc given _ _ W F1), V. reflexivity. }
  assert (R2 : entry_sources l = [src]) by (unfold l; rewrite !sources_snoc, R; reflexivity).
  destruct (fm_solver m) as [sm|] eqn:Es.
  - set (j3 := Solve sm (Out (length (jobs ++ [j1])) Paths) (Out (length (jobs ++ [j1])) NetworkEntries)).
    assert (F3 : Forall (ok_source given l) (arguments j3)).
    { constructor; [exists j2; split; [exact E2|exact Logic.I]|]. constructor; [exists j2; split; [exact E2|exact Logic.I]|constructor]. }
    constructor.
    + exact (wired_snoc _ _ _ W2 F3).
    + apply ok_grow, ok_grow, ok_grow. exact S.
    + apply nth_grow, nth_grow. exact E1.
    + rewrite sources_snoc, R2. unfold j3. constructor; [reflexivity|constructor].
    + rewrite (networks_snoc given l _ W2 F3), N2. reflexivity.
    + rewrite Es, (solvers_snoc given l _ W2 F3), V2. unfold j3. cbn [from_network]. unfold l. rewrite E2. reflexivity.
  - constructor.
    + exact W2.
    + apply ok_grow, ok_grow. exact S.
    + apply nth_grow. exact E1.
    + rewrite R2. constructor; [reflexivity|constructor].
    + rewrite N2. reflexivity.
    + rewrite Es. exact V2.
Qed.

Lemma make_inv precursors targets :
  inv (if given then 0 else 1) (flow_make reduced elements elem_formula arrange m precursors targets given) (if fm_minimize m then potentials m else []).
Proof.
  unfold flow_make. fold src. set (g := GetEntries _ _).
  assert (I : inv (length (if given then [] else [g]))
     (match fm_solver m with
      | Some sm => (((if given then [] else [g]) ++ [Enumerate base src]) ++ [BuildNetwork (fm_network m) [Out (length (if given then [] else [g])) Rxns]])
          ++ [Solve sm (Out (length ((if given then [] else [g]) ++ [Enumerate base src])) Paths) (Out (length ((if given then [] else [g]) ++ [Enumerate base src])) NetworkEntries)]
      | None => ((if given then [] else [g]) ++ [Enumerate base src]) ++ [BuildNetwork (fm_network m) [Out (length (if given then [] else [g])) Rxns]] end) []).
  { apply start_inv; unfold src; destruct given; try reflexivity.
    - apply wired_nil.
    - apply (wired_snoc false [] g); [apply wired_nil|constructor].
    - exists g. split; [reflexivity|exact Logic.I]. }
  fold base. assert (E : length (if given then [] else [g]) = if given then 0 else 1) by (case given; reflexivity). rewrite E in I |- *.
  destruct (fm_minimize m); [|exact I]. unfold potentials. destruct (fm_open m) as [e|]; [|exact I]. destruct (fm_chempots m) as [mus|]; [|exact I].
  exact (loop_inv _ e mus _ [] I).
Qed.
End Flow.

Section Final.
Variable reduced : nat -> nat.
Variable elements : nat -> list nat.
Variable elem_formula : nat -> nat.
Variable arrange : list nat -> list nat.

Theorem flow_wired m precursors targets given : wired given (flow_make reduced elements elem_formula arrange m precursors targets given).
Proof. exact (i_wired _ _ _ _ _ _ (make_inv reduced elements elem_formula arrange m given precursors targets)). Qed.

Theorem flow_sources m precursors targets (given : bool) :
  Forall (fun s => s = if given then Given else Out 0 Entries) (entry_sources (flow_make reduced elements elem_formula arrange m precursors targets given)).
Proof. exact (i_sources _ _ _ _ _ _ (make_inv reduced elements elem_formula arrange m given precursors targets)). Qed.

Lemma F2_map {A B} (P : A -> B -> Prop) f l : (forall x, P x (f x)) -> Forall2 P l (map f l).
Proof. intros H. induction l; constructor; auto. Qed.

(* The enumerators of the base network, in words. *)
Theorem flow_networks m precursors targets given : fm_minimize m = true ->
  exists base rest, networks (flow_make reduced elements elem_formula arrange m precursors targets given) = (fm_network m, [Some base]) :: rest
  /\ (In (MinGibbs (fm_minimize_kw m)) base /\ (fm_basic m = true -> In (Basic (fm_basic_kw m)) base
        /\ forall e, fm_open m = Some e -> In (BasicOpen [elem_formula e] (fm_basic_kw m)) base))
  /\ Forall2 (fun p n => network_under (fm_network m) (fst n) p /\ snd n = [Some base; Some [MinGrand (fst p) (snd p) (fm_minimize_kw m)]]) (potentials m) rest.
Proof.
  intros M. pose proof (i_networks _ _ _ _ _ _ (make_inv reduced elements elem_formula arrange m given precursors targets)) as N. rewrite M in N.
  exists (base_enumerators elem_formula m). eexists. split; [exact N|]. split.
  - unfold base_enumerators. rewrite M. split; [apply in_or_app; right; left; reflexivity|]. intros ->. split; [left; reflexivity|].
    intros e ->. right. left. reflexivity.
  - apply F2_map. intros p. split; [|reflexivity]. repeat split.
Qed.

Theorem flow_solvers m precursors targets given : fm_minimize m = true ->
  match fm_solver m with
  | None => solvers (flow_make reduced elements elem_formula arrange m precursors targets given) = []
  | Some sm => exists rest, solvers (flow_make reduced elements elem_formula arrange m precursors targets given) = (sm, Some (fm_network m), Some (fm_network m)) :: rest
      /\ Forall2 (fun p s => solver_under sm (fst (fst s)) p /\ exists mk, network_under (fm_network m) mk p /\ snd (fst s) = Some mk /\ snd s = Some mk) (potentials m) rest
  end.
Proof.
  intros M. pose proof (i_solvers _ _ _ _ _ _ (make_inv reduced elements elem_formula arrange m given precursors targets)) as N. rewrite M in N.
  destruct (fm_solver m) as [sm|]; [|exact N]. eexists. split; [exact N|]. apply F2_map. intros p. split; [repeat split|].
  exists (network_at (fm_network m) (fst p) (snd p)). repeat split.
Qed.

Theorem flow_formulas m precursors targets : (forall l x, In x (arrange l) <-> In x l) ->
  exists mk chemsys, nth_error (flow_make reduced elements elem_formula arrange m precursors targets false) 0 = Some (GetEntries mk chemsys)
  /\ (forall f, In f (em_formulas mk) <-> In f (em_formulas (fm_entry m)) \/ exists g, In g (precursors ++ targets) /\ f = reduced g)
  /\ (forall x, In x chemsys <-> exists g, In g (precursors ++ targets) /\ In x (elements (reduced g))).
Proof.
  intros A. unfold flow_make. set (mk := Build_entry_maker _). set (ch := arrange (flat_map _ _)). exists mk, ch. split.
  - assert (H : forall e l b en jobs j, nth_error jobs 0 = Some j -> nth_error (fold_left (at_chempot m en b e) l jobs) 0 = Some j).
    { clear. intros e l b en. induction l as [|mu l IH]; intros jobs j H; [exact H|]. cbn [fold_left]. apply IH. unfold at_chempot.
      destruct (fm_solver m); [apply nth_grow|]; apply nth_grow; exact H. }
    destruct (fm_minimize m), (fm_solver m); try reflexivity; destruct (fm_open m), (fm_chempots m); try reflexivity; apply H; reflexivity.
  - split.
    + intros f. unfold mk. cbn [em_formulas]. rewrite A, !in_app_iff, !in_map_iff. split.
      * intros [H|[(g & E & H)|(g & E & H)]]; [left; exact H|right; exists g..]; rewrite in_app_iff; auto.
      * intros [H|(g & H & E)]; [left; exact H|]. rewrite in_app_iff in H. destruct H as [H|H]; right; [left|right]; exists g; auto.
    + intros x. unfold ch. rewrite A, in_flat_map, <- map_app. split.
      * intros (f & H & E). apply in_map_iff in H. destruct H as (g & <- & H). exists g. auto.
      * intros (g & H & E). exists (reduced g). split; [apply in_map; exact H|exact E].
Qed.

(* With entries given the flow does not look at the precursors and targets. *)
Theorem flow_ignores m ps ts ps' ts' :
  flow_make reduced elements elem_formula arrange m ps ts true = flow_make reduced elements elem_formula arrange m ps' ts' true.
Proof. reflexivity. Qed.

Lemma sought_networks jobs : sought jobs = map (fun n => (nm_precursors (fst n), nm_targets (fst n))) (networks jobs).
Proof.
  unfold sought, networks. generalize jobs at 2. intros whole. induction jobs as [|j jobs IH]; [reflexivity|]. cbn [flat_map]. rewrite map_app, IH. destruct j; reflexivity.
Qed.

Theorem flow_sought m ps ts given : Forall (fun s => s = (nm_precursors (fm_network m), nm_targets (fm_network m))) (sought (flow_make reduced elements elem_formula arrange m ps ts given)).
Proof.
  rewrite sought_networks, (i_networks _ _ _ _ _ _ (make_inv reduced elements elem_formula arrange m given ps ts)). cbn [map]. constructor; [reflexivity|].
  rewrite map_map. apply Forall_forall. intros x Hx. apply in_map_iff in Hx. destruct Hx as (p & <- & _). reflexivity.
Qed.

Theorem flow_sought_set m ps ts given : nm_precursors (fm_network m) = Some (map reduced ps) -> nm_targets (fm_network m) = Some (map reduced ts) ->
  sought (flow_make reduced elements elem_formula arrange m ps ts given) <> []
  /\ Forall (fun s => s = (Some (map reduced ps), Some (map reduced ts))) (sought (flow_make reduced elements elem_formula arrange m ps ts given)).
Proof.
  intros H1 H2. rewrite <- H1, <- H2. split; [|apply flow_sought]. rewrite sought_networks, (i_networks _ _ _ _ _ _ (make_inv reduced elements elem_formula arrange m given ps ts)). discriminate.
Qed.
End Final.

Definition plain : network_maker := {| nm_precursors := None; nm_targets := None; nm_k := Some 10; nm_open := None; nm_chempot := 0%Q |}.
Definition oxide_flow (minimize : bool) : flow_maker := {| fm_entry := {| em_formulas := [] |}; fm_network := plain; fm_solver := Some {| sm_precursors := [1; 2]; sm_targets := [3]; sm_open := None; sm_chempot := 0%Q |};
  fm_open := Some 8; fm_chempots := Some [(-1)%Q; 0%Q]; fm_basic := true; fm_minimize := minimize; fm_basic_kw := 0; fm_minimize_kw := 0 |}.

Lemma ignored_witness : exists m, nm_k (fm_network m) = Some 10 /\ forall reduced elements elem_formula arrange ps ts given,
  sought (flow_make reduced elements elem_formula arrange m ps ts given) = repeat (None, None) 3.
Proof. exists (oxide_flow true). split; [reflexivity|]. intros. destruct given; reflexivity. Qed.

Lemma chempots_witness : exists m, length (potentials m) = 2 /\ forall reduced elements elem_formula arrange ps ts given,
  length (networks (flow_make reduced elements elem_formula arrange m ps ts given)) = 1.
Proof. exists (oxide_flow false). split; [reflexivity|]. intros. destruct given; reflexivity. Qed.
