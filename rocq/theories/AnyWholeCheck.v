(* A concrete run of the whole flow with every enumerator for closed systems. *)
From Coq Require Import Lqa.
From Verif Require Import Prelude NumQ SumQ ListFacts UtilsModel UtilsSpec ReactionModel ReactionSpec ReactionBaseProofs ReactionBalanceProofs ChemTable EnumModel EnumSpec EnumProofs EnumReactProofs EnumLinkModel EnumCheck RxnSetModel RxnSetSpec PathModel SolverModel SolverSpec SolverCheck NetModel ShortestPath FlowModel NetJobModel NetJobSpec
  YenModel YenSpec SolveJobModel SolveJobSpec SolveJobCheck LinModel LinSpec LinProofs LinBalanceProofs LinCheck PinvModel CapCheck ChainModel ChainSpec ChainCheck ChainFindSpec ChainFindCheck RunModel JoinModel JoinSpec JoinCheck WholeModel WholeCheck IntModel IntSpec IntCheck IntFlowSpec IntFlowCheck
  UtilsProofs MinModel MinSpec MinProofs MinJoinModel MinJoinSpec MinJoinProofs MinJoinCheck IntMinModel IntMinCheck AnyWholeModel AnyWholeSpec.
From Verif Require ParetoProofs RxnSetCheck NetJobCheck.
Open Scope list_scope.
Open Scope nat_scope.

(* The diagram knows its compositions; an interface has its ends, and what forms between them of the phases of the diagram. *)
Definition listed_phases (l : list (nat * Q)) : result (list nat) := match l with [] => Err ValueError | _ => Ok (map fst l) end.
Definition meeting (pd : list nat) (a b : nat) : list (list nat * list nat) :=
  flat_map (fun t => if inb (fst (fst t)) [a; b] && inb (snd (fst t)) [a; b] && inb (snd t) pd then [([fst (fst t); snd (fst t)], [snd t])] else []) [(0, 1, 3); (0, 2, 4); (3, 4, 5)].
Definition joined_interface (pd : list nat) (a b : nat) : result (list (list nat * list nat)) := Ok (([a], [a]) :: meeting pd a b ++ [([b], [b])]).

Definition both_enumerators : list any_enumerator := [Basic (open_enumerator 1); Minimize mn_minimizer].
Definition both_run (ub um : bool) (ps ts : list nat) (k max : nat) (find fi : bool) :=
  any_whole_flow joined level (entry_solve joined level) (entry_rank joined level) (fun k => k) listed_phases joined_interface (fun l => l) RxnSetCheck.arrange RxnSetCheck.argsort (fun l => l) RxnSetCheck.lifo_any RxnSetCheck.lifo_any
    (fun us => us) (fun us => seq 0 (length us)) 3 RxnSetCheck.lifo_any NetJobCheck.unit_cost (fun weight => search weight) same_amounts (exact_solve joined) (exact_rank joined) alike path_pinv lifo lifo (fun l => l) (fun l => l) (fun _ => 0%Q) 10
    (fun l => l) 10 10 10 10 0%Q ub um both_enumerators six (NetJobCheck.maker (Some ps) (Some ts) k) (smaker ps ts) max find fi.

Lemma joined_kinks pd a b ks kink : joined_interface pd a b = Ok ks -> In kink ks -> kink = ([a], [a]) \/ kink = ([b], [b])
  \/ exists x y z, In (x, y, z) [(0, 1, 3); (0, 2, 4); (3, 4, 5)] /\ In x [a; b] /\ In y [a; b] /\ In z pd /\ kink = ([x; y], [z]).
Proof.
  intros E I. unfold joined_interface in E. apply (f_equal (fun r => match r with Ok l => l | Err _ => [] end)) in E. cbv beta iota in E. subst ks. destruct I as [<-|I]; [left; reflexivity|]. apply in_app_iff in I as [I|[<-|[]]]; [|right; left; reflexivity]. right. right.
  unfold meeting in I. apply in_flat_map in I as (((x & y) & z) & Ht & I). cbn [fst snd] in I. destruct (inb x [a; b]) eqn:Ex; [|destruct I]. destruct (inb y [a; b]) eqn:Ey; [|destruct I]. destruct (inb z pd) eqn:Ez; [|destruct I]. destruct I as [<-|[]].
  exists x, y, z. split; [exact Ht|]. apply inb_iff in Ex, Ey, Ez. auto.
Qed.
Lemma joined_tidy pd a b ks kink : joined_interface pd a b = Ok ks -> In kink ks -> NoDup (fst kink) /\ NoDup (snd kink) /\ (disjoint (fst kink) (snd kink) \/ exists f, kink = ([f], [f])).
Proof.
  intros E I. destruct (joined_kinks pd a b ks kink E I) as [->|[->|(x & y & z & H & _ & _ & _ & ->)]]; cbn [fst snd].
  1, 2: split; [repeat constructor; intros []|split; [repeat constructor; intros []|right; eexists; reflexivity]].
  split; [|split; [repeat constructor; intros []|left]].
  - repeat (destruct H as [H|H]; [injection H as <- <- <-; repeat constructor; cbn; intuition discriminate|]). destruct H.
  - intros u H1 H2. repeat (destruct H as [H|H]; [injection H as <- <- <-; cbn in *; intuition (subst; discriminate)|]). destruct H.
Qed.
Notation jel := (fun i => ReactionModel.elems joined (e_comp (level i))).
Lemma listed_all e s : diagram_for listed_phases level (e :: s) = Ok (e :: s).
Proof. unfold diagram_for, listed_phases. cbn [map]. rewrite map_map. f_equal. exact (map_id (e :: s)). Qed.
(* Whatever the phases of the diagram are, the kinks name them. *)
Lemma joined_names c s : (forall e, In e c -> In e s) -> c <> [] -> (forall e, In e s -> red joined (e_comp (level e)) = e) ->
  exists pd, diagram_for listed_phases level s = Ok pd /\ forall a b, In a c -> In b c -> exists ks, kinks_for joined_interface level pd a b = Ok ks
  /\ forall kink : list nat * list nat, In kink ks -> fst kink <> [] /\ snd kink <> [] /\ forall f, In f (fst kink) \/ In f (snd kink) -> exists e, In e s /\ red joined (e_comp (level e)) = f.
Proof.
  intros Hc Nc Hr. exists s. split.
  - destruct s as [|e s]; [destruct c as [|e c]; [congruence|destruct (Hc e (or_introl eq_refl))]|]. exact (listed_all e s).
  - intros a b Ia Ib. eexists. split; [reflexivity|]. intros kink Ik.
    assert (Self : forall e, In e s -> exists e', In e' s /\ red joined (e_comp (level e')) = e) by (intros e Ie; exists e; split; [exact Ie|apply Hr; exact Ie]).
    destruct (joined_kinks s a b _ kink eq_refl Ik) as [->|[->|(x & y & z & _ & Hx & Hy & Hz & ->)]]; cbn [fst snd]; (split; [discriminate|split; [discriminate|]]).
    + intros f [[<-|[]]|[<-|[]]]; apply Self; apply Hc; exact Ia.
    + intros f [[<-|[]]|[<-|[]]]; apply Self; apply Hc; exact Ib.
    + assert (Two : forall u, In u [a; b] -> In u s) by (intros u [<-|[<-|[]]]; apply Hc; assumption).
      intros f [[<-|[<-|[]]]|[<-|[]]]; apply Self; [apply Two; exact Hx|apply Two; exact Hy|exact Hz].
Qed.
Lemma six_red e : In e six -> red joined (e_comp (level e)) = e.
Proof. intros H. unfold six in H. cbn in H. intuition (subst; reflexivity). Qed.
Lemma joined_good : good_interfaces jel (fun i => red joined (e_comp (level i))) (diagram_for listed_phases level) (kinks_for joined_interface level) six [].
Proof.
  intros c k s (Hs & Hl & _) (_ & Hk) Hw. apply joined_names.
  - intros e Ie. apply (picks_members _ _ _ Hw). split; [exact (subseq_In _ _ _ Hs Ie)|]. intros x Hx. apply Hk. left. exists e. split; assumption.
  - destruct c; [cbn in Hl; lia|discriminate].
  - intros e Ie. apply six_red. apply (picks_members _ _ _ Hw). exact Ie.
Qed.
Lemma joined_work (way : nat -> Prop) : (forall u, way u -> In u six) -> interfaces_work joined level listed_phases joined_interface way.
Proof.
  intros Hw c s ((_ & Hl) & Hc & _ & Hs). apply joined_names.
  - intros e Ie. apply Hs. split; [apply Hc; exact Ie|]. intros el He. exists e. split; assumption.
  - destruct c; [cbn in Hl; lia|discriminate].
  - intros e Ie. apply six_red. apply Hw. apply Hs. exact Ie.
Qed.
Lemma joined_way (walked : srxn -> Prop) u : (forall x, walked x -> forall v, ~ (amount x v == 0)%Q -> In v six) -> on_the_way joined level six [5] walked u -> In u six.
Proof. intros H [(x & Hx & Nx)|[[<-|[]]|[H6 _]]]; [exact (H x Hx u Nx)|unfold six; cbn; auto 7|exact H6]. Qed.
Lemma joined_meet (walked : srxn -> Prop) : (exists x, walked x /\ ~ (amount x 3 == 0)%Q) -> (exists x, walked x /\ ~ (amount x 4 == 0)%Q) ->
  (forall u, on_the_way joined level six [5] walked u -> In u six) -> sure_to_meet joined level listed_phases joined_interface (on_the_way joined level six [5] walked) [5] [3; 4] [5].
Proof.
  intros H3 H4 Hin. assert (M3 : on_the_way joined level six [5] walked 3) by (left; exact H3). assert (M4 : on_the_way joined level six [5] walked 4) by (left; exact H4). assert (M5 : on_the_way joined level six [5] walked 5) by (right; left; left; reflexivity).
  split; [intros u [<-|[<-|[<-|[]]]]; assumption|]. split; [|exists 5; split; left; reflexivity].
  exists [3; 4], ([3; 4], [5]). split; [apply few_two; discriminate|]. split; [intros u [<-|[<-|[]]]; assumption|]. split.
  - exists [0; 1; 2]. split; [repeat constructor; cbn; intuition discriminate|]. split; [cbn; lia|]. intros el. split.
    + intros [<-|[<-|[<-|[]]]]; [exists 3|exists 3|exists 4]; split; cbn; auto.
    + intros (u & [<-|[<-|[]]] & H); cbn in *; tauto.
  - intros s (_ & _ & Hn & Hs).
    assert (All : forall u, on_the_way joined level six [5] walked u -> In u s).
    { intros u Hu. apply Hs. split; [exact Hu|]. pose proof (Hin u Hu) as I6. unfold six in I6. intros el He. cbn in I6. destruct I6 as [<-|[<-|[<-|[<-|[<-|[<-|[]]]]]]]; cbn in He; repeat (destruct He as [<-|He]; [solve [exists 3; split; cbn; auto|exists 4; split; cbn; auto]|]); destruct He. }
    assert (S : forall e, In e six -> In e s -> only_stable_phase joined level (fun u => e_energy (level u) / natoms joined (e_comp (level u)))%Q s e e).
    { intros e I6 Ie. split; [apply six_red; exact I6|]. split; [exact Ie|]. intros x Ix Ef. left. assert (Ix6 : In x six) by (apply Hin; apply Hs; exact Ix). unfold formula in Ef. rewrite (six_red x Ix6) in Ef. exact Ef. }
    cbn [fst snd]. split; [|split].
    + repeat (apply Forall2_cons; [apply S; [unfold six; cbn; auto 7|apply All; assumption]|]). apply Forall2_nil.
    + repeat (apply Forall2_cons; [apply S; [unfold six; cbn; auto 7|apply All; assumption]|]). apply Forall2_nil.
    + exists s. split.
      * pose proof (All 3 M3) as I3. destruct s as [|e s]; [destruct I3|]. exact (listed_all e s).
      * intros a b He. eexists. split; [reflexivity|]. right. apply in_app_iff. left. unfold meeting. apply in_flat_map. exists (3, 4, 5). split; [cbn; auto|]. cbn [fst snd].
        assert (G : (a = 3 /\ b = 4) \/ (a = 4 /\ b = 3)) by (destruct He as [[E _]|[E|E]]; [discriminate|injection E as <- <-; auto|injection E as <- <-; auto]).
        assert (I5 : inb 5 s = true) by (apply inb_iff; apply All; exact M5). rewrite I5. destruct G as [[-> ->]|[-> ->]]; left; reflexivity.
Qed.
Lemma joined_any_reacts i : In i ([0; 1; 2] ++ [5]) -> exists r p, any_reacts joined level (diagram_for listed_phases level) (kinks_for joined_interface level) (fun u => e_energy (level u) / natoms joined (e_comp (level u)))%Q six both_enumerators r p /\ In i (r ++ p).
Proof.
  intros H. destruct (joined_reacts i H) as (r & p & ((en & [<-|[]] & L) & Dt) & I). exists r, p. split; [|exact I]. exists (Basic (open_enumerator 1)). split; [left; reflexivity|]. split; [exact L|exact Dt].
Qed.
Definition both_outs (a : any_enumerator) : result (list object) :=
  any_enumerated joined level (entry_solve joined level) (entry_rank joined level) (fun k => k) (diagram_for listed_phases level) (kinks_for joined_interface level) (fun l => l) (fun u => e_energy (level u) / natoms joined (e_comp (level u)))%Q RxnSetCheck.lifo_any RxnSetCheck.lifo_any six a.
Definition one_of_each (l : list sentry) : bool := forallb (fun a => forallb (fun b => negb (uid a =? uid b) || ((comp a =? comp b) && (form a =? form b))) l) l.
Lemma one_of_each_iff l : one_of_each l = true -> forall a b, In a l -> In b l -> uid a = uid b -> a = b.
Proof.
  intros T a b Ia Ib E. unfold one_of_each in T. rewrite forallb_forall in T. specialize (T a Ia). rewrite forallb_forall in T. specialize (T b Ib). rewrite E, Nat.eqb_refl in T. cbn [negb orb] in T. apply andb_true_iff in T as [T1 T2]. apply Nat.eqb_eq in T1, T2.
  destruct a, b. cbn in *. congruence.
Qed.
Lemma joined_any_sharp : forall outs, Forall2 (fun a xs => both_outs a = Ok xs) both_enumerators outs -> sharp (map (set_rxn joined) (concat outs)).
Proof.
  intros outs F. assert (D : exists xs ys, both_outs (Basic (open_enumerator 1)) = Ok xs /\ both_outs (Minimize mn_minimizer) = Ok ys /\ told_or_multiple (map (set_rxn joined) (xs ++ ys)) = true
    /\ one_of_each (flat_map x_entries (map (set_rxn joined) (xs ++ ys))) = true /\ Forall plain (map (set_rxn joined) (xs ++ ys))).
  { do 2 eexists. split; [vm_compute; reflexivity|]. split; [vm_compute; reflexivity|]. split; [vm_compute; reflexivity|]. split; [vm_compute; reflexivity|]. cbn [app map]. repeat (apply Forall_cons; [plain_rxn|]). apply Forall_nil. }
  destruct D as (xs & ys & E1 & E2 & T & U & P). inversion F as [|a x la l Ex Fl]; subst. inversion Fl as [|a' x' la' l' Ey Fl']; subst. inversion Fl'; subst. rewrite E1 in Ex. rewrite E2 in Ey. injection Ex as <-. injection Ey as <-.
  cbn [concat]. rewrite app_nil_r. apply told_or_multiple_sharp; [apply Forall_forall; exact P|apply one_of_each_iff; exact U|exact T].
Qed.
Lemma both_found : rows six (both_run false true [0; 1; 2] [5] 4 3 true true) = Ok ([-2; -1; -1; 0; 0; 1]%Q,
  [(Some [1; 1; 1]%Q, [[-1; -1; 0; 1; 0; 0]; [-1; 0; -1; 0; 1; 0]; [0; 0; 0; -1; -1; 1]]%Q);
   (Some [2; 1; 1]%Q, [[-1; 0; -1; 0; 1; 0]; [0; -1; 1; 1; -1; 0]; [0; 0; 0; -1; -1; 1]]%Q);
   (Some [2; 1; 1]%Q, [[-1; -1; 0; 1; 0; 0]; [0; 1; -1; -1; 1; 0]; [0; 0; 0; -1; -1; 1]]%Q);
   (Some [2; 1; 2]%Q, [[-1; -1; 0; 1; 0; 0]; [0; -1; 1; 0; -2; 1]; [0; 1; -1; -1; 1; 0]]%Q);
   (Some [1; 2; 2]%Q, [[0; 1; -1; -2; 0; 1]; [-1; 0; -1; 0; 1; 0]; [0; -1; 1; 1; -1; 0]]%Q);
   (Some [2; 1]%Q, [[-1; 0; -1; 0; 1; 0]; [0; -1; 1; 0; -2; 1]]%Q);
   (Some [2; 1]%Q, [[-1; -1; 0; 1; 0; 0]; [0; 1; -1; -2; 0; 1]]%Q)]).
Proof. vm_compute. reflexivity. Qed.
Lemma both_without : exists net0 paths, both_run false false [0; 1; 2] [5] 4 3 true true = Ok (net0, paths) /\ length paths = 4
  /\ forall p r, In p paths -> In r (p_rxns p) -> ~ ((turnover r 3 < 0)%Q /\ (turnover r 4 < 0)%Q).
Proof.
  assert (D : exists np, both_run false false [0; 1; 2] [5] 4 3 true true = Ok np /\ length (snd np) = 4
    /\ forallb (fun p => forallb (fun r => negb (Qlt_bool (turnover r 3) 0 && Qlt_bool (turnover r 4) 0)) (p_rxns p)) (snd np) = true).
  { eexists. split; [vm_compute; reflexivity|]. split; vm_compute; reflexivity. }
  destruct D as ((net0 & paths) & E & L & F). exists net0, paths. split; [exact E|]. split; [exact L|]. intros p r Ip Ir (H3 & H4). rewrite forallb_forall in F. specialize (F p Ip). rewrite forallb_forall in F. specialize (F r Ir).
  apply ParetoProofs.Qlt_bool_iff in H3, H4. rewrite H3, H4 in F. discriminate F.
Qed.
