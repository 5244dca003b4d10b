(* Concrete runs of the search for reactions between intermediates with both options. *)
From Coq Require Import Lqa.
From Verif Require Import Prelude NumQ SumQ UtilsModel UtilsSpec ReactionModel ReactionSpec EnumModel EnumSpec EnumLinkModel EnumCheck RxnSetModel RxnSetSpec LinModel LinSpec LinProofs LinCheck SolveJobModel SolveJobSpec ChainCheck MinSpec JoinModel JoinSpec JoinCheck
  MinJoinModel MinJoinSpec MinJoinCheck IntModel IntSpec CoefProofs IntProofs IntCheck ChainSpec ChainFindProofs IntMinModel IntMinSpec.
From Verif Require RxnSetCheck ReactionBaseProofs NetJobProofs.
Open Scope list_scope.
Open Scope nat_scope.

Definition options_run (ub um : bool) (cutoff : Q) :=
  find_with_options mno (exact_solve mno) (exact_rank mno) (fun k => k) free_build mn_kinks (fun l => l) RxnSetCheck.arrange RxnSetCheck.argsort (fun l => l) RxnSetCheck.lifo_any RxnSetCheck.lifo_any (fun l => l) 10 10 10 10 cutoff ub um oxides [split_up] comproportion.

Lemma oxide_mids i : intermediate mno oxides [split_up] comproportion i -> i < 4.
Proof.
  intros [(r & e & k & [<-|[]] & Ie & <-)|[(e & k & Ie & _ & <-)|(e & el & Ee & _)]].
  - cbn in Ie. repeat (destruct Ie as [E|Ie]; [injection E as <- <-; cbn; lia|]). destruct Ie.
  - cbn in Ie. repeat (destruct Ie as [E|Ie]; [injection E as <- <-; cbn; lia|]). destruct Ie.
  - apply nth_error_Some_lt in Ee || (assert (i < length oxides) by (apply nth_error_Some; rewrite Ee; discriminate); cbn in *; assumption).
Qed.
Lemma oxide_formula i : i < 4 -> formula_at mno oxides i = i.
Proof. intros H. destruct i as [|[|[|[|i]]]]; try reflexivity. lia. Qed.
Lemma oxide_occurs i el : i < 4 -> (occurs mno oxides i el <-> In el (ReactionModel.elems mno i)).
Proof.
  intros H. unfold occurs. destruct i as [|[|[|[|i]]]]; try lia; (split; [intros (e & [= <-] & I); exact I|intros I; eexists; split; [reflexivity|exact I]]).
Qed.
Lemma oxide_any_elem j el : j < 4 -> In el (ReactionModel.elems mno j) -> el = 0 \/ el = 1.
Proof. intros H I. destruct j as [|[|[|[|j]]]]; try lia; cbn in I; intuition. Qed.

Lemma oxide_kinks : kinks_make_sense mno oxides [split_up] comproportion free_build mn_kinks.
Proof.
  intros c s ((_ & _) & Mc & _ & Hs). exists tt. split; [reflexivity|]. intros a b Ia Ib. eexists. split; [reflexivity|]. intros kink I.
  assert (Self : forall e, In e c -> exists e', In e' s /\ formula_at mno oxides e' = e).
  { intros e Ie. exists e. split; [|apply oxide_formula, oxide_mids, Mc; exact Ie]. apply Hs. split; [apply Mc; exact Ie|]. intros el Hel. exists e. split; assumption. }
  assert (Sys : forall e, In e c -> e = 1 \/ e = 3 -> forall f, f < 4 -> exists e', In e' s /\ formula_at mno oxides e' = f).
  { intros e Ie He f Lf. exists f. split; [|apply oxide_formula; exact Lf]. apply Hs. split; [apply oxide_mid; exact Lf|]. intros el Hel. exists e. split; [exact Ie|]. apply oxide_occurs in Hel; [|exact Lf]. apply oxide_occurs; [lia|].
    destruct (oxide_any_elem f el Lf Hel) as [->| ->]; destruct He as [->| ->]; cbn; auto. }
  assert (Two : forall x, In x [a; b] -> In x c) by (intros x [<-|[<-|[]]]; assumption).
  destruct (mn_kink_cases tt a b _ kink eq_refl I) as [->|[->|(_ & H13 & G)]]; cbn [fst snd].
  1, 2: split; [discriminate|split; [discriminate|]]; intros f [[<-|[]]|[<-|[]]]; apply Self; assumption.
  assert (S2 : forall f, f < 4 -> exists e', In e' s /\ formula_at mno oxides e' = f).
  { destruct H13 as [H|H]; [apply (Sys 1 (Two 1 H)); auto|apply (Sys 3 (Two 3 H)); auto]. }
  destruct G as [[-> _]|[[->| ->] _]]; cbn [fst snd]; (split; [discriminate|split; [discriminate|]]); intros f Hf; apply S2; cbn in Hf; lia.
Qed.
Lemma oxide_sure : sure_kink mno oxides [split_up] comproportion free_build mn_kinks [0; 3] [2].
Proof.
  split; [|exists 2; split; [left; reflexivity|]; exists (warm 2 (-4)), 3%Q; split; [right; right; left; reflexivity|split; reflexivity]].
  exists [0; 3], ([0; 3], [2]). split; [apply few_two; discriminate|]. split; [intros i I; apply oxide_mid; cbn in I; lia|]. split.
  - destruct oxide_systems as (els & N & L & H). exists els. split; [exact N|]. split; [exact L|]. intros el. rewrite H. unfold occurs. firstorder.
  - intros s (_ & _ & _ & Hs). assert (S : forall e, e < 4 -> most_stable_only mno oxides s e e).
    { intros e He. split; [apply oxide_formula; exact He|]. split.
      - apply Hs. split; [apply oxide_mid; exact He|]. intros el Hel. exists 3. split; [right; left; reflexivity|]. apply oxide_occurs in Hel; [|exact He]. apply oxide_occurs; [lia|]. destruct (oxide_any_elem e el He Hel) as [->| ->]; cbn; auto.
      - intros x Ix Fx. left. rewrite oxide_formula in Fx; [exact Fx|]. apply oxide_mids, Hs. exact Ix. }
    split; [repeat (apply Forall2_cons; [apply S; lia|]); apply Forall2_nil|]. split; [apply Forall2_cons; [apply S; lia|apply Forall2_nil]|]. exists tt. split; [reflexivity|].
    intros a b [[E _]|[E|E]]; [discriminate|injection E as <- <-|injection E as <- <-]; (eexists; split; [reflexivity|right; left; reflexivity]).
Qed.
(* Reactions of which any two are different in kind, or one is exactly a multiple of the other. *)
Definition exact_multiple (r r' : srxn) : bool :=
  let us := map uid (x_entries r ++ x_entries r') in
  existsb (fun u => let k := (amount r u / amount r' u)%Q in Qlt_bool 0 k && forallb (fun w => Qeq_bool (amount r w) (k * amount r' w)) us) us.
Definition told_or_multiple (rs : list srxn) : bool := forallb (fun r => forallb (fun r' => lacks r r' || lacks r' r || opposed r r' || exact_multiple r' r) rs) rs.
Lemma no_amount x u : ~ In u (map uid (x_entries x)) -> (amount x u == 0)%Q.
Proof.
  intros H. unfold amount. apply sumQ_all_zero. intros [e c] I. cbn [fst snd]. destruct (Nat.eqb_spec (uid e) u) as [E|_]; [|reflexivity]. contradiction H. rewrite <- E. apply in_map. exact (in_combine_l _ _ _ _ I).
Qed.
Lemma exact_multiples r r' : plain r -> plain r' -> (forall a b, In a (x_entries r ++ x_entries r') -> In b (x_entries r ++ x_entries r') -> uid a = uid b -> a = b) -> exact_multiple r r' = true -> multiples r' r.
Proof.
  intros P P' Hu E. apply existsb_exists in E as (u & _ & E). apply andb_true_iff in E as [K E]. apply ReactionBaseProofs.Qlt_bool_iff' in K. apply (scaled_multiples r r' _ P P' Hu K). intros w. rewrite forallb_forall in E.
  destruct (in_dec Nat.eq_dec w (map uid (x_entries r ++ x_entries r'))) as [I|I]; [apply Qeq_bool_iff, E; exact I|]. rewrite map_app, in_app_iff in I. rewrite (no_amount r w), (no_amount r' w) by tauto. ring.
Qed.
Lemma told_or_multiple_sharp rs : (forall r, In r rs -> plain r) -> (forall a b, In a (flat_map x_entries rs) -> In b (flat_map x_entries rs) -> uid a = uid b -> a = b) -> told_or_multiple rs = true -> sharp rs.
Proof.
  intros P U T r r' I I' Nr. unfold told_or_multiple in T. rewrite forallb_forall in T. pose proof (T r I) as Tr. pose proof (T r' I') as Tr'. rewrite forallb_forall in Tr, Tr'. specialize (Tr r' I'). specialize (Tr' r I). rewrite !orb_true_iff in Tr, Tr'.
  assert (G : forall x y, In x rs -> In y rs -> exact_multiple y x = true -> multiples x y).
  { intros x y Ix Iy H. apply (exact_multiples y x); [apply P; exact Iy|apply P; exact Ix| |exact H]. intros a b Ia Ib. apply U; apply in_flat_map; [apply in_app_iff in Ia as [Ia|Ia]|apply in_app_iff in Ib as [Ib|Ib]]; first [exists y; split; assumption|exists x; split; assumption]. }
  destruct Tr as [H|H]; [|apply G; assumption]. destruct Tr' as [H'|H']; [|apply NetJobProofs.multiples_sym; apply G; assumption].
  assert (S : sharp [r; r']).
  { apply sharp_told; [intros x [<-|[<-|[]]]; apply P; assumption|]. intros x y [<-|[<-|[]]] [<-|[<-|[]]]; try (left; reflexivity); right; [destruct H as [[H|H]|H]|destruct H' as [[H'|H']|H']]; auto. }
  apply S; [left; reflexivity|right; left; reflexivity|exact Nr].
Qed.
Definition both_basics mids ts := basic_objects mno (exact_solve mno) (exact_rank mno) (fun k => k) RxnSetCheck.lifo_any 10 10 oxides mids ts.
Definition both_minis mids ts := min_objects mno (exact_solve mno) (exact_rank mno) free_build mn_kinks (fun l => l) RxnSetCheck.lifo_any 10 10 oxides mids ts.
Lemma options_sharp (ub um : bool) : forall targets mids xb xm, targets_of comproportion = Ok targets -> intermediates mno (fun l => l) oxides [split_up] targets = Ok mids ->
  (if ub then both_basics mids (map e_id targets) else Ok []) = Ok xb -> (if um then both_minis mids (map e_id targets) else Ok []) = Ok xm -> sharp (map (set_rxn mno) (xb ++ xm)).
Proof.
  intros targets mids xb xm Et Em Eb Ex. vm_compute in Et. injection Et as <-. vm_compute in Em. injection Em as <-. cbn [map e_id] in Eb, Ex.
  assert (Db : exists xs, both_basics [1; 3; 2; 0] [2] = Ok xs /\ exists ys, both_minis [1; 3; 2; 0] [2] = Ok ys /\ told_or_multiple (map (set_rxn mno) (xs ++ ys)) = true /\ Forall plain (map (set_rxn mno) (xs ++ ys))
    /\ forall a b, In a (flat_map x_entries (map (set_rxn mno) (xs ++ ys))) -> In b (flat_map x_entries (map (set_rxn mno) (xs ++ ys))) -> uid a = uid b -> a = b).
  { eexists. split; [vm_compute; reflexivity|]. eexists. split; [vm_compute; reflexivity|]. split; [vm_compute; reflexivity|]. split; [cbn [app map]; repeat (apply Forall_cons; [plain_rxn|]); apply Forall_nil|].
    intros a b Ia Ib. vm_compute in Ia, Ib. repeat (destruct Ia as [<-|Ia]; [repeat (destruct Ib as [<-|Ib]; [cbn; intros E; first [reflexivity|discriminate]|]); destruct Ib|]). destruct Ia. }
  destruct Db as (xs & Exs & ys & Eys & T & Pl & U). rewrite Exs in Eb. rewrite Eys in Ex.
  assert (Sh : sharp (map (set_rxn mno) (xs ++ ys))) by (apply told_or_multiple_sharp; [apply Forall_forall; exact Pl|exact U|exact T]).
  assert (Ib : incl xb xs) by (destruct ub; injection Eb as <-; [apply incl_refl|intros x []]). assert (Im : incl xm ys) by (destruct um; injection Ex as <-; [apply incl_refl|intros x []]).
  intros x y Ix Iy. apply Sh; [revert Ix|revert Iy]; apply incl_map; intros z Iz; apply in_app_iff in Iz as [Iz|Iz]; apply in_app_iff; auto.
Qed.
Definition turnovers (ys : list rxn) := map (fun r => map (fun i => Qred (turnover r i)) [0; 1; 2; 3]) ys.
Lemma options_runs : (exists ys, options_run false true 0 = Ok ys /\ turnovers ys = [[-1 # 3; -1 # 3; 1; 0]; [-1 # 2; 0; 1; -1 # 2]]%Q)
  /\ (exists ys, options_run true true 0 = Ok ys /\ turnovers ys = [[-1 # 3; -1 # 3; 1; 0]; [-1 # 2; 0; 1; -1 # 2]]%Q)
  /\ exists ys, options_run false false 0 = Ok ys /\ turnovers ys = [].
Proof.
  split; [eexists; split; [vm_compute; reflexivity|]; vm_compute; reflexivity|]. split; [eexists; split; [vm_compute; reflexivity|]; vm_compute; reflexivity|]. eexists; split; [vm_compute; reflexivity|]; vm_compute; reflexivity.
Qed.
