(* Concrete flows with a minimising enumerator. *)
From Coq Require Import Lqa.
From Verif Require Import Prelude NumQ SumQ ListFacts UtilsModel UtilsSpec UtilsProofs ReactionModel ReactionSpec ReactionBalanceProofs ChemTable EnumModel EnumSpec EnumProofs EnumReactProofs EnumLinkModel EnumCheck RxnSetModel RxnSetSpec RxnSetCheck LinModel LinSpec LinProofs LinBalanceProofs LinCheck
  NetModel YenModel FlowModel NetJobModel NetJobCheck ShortestPath RunModel ChainCheck EntrySetModel EntrySetSpec MinModel MinSpec MinProofs JoinModel JoinSpec JoinCheck MinJoinModel MinJoinSpec MinJoinProofs.
Open Scope list_scope.
Open Scope nat_scope.

Definition mn_minimizer : minimizer := {| mi_options := mn_options 1; mi_precursors := []; mi_targets := []; mi_duplicates := false |}.
Definition free_build (s : list nat) : result unit := Ok tt.
(* The ends, and what forms between them. *)
Definition mn_kinks (pd : unit) (a b : nat) : result (list (list nat * list nat)) :=
  Ok (([a], [a]) :: (if inb 0 [a; b] && inb 1 [a; b] then [([0; 1], [2])] else if inb 0 [a; b] && inb 3 [a; b] then [([0; 3], [2]); ([0; 3], [1])] else []) ++ [([b], [b])]).
Definition any_outs (C : chem) kinks (a : any_enumerator) (entries : list nat) : result (list object) :=
  any_enumerated C plain_entry (entry_solve C plain_entry) (entry_rank C plain_entry) (fun k => k) free_build kinks (fun l => l) (fun _ => 0%Q) lifo_any lifo_any entries a.
Definition any_run (C : chem) kinks (ens : list any_enumerator) (entries : list nat) (mk : network_maker) :=
  any_flow C plain_entry (entry_solve C plain_entry) (entry_rank C plain_entry) (fun k => k) free_build kinks (fun l => l) (fun _ => 0%Q) arrange argsort (fun l => l) lifo_any lifo_any 3 lifo_any unit_cost (fun weight => search weight) ens entries mk.
Notation mn_els := (fun i => ReactionModel.elems mno (e_comp (plain_entry i))).

Lemma mn_kink_cases pd a b ks kink : mn_kinks pd a b = Ok ks -> In kink ks -> kink = ([a], [a]) \/ kink = ([b], [b])
  \/ (In 0 [a; b] /\ (In 1 [a; b] \/ In 3 [a; b]) /\ (kink = ([0; 1], [2]) /\ In 1 [a; b] \/ (kink = ([0; 3], [2]) \/ kink = ([0; 3], [1])) /\ In 3 [a; b])).
Proof.
  intros E I. unfold mn_kinks in E. apply (f_equal (fun r => match r with Ok l => l | Err _ => [] end)) in E. cbv beta iota in E. subst ks. destruct I as [<-|I]; [left; reflexivity|]. apply in_app_iff in I as [I|[<-|[]]]; [|right; left; reflexivity]. right. right.
  destruct (inb 0 [a; b]) eqn:E0; [|destruct I]. apply inb_iff in E0. cbn [andb] in I. destruct (inb 1 [a; b]) eqn:E1.
  - apply inb_iff in E1. destruct I as [<-|[]]. auto.
  - destruct (inb 3 [a; b]) eqn:E3; [|destruct I]. apply inb_iff in E3. destruct I as [<-|[<-|[]]]; auto 7.
Qed.
Lemma mn_tidy : tidy_kinks mn_kinks.
Proof.
  intros pd a b ks kink E I. destruct (mn_kink_cases pd a b ks kink E I) as [->|[->|(_ & _ & [[-> _]|[[->| ->] _]])]]; cbn [fst snd].
  1, 2: split; [repeat constructor; intros []|split; [repeat constructor; intros []|right; eexists; reflexivity]].
  all: split; [repeat constructor; cbn; intuition discriminate|split; [repeat constructor; intros []|left; intros x H1 H2; cbn in *; intuition (subst; discriminate)]].
Qed.
Lemma mn_interfaces : good_interfaces mn_els (formula mno plain_entry) free_build mn_kinks four [].
Proof.
  intros c k s (Hs & _ & _) (_ & Hk) Hw. exists tt. split; [reflexivity|]. intros a b Ia Ib. eexists. split; [reflexivity|]. intros kink I.
  assert (Mem : forall e, In e four -> (forall x, In x (mn_els e) -> In x k) -> In e s) by (intros e I1 I2; apply (picks_members _ _ _ Hw); split; assumption).
  assert (Own : forall e, In e c -> In e s).
  { intros e Ie. apply Mem; [exact (subseq_In _ _ _ Hs Ie)|]. intros x Hx. apply Hk. left. exists e. split; assumption. }
  assert (Sys : forall e, In e c -> e = 1 \/ e = 3 -> forall f, In f four -> exists e', In e' s /\ formula mno plain_entry e' = f).
  { intros e Ie He f If. exists f. assert (K0 : In 0 k) by (apply Hk; left; exists e; split; [exact Ie|destruct He as [->| ->]; cbn; auto]). assert (K1 : In 1 k) by (apply Hk; left; exists e; split; [exact Ie|destruct He as [->| ->]; cbn; auto]).
    split; [|cbn in If; intuition (subst; reflexivity)]. apply Mem; [exact If|]. intros x Hx. cbn in If. destruct If as [<-|[<-|[<-|[<-|[]]]]]; cbn in Hx; intuition (subst; assumption). }
  assert (Self : forall e, In e c -> exists e', In e' s /\ formula mno plain_entry e' = e).
  { intros e Ie. exists e. split; [apply Own; exact Ie|]. pose proof (subseq_In _ _ _ Hs Ie) as If. cbn in If. intuition (subst; reflexivity). }
  assert (Two : forall x, In x [a; b] -> In x c) by (intros x [<-|[<-|[]]]; assumption).
  destruct (mn_kink_cases tt a b _ kink eq_refl I) as [->|[->|(_ & H13 & G)]]; cbn [fst snd].
  1, 2: split; [discriminate|split; [discriminate|]]; intros f [[<-|[]]|[<-|[]]]; apply Self; assumption.
  assert (S2 : forall f, In f four -> exists e', In e' s /\ formula mno plain_entry e' = f).
  { destruct H13 as [H|H]; [apply (Sys 1 (Two 1 H)); auto|apply (Sys 3 (Two 3 H)); auto]. }
  destruct G as [[-> _]|[[->| ->] _]]; cbn [fst snd]; (split; [discriminate|split; [discriminate|]]); intros f Hf; apply S2; cbn in *; intuition (subst; auto).
Qed.
Lemma mn_at_kink : surely_at_kink mno plain_entry free_build mn_kinks (fun _ => 0%Q) four mn_minimizer [0; 1] [2].
Proof.
  split; [|split; left; reflexivity]. exists [0; 1], four, tt, ([0; 1], [2]). split; [|split].
  - split; [split; [unfold four; within_list|split; [cbn; lia|intros e _ []]]|]. split; [split; [exact (mn_system 1)|split; left; reflexivity]|].
    exists [0; 1]. split; [|split; [|reflexivity]].
    + destruct (mn_system 1) as (k & (K1 & K2) & _). split; [repeat constructor; lia|]. intros x. cbn. split; [intros [<-|[<-|[]]]; left; exists 1; (split; [auto|cbn; auto])|intros [(e & [<-|[<-|[]]] & Hx)|[]]; cbn in Hx; tauto].
    + unfold four. repeat (apply picks_in; [intros x Hx; cbn in *; tauto|]). apply picks_nil.
  - intros a b He. assert (G : (a = 0 /\ b = 1) \/ (a = 1 /\ b = 0)) by (destruct He as [[E _]|[E|E]]; [discriminate|injection E as <- <-; auto|injection E as <- <-; auto]).
    destruct G as [[-> ->]|[-> ->]]; eexists; (split; [reflexivity|right; left; reflexivity]).
  - assert (S : forall e, In e four -> only_stable_phase mno plain_entry (fun _ => 0%Q) four e e).
    { intros e Ie. split; [cbn in Ie; intuition (subst; reflexivity)|]. split; [exact Ie|]. intros x Ix Ef. left. cbn in Ix, Ie. intuition (subst; try reflexivity; discriminate). }
    cbn [fst snd]. split; repeat (apply Forall2_cons; [apply S; cbn; auto|]); apply Forall2_nil.
Qed.
Lemma mn_any_reacts : any_reacts mno plain_entry free_build mn_kinks (fun _ => 0%Q) four [Minimize mn_minimizer] [0; 1] [2].
Proof. exists (Minimize mn_minimizer). split; [left; reflexivity|]. split; [exact mn_at_kink|exact mn_determined]. Qed.

Lemma outs_one C kinks entries a xs0 : any_outs C kinks a entries = Ok xs0 -> forall outs, Forall2 (fun a xs => any_outs C kinks a entries = Ok xs) [a] outs -> concat outs = xs0.
Proof. intros E outs F. inversion F as [|x y la lb H F']; subst. inversion F'; subst. cbn. rewrite app_nil_r. congruence. Qed.
Lemma mn_any_sharp : forall outs, Forall2 (fun a xs => any_outs mno mn_kinks a four = Ok xs) [Minimize mn_minimizer] outs -> sharp (map (set_rxn mno) (concat outs)).
Proof.
  intros outs F. assert (D : exists xs, any_outs mno mn_kinks (Minimize mn_minimizer) four = Ok xs /\ told (map (set_rxn mno) xs) = true /\ Forall plain (map (set_rxn mno) xs)).
  { eexists. split; [vm_compute; reflexivity|]. split; [vm_compute; reflexivity|]. repeat (apply Forall_cons; [plain_rxn|]). apply Forall_nil. }
  destruct D as (xs & E & T & P). rewrite (outs_one _ _ _ _ _ E outs F). apply told_sharp; [apply Forall_forall; exact P|exact T].
Qed.
Lemma mn_any_run : exists w rs ps, any_run mno mn_kinks [Minimize mn_minimizer] four (maker (Some [0; 1]) (Some [2]) 5) = Ok (w, rs, Some ps) /\ length rs = 3 /\ map steps_of ps = [[0]].
Proof. do 3 eexists. split; [vm_compute; reflexivity|]. split; reflexivity. Qed.
Lemma mn_both_run : exists w rs ps, any_run mno mn_kinks [Basic (open_enumerator 1); Minimize mn_minimizer] four (maker (Some [0; 1]) (Some [2]) 5) = Ok (w, rs, Some ps) /\ length rs = 8 /\ length ps = 5.
Proof. do 3 eexists. split; [vm_compute; reflexivity|]. split; reflexivity. Qed.

(* --- two branches: A + B -> AB, D + E -> DE, AB + DE -> ABDE --- *)
Definition branch_kinks (pd : unit) (a b : nat) : result (list (list nat * list nat)) :=
  Ok (([a], [a]) :: flat_map (fun t => if inb (fst (fst t)) [a; b] && inb (snd (fst t)) [a; b] then [([fst (fst t); snd (fst t)], [snd t])] else []) [(0, 1, 4); (2, 3, 5); (4, 5, 6)] ++ [([b], [b])]).
Lemma branch_at_kink a b c k s : In (a, b, c, k, s) [(0, 1, 4, [0; 1], [0; 1; 4]); (2, 3, 5, [2; 3], [2; 3; 5]); (4, 5, 6, [0; 1; 2; 3], seven)] ->
  any_reacts branching plain_entry free_build branch_kinks (fun _ => 0%Q) seven [Minimize mn_minimizer] [a; b] [c].
Proof.
  intros H. exists (Minimize mn_minimizer). split; [left; reflexivity|]. split.
  2:{ apply joins_only. repeat (destruct H as [H|H]; [injection H as <- <- <- <- <-; cbn; auto|]). destruct H. }
  split; [|split; left; reflexivity]. exists [a; b], s, tt, ([a; b], [c]).
  assert (Ch : chemsys_of (fun i => ReactionModel.elems branching (e_comp (plain_entry i))) [] [a; b] k).
  { repeat (destruct H as [H|H]; [injection H as <- <- <- <- <-|]); [| | |destruct H]; (split; [repeat constructor; lia|]); intros x; cbn; split.
    - intros [<-|[<-|[]]]; left; [exists 0|exists 1]; split; auto; cbn; auto.
    - intros [(e & [<-|[<-|[]]] & Hx)|[]]; cbn in Hx; tauto.
    - intros [<-|[<-|[]]]; left; [exists 2|exists 3]; split; auto; cbn; auto.
    - intros [(e & [<-|[<-|[]]] & Hx)|[]]; cbn in Hx; tauto.
    - intros [<-|[<-|[<-|[<-|[]]]]]; left; [exists 4|exists 4|exists 5|exists 5]; split; auto; cbn; auto.
    - intros [(e & [<-|[<-|[]]] & Hx)|[]]; cbn in Hx; tauto. }
  split; [|split].
  - split; [|split].
    + repeat (destruct H as [H|H]; [injection H as <- <- <- <- <-; unfold seven; split; [within_list|split; [cbn; lia|intros e _ []]]|]). destruct H.
    + split; [|split; left; reflexivity]. exists k. split; [exact Ch|]. split; [|intros f G; discriminate G]. repeat (destruct H as [H|H]; [injection H as <- <- <- <- <-; cbn; lia|]). destruct H.
    + exists k. split; [exact Ch|]. split; [|reflexivity]. assert (s = filter (fun e => EnumModel.subset (ReactionModel.elems branching (e_comp (plain_entry e))) k) seven) as ->; [|apply (within_filter (fun i => ReactionModel.elems branching (e_comp (plain_entry i))))].
      repeat (destruct H as [H|H]; [injection H as <- <- <- <- <-; reflexivity|]). destruct H.
  - intros x y He. assert (G : (x = a /\ y = b) \/ (x = b /\ y = a)) by (destruct He as [[E _]|[E|E]]; [discriminate|injection E as <- <-; auto|injection E as <- <-; auto]).
    eexists. split; [reflexivity|]. repeat (destruct H as [H|H]; [injection H as <- <- <- <- <-; destruct G as [[-> ->]|[-> ->]]; right; left; reflexivity|]). destruct H.
  - assert (S : forall e, In e seven -> In e s -> only_stable_phase branching plain_entry (fun _ => 0%Q) s e e).
    { intros e I7 Ie. split; [unfold seven in I7; cbn in I7; intuition (subst; reflexivity)|]. split; [exact Ie|]. intros x Ix Ef. left.
      assert (Ix7 : In x seven) by (repeat (destruct H as [H|H]; [injection H as <- <- <- <- <-; unfold seven; cbn in *; tauto|]); destruct H).
      assert (F : forall i, In i seven -> red branching (e_comp (plain_entry i)) = i) by (intros i Ii; unfold seven in Ii; cbn in Ii; intuition (subst; reflexivity)).
      rewrite (F x Ix7) in Ef. exact Ef. }
    cbn [fst snd]. split; repeat (apply Forall2_cons; [apply S; repeat (destruct H as [H|H]; [injection H as <- <- <- <- <-; unfold seven; cbn; auto 9|]); destruct H|]); apply Forall2_nil.
Qed.
Lemma branch_any_obtainable : obtainable (any_reacts branching plain_entry free_build branch_kinks (fun _ => 0%Q) seven [Minimize mn_minimizer]) four 6.
Proof.
  set (st := any_reacts _ _ _ _ _ _ _). assert (G : forall i, In i four -> obtainable st four i) by (intros i H; apply given_phase; exact H).
  apply (made_phase _ _ [4; 5] [6]); [apply (branch_at_kink 4 5 6 [0; 1; 2; 3] seven); cbn; auto| |left; reflexivity]. intros j [<-|[<-|[]]].
  - apply (made_phase _ _ [0; 1] [4]); [apply (branch_at_kink 0 1 4 [0; 1] [0; 1; 4]); cbn; auto| |left; reflexivity]. intros j H. apply G. cbn in *. tauto.
  - apply (made_phase _ _ [2; 3] [5]); [apply (branch_at_kink 2 3 5 [2; 3] [2; 3; 5]); cbn; auto| |left; reflexivity]. intros j H. apply G. cbn in *. tauto.
Qed.
Lemma branch_any_sharp : forall outs, Forall2 (fun a xs => any_outs branching branch_kinks a seven = Ok xs) [Minimize mn_minimizer] outs -> sharp (map (set_rxn branching) (concat outs)).
Proof.
  intros outs F. assert (D : exists xs, any_outs branching branch_kinks (Minimize mn_minimizer) seven = Ok xs /\ told (map (set_rxn branching) xs) = true /\ Forall plain (map (set_rxn branching) xs)).
  { eexists. split; [vm_compute; reflexivity|]. split; [vm_compute; reflexivity|]. repeat (apply Forall_cons; [plain_rxn|]). apply Forall_nil. }
  destruct D as (xs & E & T & P). rewrite (outs_one _ _ _ _ _ E outs F). apply told_sharp; [apply Forall_forall; exact P|exact T].
Qed.
Lemma branch_any_run : exists w rs, any_run branching branch_kinks [Minimize mn_minimizer] seven (maker (Some four) (Some [6]) 5) = Ok (w, rs, Some []) /\ length rs = 3.
Proof. do 2 eexists. split; [vm_compute; reflexivity|]. reflexivity. Qed.
