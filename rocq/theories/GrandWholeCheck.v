(* A concrete run of the whole flow for an open element, its own enumeration included. *)
From Coq Require Import Lqa.
From Verif Require Import Prelude NumQ SumQ ListFacts UtilsModel UtilsSpec ReactionModel ReactionSpec ReactionBaseProofs ReactionBalanceProofs ChemTable EnumModel EnumSpec EnumProofs EnumReactProofs EnumLinkModel EnumCheck RxnSetModel RxnSetSpec PathModel SolverModel SolverSpec SolverCheck NetModel ShortestPath FlowModel NetJobModel NetJobSpec
  YenModel YenSpec SolveJobModel SolveJobSpec SolveJobCheck LinModel LinSpec LinProofs LinBalanceProofs LinCheck PinvModel CapCheck ChainModel ChainSpec ChainCheck ChainFindSpec ChainFindCheck RunModel JoinModel JoinSpec JoinCheck WholeModel WholeCheck IntModel IntSpec IntCheck IntFlowSpec IntFlowCheck
  UtilsProofs MinModel MinSpec MinProofs MinJoinModel MinJoinSpec MinJoinProofs MinJoinCheck IntMinModel IntMinCheck AnyWholeModel AnyWholeSpec AnyWholeCheck IntOpenModel IntOpenSpec OpenWholeModel OpenWholeSpec OpenWholeCheck GrandJoinModel GrandJoinSpec.
From Verif Require ParetoProofs RxnSetCheck NetJobCheck.
Open Scope list_scope.
Open Scope nat_scope.

(* A, B, D, AB, AD and A2BD; A is open. The diagram knows its compositions; between B and AD there is A2BD. *)
Definition open_diagram (el : nat) (mu : Q) (l : list (nat * Q)) : result (list nat) := listed_phases l.
Definition open_meeting (pd : list nat) (a b : nat) : list (list nat * list nat) :=
  if inb 1 [a; b] && inb 4 [a; b] && inb 0 pd && inb 5 pd then [([0; 1; 4], [5])] else [].
Definition open_kinks (pd : list nat) (a b : nat) : result (list (list nat * list nat)) := Ok (([a], [a]) :: open_meeting pd a b ++ [([b], [b])]).
Definition open_minimizer : minimizer := {| mi_options := mn_options 1; mi_precursors := []; mi_targets := []; mi_duplicates := true |}.
Definition chempot_run (ub um : bool) (m : minimizer) (k max : nat) (find fi : bool) :=
  chempot_flow joined level (entry_solve joined level) (entry_rank joined level) (fun k => k) listed_phases joined_interface open_diagram open_kinks (fun l => l) RxnSetCheck.arrange RxnSetCheck.argsort (fun l => l) RxnSetCheck.lifo_any RxnSetCheck.lifo_any RxnSetCheck.lifo_any RxnSetCheck.lifo_any
    (fun us => us) (fun us => seq 0 (length us)) 3 RxnSetCheck.lifo_any NetJobCheck.unit_cost (fun weight => search weight) same_amounts (exact_solve joined) (exact_rank joined) alike path_pinv lifo lifo (fun l => l) (fun l => l) (fun _ => 0%Q) 10
    (fun l => l) 10 10 10 10 0%Q ub um (fun _ => 0) no_more both_enumerators m 0 (-2)%Q six (NetJobCheck.maker (Some [0; 1; 2]) (Some [5]) k) (smaker [0; 1; 2] [5]) max find fi.

Lemma open_kinks_are pd a b ks kink : open_kinks pd a b = Ok ks -> In kink ks -> kink = ([a], [a]) \/ kink = ([b], [b]) \/ (In 1 [a; b] /\ In 4 [a; b] /\ In 0 pd /\ In 5 pd /\ kink = ([0; 1; 4], [5])).
Proof.
  intros E I. unfold open_kinks in E. apply (f_equal (fun r => match r with Ok l => l | Err _ => [] end)) in E. cbv beta iota in E. subst ks. destruct I as [<-|I]; [left; reflexivity|]. apply in_app_iff in I as [I|[<-|[]]]; [|right; left; reflexivity]. right. right.
  unfold open_meeting in I. destruct (inb 1 [a; b]) eqn:E1; [|destruct I]. destruct (inb 4 [a; b]) eqn:E2; [|destruct I]. destruct (inb 0 pd) eqn:E3; [|destruct I]. destruct (inb 5 pd) eqn:E4; [|destruct I]. destruct I as [<-|[]].
  apply inb_iff in E1, E2, E3, E4. auto.
Qed.
Lemma open_tidy pd a b ks kink : open_kinks pd a b = Ok ks -> In kink ks -> NoDup (fst kink) /\ NoDup (snd kink) /\ (disjoint (fst kink) (snd kink) \/ exists f, kink = ([f], [f])).
Proof.
  intros E I. destruct (open_kinks_are pd a b ks kink E I) as [->|[->|(_ & _ & _ & _ & ->)]]; cbn [fst snd].
  1, 2: split; [repeat constructor; intros []|split; [repeat constructor; intros []|right; eexists; reflexivity]].
  split; [repeat constructor; cbn; intuition discriminate|split; [repeat constructor; intros []|left]]. intros u H1 H2. cbn in *. intuition (subst; discriminate).
Qed.
Lemma open_elements e : In e six -> ReactionModel.elems joined (e_comp (level e)) = [0] -> red joined (e_comp (level e)) = 0.
Proof. intros H. unfold six in H. cbn in H. repeat (destruct H as [<-|H]; [cbn; intros E; first [reflexivity|discriminate E]|]). destruct H. Qed.
Lemma open_good : good_interfaces jel (fun i => red joined (e_comp (level i))) (diagram_for (open_diagram 0 (-2)) level) (kinks_for open_kinks level) six (gases_in joined level six 0).
Proof.
  intros c k s (Hs & Hl & _) (_ & Hk) Hw.
  assert (Hc : forall e, In e c -> In e s) by (intros e Ie; apply (picks_members _ _ _ Hw); split; [exact (subseq_In _ _ _ Hs Ie)|]; intros x Hx; apply Hk; left; exists e; split; assumption).
  assert (Hr : forall e, In e s -> red joined (e_comp (level e)) = e) by (intros e Ie; apply six_red; apply (picks_members _ _ _ Hw); exact Ie).
  exists s. split.
  - destruct s as [|e s]; [destruct c as [|e c]; [cbn in Hl; lia|destruct (Hc e (or_introl eq_refl))]|]. exact (listed_all e s).
  - intros a b Ia Ib. eexists. split; [reflexivity|]. intros kink Ik.
    assert (Self : forall e, In e s -> exists e', In e' s /\ red joined (e_comp (level e')) = e) by (intros e Ie; exists e; split; [exact Ie|apply Hr; exact Ie]).
    destruct (open_kinks_are s a b _ kink eq_refl Ik) as [->|[->|(H1 & H4 & H0 & H5 & ->)]]; cbn [fst snd]; (split; [discriminate|split; [discriminate|]]).
    + intros f [[<-|[]]|[<-|[]]]; apply Self; apply Hc; exact Ia.
    + intros f [[<-|[]]|[<-|[]]]; apply Self; apply Hc; exact Ib.
    + assert (Two : forall u, In u [a; b] -> In u s) by (intros u [<-|[<-|[]]]; apply Hc; assumption).
      intros f [[<-|[<-|[<-|[]]]]|[<-|[]]]; apply Self; [exact H0|apply Two; exact H1|apply Two; exact H4|exact H5].
Qed.
Lemma open_sure : surely_at_open_kink joined level (diagram_for (open_diagram 0 (-2)) level) (kinks_for open_kinks level) (fun u => e_energy (level u) / natoms joined (e_comp (level u)))%Q six 0 open_minimizer [0; 1; 4] [5].
Proof.
  split; [|split; left; reflexivity]. exists [1; 4], six, six, ([0; 1; 4], [5]). change (gases_in joined level six 0) with [0].
  assert (Ch : chemsys_of jel (flat_map jel [0]) [1; 4] [0; 1; 2]).
  { split; [repeat constructor; lia|]. intros x. split; [intros [<-|[<-|[<-|[]]]]|intros [(e & [<-|[<-|[]]] & Hx)|Hx]; cbn in Hx; cbn; tauto].
    - right. left. reflexivity.
    - left. exists 1. split; cbn; auto.
    - left. exists 4. split; cbn; auto. }
  split; [|split].
  - split; [split; [unfold six; within_list|split; [cbn; lia|intros e [<-|[<-|[]]] [H|[]]; discriminate]]|]. split; [split; [exists [0; 1; 2]; split; [exact Ch|split; [cbn; lia|intros f G; discriminate G]]|split; left; reflexivity]|].
    exists [0; 1; 2]. split; [exact Ch|]. split; [|reflexivity]. unfold six. repeat (apply picks_in; [intros x Hx; cbn in *; tauto|]). apply picks_nil.
  - intros a b He. eexists. split; [reflexivity|]. assert (G : (a = 1 /\ b = 4) \/ (a = 4 /\ b = 1)) by (destruct He as [[E _]|[E|E]]; [discriminate|injection E as <- <-; auto|injection E as <- <-; auto]).
    destruct G as [[-> ->]|[-> ->]]; right; left; reflexivity.
  - assert (S : forall e, In e six -> only_stable_phase joined level (fun u => e_energy (level u) / natoms joined (e_comp (level u)))%Q six e e).
    { intros e I6. split; [apply six_red; exact I6|]. split; [exact I6|]. intros x Ix Ef. left. unfold formula in Ef. rewrite (six_red x Ix) in Ef. exact Ef. }
    cbn [fst snd]. split; repeat (apply Forall2_cons; [apply S; unfold six; cbn; auto 7|]); apply Forall2_nil.
Qed.
Lemma open_determined : determined joined (fun i => red joined (e_comp (level i))) [0; 1; 4] [5].
Proof.
  split; [repeat constructor; cbn; intuition discriminate|]. exists [-1; -1; -1; 1]%Q. split; [|exact breath_sides]. split; [|split].
  - split; [reflexivity|]. intros e. do 3 (destruct e as [|e]; [vm_compute; reflexivity|]). apply joined_other. lia.
  - intros k [<-|[<-|[<-|[<-|[]]]]]; vm_compute; discriminate.
  - intros w (L & K). destruct w as [|x [|y [|z [|u [|]]]]]; try discriminate. exists u. pose proof (K 0) as K0. pose proof (K 1) as K1. pose proof (K 2) as K2.
    unfold ReactionSpec.net in K0, K1, K2. cbn [app map combine] in K0, K1, K2. rewrite !sumQ_cons in K0, K1, K2. cbn in K0, K1, K2. repeat constructor; lra.
Qed.
Definition open_outs : result (list object) := grand_enumerated joined level (entry_solve joined level) (entry_rank joined level) open_diagram open_kinks (fun l => l) RxnSetCheck.lifo_any (fun _ => 0) 0 (-2)%Q six open_minimizer.
Lemma open_sharp : forall outs gs, Forall2 (fun a xs => both_outs a = Ok xs) both_enumerators outs -> open_outs = Ok gs -> sharp (map (set_rxn joined) (concat outs) ++ map (open_set_rxn joined 0 (-2)%Q) gs).
Proof.
  intros outs gs F Eg. assert (D : exists xs ys zs, both_outs (Basic (open_enumerator 1)) = Ok xs /\ both_outs (Minimize mn_minimizer) = Ok ys /\ open_outs = Ok zs /\ told_or_multiple (map (set_rxn joined) (xs ++ ys) ++ map (open_set_rxn joined 0 (-2)%Q) zs) = true
    /\ one_of_each (flat_map x_entries (map (set_rxn joined) (xs ++ ys) ++ map (open_set_rxn joined 0 (-2)%Q) zs)) = true /\ Forall plain (map (set_rxn joined) (xs ++ ys) ++ map (open_set_rxn joined 0 (-2)%Q) zs)).
  { do 3 eexists. split; [vm_compute; reflexivity|]. split; [vm_compute; reflexivity|]. split; [vm_compute; reflexivity|]. split; [vm_compute; reflexivity|]. split; [vm_compute; reflexivity|]. cbn [app map]. repeat (apply Forall_cons; [plain_rxn|]). apply Forall_nil. }
  destruct D as (xs & ys & zs & E1 & E2 & E3 & T & U & P). inversion F as [|a x la l Ex Fl]; subst. inversion Fl as [|a' x' la' l' Ey Fl']; subst. inversion Fl'; subst. rewrite E1 in Ex. rewrite E2 in Ey. injection Ex as <-. injection Ey as <-. rewrite E3 in Eg. injection Eg as <-.
  cbn [concat]. rewrite !app_nil_r. apply told_or_multiple_sharp; [apply Forall_forall; exact P|apply one_of_each_iff; exact U|exact T].
Qed.
Lemma chempot_found : rows six (chempot_run true false open_minimizer 4 2 true true) = Ok ([-2; -1; -1; 0; 0; 1]%Q,
  [(Some [1; 1]%Q, [[-1; -1; 0; 1; 0; 0]; [-1; 0; -1; -1; 0; 1]]%Q);
   (Some [2; 1]%Q, [[-1; 0; -1; 0; 1; 0]; [0; -1; 1; 0; -2; 1]]%Q);
   (Some [1; 1]%Q, [[-1; 0; -1; 0; 1; 0]; [-1; -1; 0; 0; -1; 1]]%Q);
   (Some [2; 1]%Q, [[-1; -1; 0; 1; 0; 0]; [0; 1; -1; -2; 0; 1]]%Q)]).
Proof. vm_compute. reflexivity. Qed.
