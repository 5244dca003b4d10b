(* A concrete run of the whole flow with an open element. *)
From Coq Require Import Lqa.
From Verif Require Import Prelude NumQ SumQ ListFacts UtilsModel UtilsSpec ReactionModel ReactionSpec ReactionBaseProofs ReactionBalanceProofs ChemTable EnumModel EnumSpec EnumProofs EnumReactProofs EnumLinkModel EnumCheck RxnSetModel RxnSetSpec PathModel SolverModel SolverSpec SolverCheck NetModel ShortestPath FlowModel NetJobModel NetJobSpec
  YenModel YenSpec SolveJobModel SolveJobSpec SolveJobCheck LinModel LinSpec LinProofs LinBalanceProofs LinCheck PinvModel CapCheck ChainModel ChainSpec ChainCheck ChainFindSpec ChainFindCheck RunModel JoinModel JoinSpec JoinCheck WholeModel WholeCheck IntModel IntSpec IntCheck IntFlowSpec IntFlowCheck
  UtilsProofs MinModel MinSpec MinProofs MinJoinModel MinJoinSpec MinJoinProofs MinJoinCheck IntMinModel IntMinCheck AnyWholeModel AnyWholeSpec AnyWholeCheck IntOpenModel IntOpenSpec OpenWholeModel OpenWholeSpec.
From Verif Require ParetoProofs RxnSetCheck NetJobCheck.
Open Scope list_scope.
Open Scope nat_scope.

(* A, B, D, AB, AD and A2BD as in C150; A is open. The further set has A + B + AD -> A2BD. *)
Definition breathed : srxn := {| x_entries := map (in_set joined level) [0; 1; 4; 5]; x_coeffs := [-1; -1; -1; 1]%Q; x_data := 7; x_mu := None |}.
Definition further_sets : result (list rset) := bind (from_rxns RxnSetCheck.arrange [breathed] (map (in_set joined level) six) (Some 0) (-2)%Q) (fun s => Ok [s]).
Definition no_more (el : nat) (mu : Q) (ents : list entry) (mids ts : list nat) : result rset := set_of_objects joined (with_index ents) RxnSetCheck.arrange RxnSetCheck.argsort (fun l => l) mids false (Ok []).
Definition open_maker (ps ts : list nat) (k : nat) : network_maker := {| nm_precursors := Some ps; nm_targets := Some ts; nm_k := Some k; nm_open := Some 0; nm_chempot := (-2)%Q |}.
Definition open_smaker (ps ts : list nat) : solver_maker := {| sm_precursors := ps; sm_targets := ts; sm_open := Some 0; sm_chempot := (-2)%Q |}.
Definition breath_run (ub um : bool) (sets : result (list rset)) (k max : nat) (find fi : bool) :=
  bind sets (fun further => open_whole_flow joined level (entry_solve joined level) (entry_rank joined level) (fun k => k) listed_phases joined_interface (fun l => l) RxnSetCheck.arrange RxnSetCheck.argsort (fun l => l) RxnSetCheck.lifo_any RxnSetCheck.lifo_any RxnSetCheck.lifo_any
    (fun us => us) (fun us => seq 0 (length us)) 3 RxnSetCheck.lifo_any NetJobCheck.unit_cost (fun weight => search weight) same_amounts (exact_solve joined) (exact_rank joined) alike path_pinv lifo lifo (fun l => l) (fun l => l) (fun _ => 0%Q) 10
    (fun l => l) 10 10 10 10 0%Q ub um (fun _ => 0) no_more both_enumerators six further (open_maker [0; 1; 2] [5] k) (open_smaker [0; 1; 2] [5]) max find fi).

Lemma breath_among : exists s y, further_sets = Ok [s] /\ get_rxns s = Ok [y] /\ among joined level six y /\ x_entries y = x_entries breathed /\ x_coeffs y = x_coeffs breathed.
Proof.
  do 2 eexists. split; [vm_compute; reflexivity|]. split; [vm_compute; reflexivity|]. split; [|split; reflexivity]. split; [plain_rxn|]. split.
  - intros e I. cbn in I. destruct I as [<-|[<-|[<-|[<-|[]]]]]; [exists 0|exists 1|exists 4|exists 5]; (split; [cbn; auto 7|reflexivity]).
  - exists [0; 1; 4], [5]. split; [discriminate|]. split; [|split; [|split]].
    + intros e. split.
      * intros (c & H & I). cbn in H. destruct H as [E|[E|[E|[E|[]]]]]; injection E as <- <-; [exists 0|exists 1|exists 4|discriminate I]; (split; [cbn; auto|reflexivity]).
      * intros (i & I & ->). cbn in I. destruct I as [<-|[<-|[<-|[]]]]; exists (-1)%Q; (split; [cbn; auto|reflexivity]).
    + intros e. split.
      * intros (c & H & I). cbn in H. destruct H as [E|[E|[E|[E|[]]]]]; injection E as <- <-; [discriminate I..|exists 5; split; [left; reflexivity|reflexivity]].
      * intros (i & [<-|[]] & ->). exists 1%Q. split; [cbn; auto 7|reflexivity].
    + intros e c I. cbn in I. repeat (destruct I as [E|I]; [injection E as <- <-; vm_compute; discriminate|]). destruct I.
    + intros el. cbn [x_entries x_coeffs combine]. rewrite !sumQ_cons. do 3 (destruct el as [|el]; [vm_compute; discriminate|]). vm_compute. discriminate.
Qed.
Lemma breath_sharp s more : further_sets = Ok [s] -> Forall2 (fun s l => get_rxns s = Ok l) [s] more ->
  forall outs, Forall2 (fun a xs => both_outs a = Ok xs) both_enumerators outs -> sharp (map (set_rxn joined) (concat outs) ++ concat more).
Proof.
  intros Es Fm outs F. assert (D : exists xs ys s0 zs, both_outs (Basic (open_enumerator 1)) = Ok xs /\ both_outs (Minimize mn_minimizer) = Ok ys /\ further_sets = Ok [s0] /\ get_rxns s0 = Ok zs /\ told_or_multiple (map (set_rxn joined) (xs ++ ys) ++ zs) = true
    /\ one_of_each (flat_map x_entries (map (set_rxn joined) (xs ++ ys) ++ zs)) = true /\ Forall plain (map (set_rxn joined) (xs ++ ys) ++ zs)).
  { do 4 eexists. split; [vm_compute; reflexivity|]. split; [vm_compute; reflexivity|]. split; [vm_compute; reflexivity|]. split; [vm_compute; reflexivity|]. split; [vm_compute; reflexivity|]. split; [vm_compute; reflexivity|]. cbn [app map]. repeat (apply Forall_cons; [plain_rxn|]). apply Forall_nil. }
  destruct D as (xs & ys & s0 & zs & E1 & E2 & E3 & E4 & T & U & P). inversion F as [|a x la l Ex Fl]; subst. inversion Fl as [|a' x' la' l' Ey Fl']; subst. inversion Fl'; subst. rewrite E1 in Ex. rewrite E2 in Ey. injection Ex as <-. injection Ey as <-.
  rewrite E3 in Es. apply (f_equal (fun r => match r with Ok (s :: _) => s | _ => s0 end)) in Es. cbv beta iota in Es. subst s. inversion Fm as [|s' z ss l Ez Fz]; subst. inversion Fz; subst. rewrite E4 in Ez. injection Ez as <-.
  cbn [concat]. rewrite !app_nil_r. apply told_or_multiple_sharp; [apply Forall_forall; exact P|apply one_of_each_iff; exact U|exact T].
Qed.
(* D + AB + A -> A2BD, where AB is on a pathway *)
Lemma breath_could (walked : srxn -> Prop) : (exists x, walked x /\ ~ (amount x 3 == 0)%Q) -> (forall u, on_the_way joined level six [5] walked u -> In u six) ->
  could_breathe joined level (on_the_way joined level six [5] walked) [5] 0 [2; 3; 0] [5].
Proof.
  intros H3 Hin. assert (M3 : on_the_way joined level six [5] walked 3) by (left; exact H3). assert (M5 : on_the_way joined level six [5] walked 5) by (right; left; left; reflexivity).
  assert (M0 : on_the_way joined level six [5] walked 0) by (right; right; split; [cbn; auto|exists 0; reflexivity]). assert (M2 : on_the_way joined level six [5] walked 2) by (right; right; split; [cbn; auto|exists 2; reflexivity]).
  split; [right; split; [split; [apply few_one|intros u [<-|[]]; split; [exact M5|discriminate]]|exists [2; 3], [0]; split; [|split; [|apply Permutation_refl]]]|].
  - split; [apply few_two; discriminate|]. intros u [<-|[<-|[]]]; (split; [assumption|discriminate]).
  - split; [repeat constructor; intros []|]. split; [discriminate|]. intros u [<-|[]]. split; [exact M0|reflexivity].
  - split; [intros u [<-|[<-|[<-|[]]]] [H|[]]; discriminate|]. split; [exists 5; split; [left; reflexivity|]; split; [left; reflexivity|discriminate]|].
    exists [0; 1; 2]. split; [repeat constructor; cbn; intuition discriminate|]. split; [cbn; lia|]. intros el. split.
    + intros [<-|[<-|[<-|[]]]]; [exists 3|exists 3|exists 2]; (split; [left|]; cbn; auto).
    + intros (u & [Hr|(Mu & Gu)] & H); [cbn in Hr; destruct Hr as [<-|[<-|[<-|[]]]]; cbn in *; tauto|]. unfold gaseous_phase in Gu. rewrite (six_red u (Hin u Mu)) in Gu. subst u. cbn in *; tauto.
Qed.
Lemma breath_only : only_combination joined [2; 3; 0; 5] [-1; -1; -1; 1]%Q.
Proof.
  split; [|split].
  - split; [reflexivity|]. intros e. do 3 (destruct e as [|e]; [vm_compute; reflexivity|]). apply joined_other. lia.
  - intros k [<-|[<-|[<-|[<-|[]]]]]; vm_compute; discriminate.
  - intros w (L & K). destruct w as [|x [|y [|z [|u [|]]]]]; try discriminate. exists u. pose proof (K 0) as K0. pose proof (K 1) as K1. pose proof (K 2) as K2.
    unfold ReactionSpec.net in K0, K1, K2. cbn [combine] in K0, K1, K2. rewrite !sumQ_cons in K0, K1, K2. cbn in K0, K1, K2. repeat constructor; lra.
Qed.
Lemma breath_sides : LinSpec.sides 3 [-1; -1; -1; 1]%Q.
Proof. intros [|[|[|[|i]]]] q H; cbn in H; try (injection H as <-; split; intros; lia || reflexivity). destruct i; discriminate. Qed.
Lemma breath_low : grand_low joined 0 (-2) 0 (combine (map level ([2; 3; 0] ++ [5])) [-1; -1; -1; 1]%Q).
Proof. vm_compute. reflexivity. Qed.
Lemma breath_found : rows six (breath_run true false further_sets 4 2 true true) = Ok ([-2; -1; -1; 0; 0; 1]%Q,
  [(Some [1; 1]%Q, [[-1; -1; 0; 1; 0; 0]; [-1; 0; -1; -1; 0; 1]]%Q);
   (Some [2; 1]%Q, [[-1; 0; -1; 0; 1; 0]; [0; -1; 1; 0; -2; 1]]%Q);
   (Some [1; 1]%Q, [[-1; 0; -1; 0; 1; 0]; [-1; -1; 0; 0; -1; 1]]%Q);
   (Some [2; 1]%Q, [[-1; -1; 0; 1; 0; 0]; [0; 1; -1; -2; 0; 1]]%Q)]).
Proof. vm_compute. reflexivity. Qed.
Lemma breath_without : rows six (breath_run false false (Ok []) 4 2 true true) = Ok ([-2; -1; -1; 0; 0; 1]%Q,
  [(Some [2; 1]%Q, [[-1; -1; 0; 1; 0; 0]; [0; 1; -1; -2; 0; 1]]%Q);
   (Some [2; 1]%Q, [[-1; 0; -1; 0; 1; 0]; [0; -1; 1; 0; -2; 1]]%Q)]).
Proof. vm_compute. reflexivity. Qed.
Lemma breath_all : exists paths net0, breath_run true true further_sets 4 3 true true = Ok (net0, paths) /\ length paths = 8 /\ forallb (fun p => forallb (fun r => match r with ROpen o => match chempots o with [(e, q)] => Nat.eqb e 0 && Qeq_bool q (-2) | _ => false end | _ => false end) (p_rxns p)) paths = true.
Proof. do 2 eexists. split; [vm_compute; reflexivity|]. split; vm_compute; reflexivity. Qed.
