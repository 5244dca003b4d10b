(* Concrete runs of the whole flow with reactions between intermediates. *)
From Coq Require Import Lqa.
From Verif Require Import Prelude NumQ SumQ ListFacts UtilsModel UtilsSpec ReactionModel ReactionSpec ReactionBaseProofs ReactionBalanceProofs ChemTable EnumModel EnumSpec EnumLinkModel EnumCheck RxnSetModel RxnSetSpec PathModel SolverModel SolverSpec SolverCheck NetModel ShortestPath FlowModel NetJobModel NetJobSpec
  YenModel YenSpec SolveJobModel SolveJobSpec SolveJobCheck LinModel LinSpec LinProofs LinBalanceProofs LinCheck PinvModel CapCheck ChainModel ChainSpec ChainCheck ChainFindSpec ChainFindCheck RunModel JoinModel JoinSpec JoinCheck WholeModel WholeCheck IntModel IntSpec IntCheck IntFlowSpec.
From Verif Require ParetoProofs RxnSetCheck NetJobCheck.
Open Scope list_scope.
Open Scope nat_scope.

Definition default_run (C : chem) (ent : nat -> entry) (entries ps ts : list nat) (k max : nat) (find fi : bool) :=
  whole_flow C ent (entry_solve C ent) (entry_rank C ent) (fun k => k) RxnSetCheck.arrange RxnSetCheck.argsort (fun l => l) RxnSetCheck.lifo_any (fun us => us) (fun us => seq 0 (length us)) 3 RxnSetCheck.lifo_any
    NetJobCheck.unit_cost (fun weight => search weight) same_amounts (exact_solve C) (exact_rank C) alike path_pinv lifo lifo (fun l => l) (fun l => l) (fun _ => 0%Q)
    (find_intermediates C (exact_solve C) (exact_rank C) (fun k => k) RxnSetCheck.arrange RxnSetCheck.argsort (fun l => l) RxnSetCheck.lifo_any (fun l => l) 10 10 0%Q) 10
    [open_enumerator 1] entries (NetJobCheck.maker (Some ps) (Some ts) k) (smaker ps ts) max find fi.
Definition found_from (C : chem) (ent : nat -> entry) (entries : list nat) (en : enumerator) :=
  enumerated C ent (entry_solve C ent) (entry_rank C ent) (fun k => k) RxnSetCheck.lifo_any entries en.
Definition rows (l : list nat) (o : result (rxn * list (path rxn))) : result (list Q * list (option (list Q) * list (list Q))) :=
  bind o (fun np => Ok (map (fun i => Qred (turnover (fst np) i)) l,
    map (fun p => (option_map (map Qred) (p_coeffs p), map (fun r => map (fun i => Qred (turnover r i)) l) (p_rxns p))) (snd np))).

(* --- two branches with a common phase: A + B -> AB, A + D -> AD, AB + AD -> A2BD --- *)
Definition joined_rows : list chem_row := [([(0, 1%Q)], 0, 1%Q); ([(1, 1%Q)], 1, 1%Q); ([(2, 1%Q)], 2, 1%Q); ([(0, 1%Q); (1, 1%Q)], 3, 1%Q); ([(0, 1%Q); (2, 1%Q)], 4, 1%Q); ([(0, 2%Q); (1, 1%Q); (2, 1%Q)], 5, 1%Q)].
Definition joined : chem := table_chem joined_rows.
Definition level (i : nat) : entry := warm i (nth i [0; 0; 0; -1; -1; -4]%Q 0%Q).
Definition six := [0; 1; 2; 3; 4; 5].
Lemma joined_wf : wf_chem joined.
Proof. apply table_ok_wf. vm_compute. reflexivity. Qed.
Lemma joined_big : forall c e, In e (ReactionModel.elems joined c) -> (1 # 100 < amt joined (red joined c) e)%Q.
Proof.
  intros c e H. do 6 (destruct c as [|c]; [cbn in H; repeat (destruct H as [<-|H]; [vm_compute; reflexivity|]); destruct H|]). cbn in H. destruct c; destruct H.
Qed.
Lemma joined_other l e : 3 <= e -> (ReactionSpec.net joined l e == 0)%Q.
Proof.
  intros H. apply (net_unlisted joined joined_wf). intros I. apply in_flat_map in I as (c & _ & I).
  do 6 (destruct c as [|c]; [cbn in I; repeat (destruct I as [<-|I]; [lia|]); destruct I|]). cbn in I. destruct c; destruct I.
Qed.
Lemma joined_only : only_combination joined [3; 4; 5] [-1; -1; 1]%Q.
Proof.
  split; [|split].
  - split; [reflexivity|]. intros e. do 3 (destruct e as [|e]; [vm_compute; reflexivity|]). apply joined_other. lia.
  - intros k [<-|[<-|[<-|[]]]]; vm_compute; discriminate.
  - intros w (L & K). destruct w as [|x [|y [|z [|]]]]; try discriminate. exists z. pose proof (K 0) as K0. pose proof (K 1) as K1. pose proof (K 2) as K2.
    unfold ReactionSpec.net in K0, K1, K2. cbn [combine] in K0, K1, K2. rewrite !sumQ_cons in K0, K1, K2. cbn in K0, K1, K2. repeat constructor; lra.
Qed.
Lemma joined_determined : determined joined (fun i => red joined (e_comp (level i))) [0; 1; 2] [5].
Proof.
  split; [repeat constructor; cbn; intuition discriminate|]. exists [(-2)%Q; (-1)%Q; (-1)%Q; 1%Q].
  split; [|intros [|[|[|[|i]]]] k K; cbn in K; try (injection K as <-; cbn; split; intros; lia || reflexivity); destruct i; discriminate].
  split; [|split].
  - split; [reflexivity|]. intros e. do 3 (destruct e as [|e]; [vm_compute; reflexivity|]). apply joined_other. lia.
  - intros k [<-|[<-|[<-|[<-|[]]]]]; vm_compute; discriminate.
  - intros w (L & K). destruct w as [|x [|y [|z [|a [|]]]]]; try discriminate. exists a. pose proof (K 0) as K0. pose proof (K 1) as K1. pose proof (K 2) as K2.
    unfold ReactionSpec.net in K0, K1, K2. cbn [combine map app] in K0, K1, K2. rewrite !sumQ_cons in K0, K1, K2. cbn in K0, K1, K2. repeat constructor; lra.
Qed.
Lemma joined_pairs a b c : In (a, b, c) [(0, 1, 3); (0, 2, 4); (3, 4, 5)] -> reacts joined level six [open_enumerator 1] [a; b] [c].
Proof.
  intros H. split.
  - exists (open_enumerator 1). split; [left; reflexivity|].
    repeat (destruct H as [H|H]; [injection H as <- <- <-; (split; [split; (split; [within_list|cbn; lia])|]);
      (split; [intros x [<-|[<-|[]]] [H|[]]; discriminate|]); (split; [|split; left; reflexivity])|]); [| | |destruct H].
    + exists [0; 1]. split; [|split; [cbn; lia|intros f H; discriminate]]. split; [repeat constructor; lia|]. intros x. cbn. split.
      * intros [<-|[<-|[]]]; left; [exists 0|exists 1]; split; auto; cbn; auto.
      * intros [(e & [<-|[<-|[]]] & Hx)|[]]; cbn in Hx; tauto.
    + exists [0; 2]. split; [|split; [cbn; lia|intros f H; discriminate]]. split; [repeat constructor; lia|]. intros x. cbn. split.
      * intros [<-|[<-|[]]]; left; [exists 0|exists 2]; split; auto; cbn; auto.
      * intros [(e & [<-|[<-|[]]] & Hx)|[]]; cbn in Hx; tauto.
    + exists [0; 1; 2]. split; [|split; [cbn; lia|intros f H; discriminate]]. split; [repeat constructor; lia|]. intros x. cbn. split.
      * intros [<-|[<-|[<-|[]]]]; left; [exists 3|exists 3|exists 4]; split; auto; cbn; auto.
      * intros [(e & [<-|[<-|[]]] & Hx)|[]]; cbn in Hx; tauto.
  - split; [repeat (destruct H as [H|H]; [injection H as <- <- <-; repeat constructor; cbn; intuition discriminate|]); destruct H|].
    exists [(-1)%Q; (-1)%Q; 1%Q]. split; [|cbn [length]; intros [|[|[|i]]] k K; cbn in K; try (injection K as <-; split; intros; lia || reflexivity); destruct i; discriminate].
    split; [|split].
    + split; [reflexivity|]. intros e. repeat (destruct H as [H|H]; [injection H as <- <- <-; do 3 (destruct e as [|e]; [vm_compute; reflexivity|]); apply joined_other; lia|]). destruct H.
    + intros k [<-|[<-|[<-|[]]]]; vm_compute; discriminate.
    + intros w (L & K). destruct w as [|x [|y [|z [|]]]]; try discriminate. exists z. pose proof (K 0) as K0. pose proof (K 1) as K1. pose proof (K 2) as K2.
      unfold ReactionSpec.net in K0, K1, K2. repeat (destruct H as [H|H]; [injection H as <- <- <-; cbn [combine map app] in K0, K1, K2; rewrite !sumQ_cons in K0, K1, K2; cbn in K0, K1, K2; repeat constructor; lra|]). destruct H.
Qed.
Lemma joined_reacts : forall i, In i ([0; 1; 2] ++ [5]) -> exists r p, reacts joined level six [open_enumerator 1] r p /\ In i (r ++ p).
Proof.
  intros i H. cbn in H. destruct H as [<-|[<-|[<-|[<-|[]]]]].
  - exists [0; 1], [3]. split; [apply joined_pairs; left; reflexivity|cbn; auto].
  - exists [0; 1], [3]. split; [apply joined_pairs; left; reflexivity|cbn; auto].
  - exists [0; 2], [4]. split; [apply joined_pairs; right; left; reflexivity|cbn; auto].
  - exists [3; 4], [5]. split; [apply joined_pairs; right; right; left; reflexivity|cbn; auto].
Qed.
Lemma joined_sharp : forall outs, Forall2 (fun en xs => found_from joined level six en = Ok xs) [open_enumerator 1] outs -> sharp (map (set_rxn joined) (concat outs)).
Proof.
  intros outs F. assert (D : exists xs, found_from joined level six (open_enumerator 1) = Ok xs /\ told (map (set_rxn joined) xs) = true /\ Forall plain (map (set_rxn joined) xs)).
  { eexists. split; [vm_compute; reflexivity|]. split; [vm_compute; reflexivity|]. repeat (apply Forall_cons; [plain_rxn|]). apply Forall_nil. }
  destruct D as (xs & E & T & P). inversion F as [|en x ens l Ex Fl]; subst. inversion Fl; subst. rewrite E in Ex. injection Ex as <-. cbn [concat]. rewrite app_nil_r. apply told_sharp; [apply Forall_forall; exact P|exact T].
Qed.
(* AB and AD, each on a pathway, react to the target. *)
Lemma joined_could walked : (exists x, walked x /\ ~ (amount x 3 == 0)%Q) -> (exists x, walked x /\ ~ (amount x 4 == 0)%Q) -> could_react joined level (on_the_way joined level six [5] walked) [5] [3; 4] [5].
Proof.
  intros H3 H4. split; [apply few_two; discriminate|]. split; [apply few_one|]. split; [intros u [<-|[<-|[]]] [H|[]]; discriminate|]. split.
  - intros u [<-|[<-|[<-|[]]]]; [left; exact H3|left; exact H4|right; left; left; reflexivity].
  - split; [exists 5; split; left; reflexivity|]. exists [0; 1; 2]. split; [repeat constructor; cbn; intuition discriminate|]. split; [cbn; lia|]. intros el. split.
    + intros [<-|[<-|[<-|[]]]]; [exists 3|exists 3|exists 4]; split; cbn; auto.
    + intros (u & [<-|[<-|[]]] & H); cbn in *; tauto.
Qed.
Lemma joined_low : low joined 0 (combine (map level ([3; 4] ++ [5])) [-1; -1; 1]%Q).
Proof. vm_compute. reflexivity. Qed.
Lemma joined_run : rows six (default_run joined level six [0; 1; 2] [5] 4 3 true true) = Ok ([-2; -1; -1; 0; 0; 1]%Q,
  [(Some [1; 1; 1]%Q, [[-1; -1; 0; 1; 0; 0]; [-1; 0; -1; 0; 1; 0]; [0; 0; 0; -1; -1; 1]]%Q);
   (Some [2; 1; 1]%Q, [[-1; 0; -1; 0; 1; 0]; [0; -1; 1; 1; -1; 0]; [0; 0; 0; -1; -1; 1]]%Q);
   (Some [2; 1; 1]%Q, [[-1; -1; 0; 1; 0; 0]; [0; 1; -1; -1; 1; 0]; [0; 0; 0; -1; -1; 1]]%Q);
   (Some [2; 1; 2]%Q, [[-1; -1; 0; 1; 0; 0]; [0; -1; 1; 0; -2; 1]; [0; 1; -1; -1; 1; 0]]%Q);
   (Some [1; 2; 2]%Q, [[0; 1; -1; -2; 0; 1]; [-1; 0; -1; 0; 1; 0]; [0; -1; 1; 1; -1; 0]]%Q);
   (Some [2; 1]%Q, [[-1; 0; -1; 0; 1; 0]; [0; -1; 1; 0; -2; 1]]%Q);
   (Some [2; 1]%Q, [[-1; -1; 0; 1; 0; 0]; [0; 1; -1; -2; 0; 1]]%Q)]).
Proof. vm_compute. reflexivity. Qed.
(* Without the search, no pathway has AB + AD -> A2BD. *)
Lemma joined_without : exists net0 paths, default_run joined level six [0; 1; 2] [5] 4 3 false true = Ok (net0, paths) /\ length paths = 4
  /\ forall p r, In p paths -> In r (p_rxns p) -> ~ ((turnover r 3 < 0)%Q /\ (turnover r 4 < 0)%Q).
Proof.
  assert (D : exists np, default_run joined level six [0; 1; 2] [5] 4 3 false true = Ok np /\ length (snd np) = 4
    /\ forallb (fun p => forallb (fun r => negb (Qlt_bool (turnover r 3) 0 && Qlt_bool (turnover r 4) 0)) (p_rxns p)) (snd np) = true).
  { eexists. split; [vm_compute; reflexivity|]. split; vm_compute; reflexivity. }
  destruct D as ((net0 & paths) & E & L & F). exists net0, paths. split; [exact E|]. split; [exact L|]. intros p r Ip Ir (H3 & H4). rewrite forallb_forall in F. specialize (F p Ip). rewrite forallb_forall in F. specialize (F r Ir).
  apply ParetoProofs.Qlt_bool_iff in H3, H4. rewrite H3, H4 in F. discriminate F.
Qed.

(* --- two branches without a common phase --- *)
Definition blevel (i : nat) : entry := warm i (nth i [0; 0; 0; 0; -1; -1; -4]%Q 0%Q).
Lemma apart_sharp : forall outs, Forall2 (fun en xs => found_from branching blevel seven en = Ok xs) [open_enumerator 1] outs -> sharp (map (set_rxn branching) (concat outs)).
Proof.
  intros outs F. assert (D : exists xs, found_from branching blevel seven (open_enumerator 1) = Ok xs /\ told (map (set_rxn branching) xs) = true /\ Forall plain (map (set_rxn branching) xs)).
  { eexists. split; [vm_compute; reflexivity|]. split; [vm_compute; reflexivity|]. repeat (apply Forall_cons; [plain_rxn|]). apply Forall_nil. }
  destruct D as (xs & E & T & P). inversion F as [|en x ens l Ex Fl]; subst. inversion Fl; subst. rewrite E in Ex. injection Ex as <-. cbn [concat]. rewrite app_nil_r. apply told_sharp; [apply Forall_forall; exact P|exact T].
Qed.
Lemma apart_run max fi : 1 <= max <= 3 -> default_run branching blevel seven four [6] 5 max true fi = Err ValueError.
Proof. intros H. do 4 (destruct max as [|max]; [try lia; destruct fi; vm_compute; reflexivity|]). lia. Qed.
Lemma apart_low r p : In (r, p) [([0; 1], [4]); ([2; 3], [5]); ([4; 5], [6])] -> low branching 0 (combine (map blevel (r ++ p)) [-1; -1; 1]%Q).
Proof. intros [E|[E|[E|[]]]]; injection E as <- <-; vm_compute; reflexivity. Qed.
Lemma apart_only a b c : In (a, b, c) [(0, 1, 4); (2, 3, 5); (4, 5, 6)] -> only_combination branching [a; b; c] [-1; -1; 1]%Q.
Proof.
  intros H. split; [|split].
  - split; [repeat (destruct H as [H|H]; [injection H as <- <- <-; reflexivity|]); destruct H|]. intros e. repeat (destruct H as [H|H]; [injection H as <- <- <-; do 4 (destruct e as [|e]; [vm_compute; reflexivity|]); apply branching_other; lia|]). destruct H.
  - intros k [<-|[<-|[<-|[]]]]; vm_compute; discriminate.
  - intros w (L & K). destruct w as [|x [|y [|z [|]]]]; try discriminate. exists z. pose proof (K 0) as K0. pose proof (K 1) as K1. pose proof (K 2) as K2. pose proof (K 3) as K3.
    unfold ReactionSpec.net in K0, K1, K2, K3. repeat (destruct H as [H|H]; [injection H as <- <- <-; cbn [combine map app] in K0, K1, K2, K3; rewrite !sumQ_cons in K0, K1, K2, K3; cbn in K0, K1, K2, K3; repeat constructor; lra|]). destruct H.
Qed.
Definition apart_step (r p : list nat) : Prop := reacts branching blevel seven [open_enumerator 1] r p
  /\ exists w, only_combination branching (map (fun i => red branching (e_comp (blevel i))) (r ++ p)) w /\ LinSpec.sides (length r) w /\ low branching 0%Q (combine (map blevel (r ++ p)) w).
Lemma apart_steps a b c : In (a, b, c) [(0, 1, 4); (2, 3, 5); (4, 5, 6)] -> apart_step [a; b] [c].
Proof.
  intros H. split; [exact (branch_reacts a b c H)|]. exists [-1; -1; 1]%Q. pose proof (apart_only a b c H) as O.
  repeat (destruct H as [H|H]; [injection H as <- <- <-; split; [exact O|split; [apply oxide_sides; reflexivity|apply apart_low; cbn; tauto]]|]). destruct H.
Qed.
Lemma apart_obtainable : obtainable apart_step four 6.
Proof.
  assert (G : forall i, In i four -> obtainable apart_step four i) by (intros i H; apply given_phase; exact H).
  apply (made_phase _ _ [4; 5] [6]); [apply apart_steps; right; right; left; reflexivity| |left; reflexivity]. intros j [<-|[<-|[]]].
  - apply (made_phase _ _ [0; 1] [4]); [apply apart_steps; left; reflexivity| |left; reflexivity]. intros j H. apply G. cbn in *. tauto.
  - apply (made_phase _ _ [2; 3] [5]); [apply apart_steps; right; left; reflexivity| |left; reflexivity]. intros j H. apply G. cbn in *. tauto.
Qed.
