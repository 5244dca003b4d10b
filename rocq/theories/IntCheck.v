(* Concrete runs of the search for reactions between intermediates. *)
From Coq Require Import Lqa.
From Verif Require Import Prelude NumQ SumQ UtilsModel UtilsSpec ReactionModel ReactionSpec EnumModel EnumSpec EnumLinkModel EnumCheck RxnSetModel RxnSetSpec LinModel LinSpec LinProofs LinCheck SolveJobModel SolveJobSpec ChainCheck JoinModel JoinSpec JoinCheck IntModel IntSpec CoefProofs IntProofs.
From Verif Require RxnSetCheck NetJobCheck.
Open Scope list_scope.
Open Scope nat_scope.

Definition warm (i : nat) (q : Q) : entry := {| e_id := i; e_comp := i; e_energy := q |}.
(* Mn, Mn2O3, MnO, MnO2 *)
Definition oxides : list entry := [warm 0 0; warm 1 (-10); warm 2 (-4); warm 3 (-54 # 10)]%Q.
Definition between_oxides (l : list nat) (ks : list Q) : rxn := RComputed (computed_init mno (map (with_index oxides) l) ks None).
Definition int_run (C : chem) (ents : list entry) (rxns : list rxn) (net0 : rxn) (cutoff : Q) :=
  find_intermediates C (exact_solve C) (exact_rank C) (fun k => k) RxnSetCheck.arrange RxnSetCheck.argsort (fun l => l) RxnSetCheck.lifo_any (fun l => l) 10 10 cutoff ents rxns net0.
(* Mn2O3 -> MnO + MnO2 and Mn + Mn2O3 -> 3 MnO *)
Definition split_up : rxn := between_oxides [1; 2; 3] [-1; 1; 1]%Q.
Definition comproportion : rxn := between_oxides [0; 1; 2] [-1; -1; 3]%Q.

Lemma oxide_ids : forall i e, nth_error oxides i = Some e -> e_id e = i.
Proof. intros [|[|[|[|i]]]] e H; cbn in H; try (injection H as <-; reflexivity); destruct i; discriminate. Qed.
Lemma oxide_elems : forall i e, nth_error oxides i = Some e -> ReactionModel.elems mno (e_comp e) <> [].
Proof. intros [|[|[|[|i]]]] e H; cbn in H; try (injection H as <-; discriminate); destruct i; discriminate. Qed.
Lemma oxide_rxns : of_entries oxides split_up /\ of_entries oxides comproportion.
Proof. split; (eexists; split; [reflexivity|]; split; [reflexivity|]; intros e I; cbn in I; repeat (destruct I as [<-|I]; [reflexivity|]); destruct I). Qed.
Lemma oxide_names : names_entries oxides split_up /\ names_entries oxides comproportion.
Proof. split; (split; [discriminate|]; intros e k I; cbn in I; repeat (destruct I as [I|I]; [injection I as <- <-; eexists; split; reflexivity|]); destruct I). Qed.
Lemma oxide_once : forall i j a b, target comproportion i -> intermediate mno oxides [split_up] comproportion j -> nth_error oxides i = Some a -> nth_error oxides j = Some b -> red mno (e_comp b) = red mno (e_comp a) -> j = i \/ (e_energy a / natoms mno (e_comp a) < e_energy b / natoms mno (e_comp b))%Q.
Proof.
  intros i j a b _ _ Ea Eb. do 4 (destruct i as [|i]; [do 4 (destruct j as [|j]; [cbn in Ea, Eb; injection Ea as <-; injection Eb as <-; vm_compute; intros; try (left; reflexivity); discriminate|]); destruct j; discriminate|]). destruct i; discriminate.
Qed.
Lemma oxide_target : exists t, target comproportion t.
Proof. exists 2, (warm 2 (-4)), 3%Q. split; [right; right; left; reflexivity|]. split; [reflexivity|reflexivity]. Qed.
Lemma oxide_sharp : forall targets mids xs, targets_of comproportion = Ok targets -> intermediates mno (fun l => l) oxides [split_up] targets = Ok mids ->
  enumerated mno (with_index oxides) (entry_solve mno (with_index oxides)) (entry_rank mno (with_index oxides)) (fun k => k) RxnSetCheck.lifo_any mids
    {| en_options := default_options 10 10; en_precursors := []; en_targets := map e_id targets; en_open := None; en_duplicates := false |} = Ok xs -> sharp (map (set_rxn mno) xs).
Proof.
  intros targets mids xs Et Em Ex. vm_compute in Et. injection Et as <-. vm_compute in Em. injection Em as <-.
  assert (D : exists xs, enumerated mno (with_index oxides) (entry_solve mno (with_index oxides)) (entry_rank mno (with_index oxides)) (fun k => k) RxnSetCheck.lifo_any [1; 3; 2; 0]
    {| en_options := default_options 10 10; en_precursors := []; en_targets := [2]; en_open := None; en_duplicates := false |} = Ok xs /\ told (map (set_rxn mno) xs) = true /\ Forall plain (map (set_rxn mno) xs)).
  { eexists. split; [vm_compute; reflexivity|]. split; [vm_compute; reflexivity|]. repeat (apply Forall_cons; [plain_rxn|]). apply Forall_nil. }
  destruct D as (xs' & Ex' & T & P). cbn [map e_id] in Ex. rewrite Ex' in Ex. injection Ex as <-. apply told_sharp; [apply Forall_forall; exact P|exact T].
Qed.

Ltac oxide_net K := unfold ReactionSpec.net in K; cbn [combine map app] in K; rewrite !sumQ_cons in K; cbn in K.
Ltac oxide_combination := split; [split; [reflexivity|]; intros e; do 2 (destruct e as [|e]; [vm_compute; reflexivity|]); apply mno_other; lia|].
(* Mn + MnO2 -> 2 MnO *)
Lemma oxide_only : only_combination mno [0; 3; 2] [(-1)%Q; (-1)%Q; 2%Q].
Proof.
  oxide_combination. split; [intros k [<-|[<-|[<-|[]]]]; vm_compute; discriminate|].
  intros w (L & H). destruct w as [|a [|b [|c [|]]]]; try discriminate. pose proof (H 0) as H0. pose proof (H 1) as H1. oxide_net H0. oxide_net H1. exists (- a)%Q. repeat constructor; lra.
Qed.
Lemma oxide_sides k : (0 < k)%Q -> LinSpec.sides 2 [(-1)%Q; (-1)%Q; k].
Proof. intros K [|[|[|i]]] q H; cbn in H; try (injection H as <-; split; intros; try lia; try reflexivity; exact K). destruct i; discriminate. Qed.
Lemma oxide_mid i : i < 4 -> intermediate mno oxides [split_up] comproportion i.
Proof.
  intros H. destruct i as [|i].
  - right. right. exists (warm 0 0), 0. split; reflexivity.
  - left. exists split_up. destruct i as [|[|[|i]]]; [exists (warm 1 (-10)), (-1)%Q|exists (warm 2 (-4)), 1%Q|exists (warm 3 (-54 # 10)), 1%Q|lia]; (split; [left; reflexivity|]; split; [cbn; tauto|reflexivity]).
Qed.
Lemma oxide_systems : exists els, NoDup els /\ 2 <= length els <= 9 /\ forall el, In el els <-> exists i e, In i [0; 3] /\ nth_error oxides i = Some e /\ In el (ReactionModel.elems mno (e_comp e)).
Proof.
  exists [0; 1]. split; [repeat constructor; cbn; intuition discriminate|]. split; [cbn; lia|]. intros el. split.
  - intros I. exists 3, (warm 3 (-54 # 10)). split; [right; left; reflexivity|]. split; [reflexivity|exact I].
  - intros (i & e & [<-|[<-|[]]] & Ee & I); injection Ee as <-; cbn in *; tauto.
Qed.
Lemma few_two a b : a <> b -> few [a; b].
Proof. intros H. split; [repeat constructor; cbn; intuition congruence|cbn; lia]. Qed.
Lemma few_one a : few [a].
Proof. split; [repeat constructor; intros []|cbn; lia]. Qed.
Lemma oxide_might : might_react mno oxides [split_up] comproportion [0; 3] [2].
Proof.
  split; [apply few_two; discriminate|]. split; [apply few_one|]. split; [intros i [<-|[<-|[]]] [H|[]]; discriminate|].
  split; [intros i I; apply oxide_mid; cbn in I; lia|]. split; [exists 2; split; [left; reflexivity|]; exists (warm 2 (-4)), 3%Q; split; [right; right; left; reflexivity|split; reflexivity]|]. exact oxide_systems.
Qed.
Lemma oxide_low : low mno 0 (combine [warm 0 0; warm 3 (-54 # 10); warm 2 (-4)] [(-1)%Q; (-1)%Q; 2%Q]).
Proof. vm_compute. reflexivity. Qed.
Lemma oxide_run : exists ys, int_run mno oxides [split_up] comproportion 0 = Ok ys /\ map (fun r => map (fun i => Qred (turnover r i)) [0; 1; 2; 3]) ys = [[-1; -1; 3; 0]; [-1; 0; 2; -1]]%Q.
Proof. eexists. split; [vm_compute; reflexivity|]. vm_compute. reflexivity. Qed.

(* Mn + 3 MnO2 -> 2 Mn2O3 *)
Lemma oxide_other : only_combination mno [0; 3; 1] [(-1)%Q; (-3)%Q; 2%Q].
Proof.
  oxide_combination. split; [intros k [<-|[<-|[<-|[]]]]; vm_compute; discriminate|].
  intros w (L & H). destruct w as [|a [|b [|c [|]]]]; try discriminate. pose proof (H 0) as H0. pose proof (H 1) as H1. oxide_net H0. oxide_net H1. exists (- a)%Q. repeat constructor; lra.
Qed.
Lemma oxide_other_sides : LinSpec.sides 2 [(-1)%Q; (-3)%Q; 2%Q].
Proof. intros [|[|[|i]]] q H; cbn in H; try (injection H as <-; split; intros; lia || reflexivity). destruct i; discriminate. Qed.
Lemma oxide_missed : exists ys, int_run mno oxides [split_up] comproportion 0 = Ok ys /\ forall y, In y ys -> (turnover y 1 <= 0)%Q.
Proof. eexists. split; [vm_compute; reflexivity|]. intros y I. cbn in I. one_of I; vm_compute; discriminate. Qed.

(* --- with a second phase of MnO, number 4, which is less stable: Mn2O3 -> MnO + MnO2 makes it --- *)
Definition polymorphs : list entry := oxides ++ [{| e_id := 4; e_comp := 2; e_energy := (-3)%Q |}].
Definition between_polymorphs (l : list nat) (ks : list Q) : rxn := RComputed (computed_init mno (map (with_index polymorphs) l) ks None).
Definition split_off : rxn := between_polymorphs [1; 4; 3] [-1; 1; 1]%Q.
Definition together_again : rxn := between_polymorphs [0; 1; 2] [-1; -1; 3]%Q.
Lemma poly_ids : forall i e, nth_error polymorphs i = Some e -> e_id e = i.
Proof. intros [|[|[|[|[|i]]]]] e H; cbn in H; try (injection H as <-; reflexivity); destruct i; discriminate. Qed.
Lemma poly_elems : forall i e, nth_error polymorphs i = Some e -> ReactionModel.elems mno (e_comp e) <> [].
Proof. intros [|[|[|[|[|i]]]]] e H; cbn in H; try (injection H as <-; discriminate); destruct i; discriminate. Qed.
Lemma poly_rxns : of_entries polymorphs split_off /\ of_entries polymorphs together_again.
Proof. split; (eexists; split; [reflexivity|]; split; [reflexivity|]; intros e I; cbn in I; repeat (destruct I as [<-|I]; [reflexivity|]); destruct I). Qed.
Lemma poly_names : names_entries polymorphs split_off /\ names_entries polymorphs together_again.
Proof. split; (split; [discriminate|]; intros e k I; cbn in I; repeat (destruct I as [I|I]; [injection I as <- <-; eexists; split; reflexivity|]); destruct I). Qed.
Lemma poly_target : target together_again 2.
Proof. exists (warm 2 (-4)), 3%Q. split; [right; right; left; reflexivity|]. split; reflexivity. Qed.
Lemma poly_lowest : forall i j a b, target together_again i -> intermediate mno polymorphs [split_off] together_again j -> nth_error polymorphs i = Some a -> nth_error polymorphs j = Some b -> red mno (e_comp b) = red mno (e_comp a) -> j = i \/ (e_energy a / natoms mno (e_comp a) < e_energy b / natoms mno (e_comp b))%Q.
Proof.
  intros i j a b (e & k & I & Hk & Ei) _ Ea Eb. assert (i = 2) as ->.
  { cbn in I. repeat (destruct I as [I|I]; [injection I as <- <-; first [rewrite <- Ei; reflexivity|vm_compute in Hk; discriminate]|]). destruct I. }
  injection Ea as <-. do 5 (destruct j as [|j]; [cbn in Eb; injection Eb as <-; vm_compute; intros; try (left; reflexivity); first [discriminate|right; reflexivity]|]). destruct j; discriminate.
Qed.
Lemma poly_sharp : forall targets mids xs, targets_of together_again = Ok targets -> intermediates mno (fun l => l) polymorphs [split_off] targets = Ok mids ->
  enumerated mno (with_index polymorphs) (entry_solve mno (with_index polymorphs)) (entry_rank mno (with_index polymorphs)) (fun k => k) RxnSetCheck.lifo_any mids
    {| en_options := default_options 10 10; en_precursors := []; en_targets := map e_id targets; en_open := None; en_duplicates := false |} = Ok xs -> sharp (map (set_rxn mno) xs).
Proof.
  intros targets mids xs Et Em Ex. vm_compute in Et. injection Et as <-. vm_compute in Em. injection Em as <-.
  assert (D : exists xs, enumerated mno (with_index polymorphs) (entry_solve mno (with_index polymorphs)) (entry_rank mno (with_index polymorphs)) (fun k => k) RxnSetCheck.lifo_any [1; 4; 3; 2; 0]
    {| en_options := default_options 10 10; en_precursors := []; en_targets := [2]; en_open := None; en_duplicates := false |} = Ok xs /\ told (map (set_rxn mno) xs) = true /\ Forall plain (map (set_rxn mno) xs)).
  { eexists. split; [vm_compute; reflexivity|]. split; [vm_compute; reflexivity|]. repeat (apply Forall_cons; [plain_rxn|]). apply Forall_nil. }
  destruct D as (xs' & Ex' & T & P). cbn [map e_id] in Ex. rewrite Ex' in Ex. injection Ex as <-. apply told_sharp; [apply Forall_forall; exact P|exact T].
Qed.
Lemma poly_mid i : i < 5 -> intermediate mno polymorphs [split_off] together_again i.
Proof.
  intros H. destruct i as [|[|[|i]]].
  - right. right. exists (warm 0 0), 0. split; reflexivity.
  - left. exists split_off, (warm 1 (-10)), (-1)%Q. split; [left; reflexivity|]. split; [cbn; tauto|reflexivity].
  - right. left. exact poly_target.
  - left. exists split_off. destruct i as [|[|i]]; [exists (warm 3 (-54 # 10)), 1%Q|exists {| e_id := 4; e_comp := 2; e_energy := (-3)%Q |}, 1%Q|lia]; (split; [left; reflexivity|]; split; [cbn; auto|reflexivity]).
Qed.
Lemma poly_systems l : In 3 l \/ In 4 l -> (forall i, In i l -> i < 5) -> exists els, NoDup els /\ 2 <= length els <= 9 /\ forall el, In el els <-> exists i e, In i l /\ nth_error polymorphs i = Some e /\ In el (ReactionModel.elems mno (e_comp e)).
Proof.
  intros H L. exists [0; 1]. split; [repeat constructor; cbn; intuition discriminate|]. split; [cbn; lia|]. intros el. split.
  - intros I. destruct H as [H|H]; [exists 3|exists 4]; (eexists; split; [exact H|]; split; [reflexivity|exact I]).
  - intros (i & e & I & Ee & J). specialize (L i I). do 5 (destruct i as [|i]; [cbn in Ee; injection Ee as <-; cbn in *; tauto|]). lia.
Qed.
Lemma poly_might : might_react mno polymorphs [split_off] together_again [0; 3] [2].
Proof.
  split; [apply few_two; discriminate|]. split; [apply few_one|]. split; [intros i [<-|[<-|[]]] [H|[]]; discriminate|].
  split; [intros i I; apply poly_mid; cbn in I; lia|]. split; [exists 2; split; [left; reflexivity|exact poly_target]|]. apply poly_systems; [left; right; left; reflexivity|]. intros i I. cbn in I. lia.
Qed.
Lemma poly_change : might_react mno polymorphs [split_off] together_again [4] [2].
Proof.
  split; [apply few_one|]. split; [apply few_one|]. split; [intros i [<-|[]] [H|[]]; discriminate|].
  split; [intros i I; apply poly_mid; cbn in I; lia|]. split; [exists 2; split; [left; reflexivity|exact poly_target]|]. apply poly_systems; [right; left; reflexivity|]. intros i I. cbn in I. lia.
Qed.
Lemma poly_change_only : only_combination mno [2; 2] [(-1)%Q; 1%Q].
Proof.
  oxide_combination. split; [intros k [<-|[<-|[]]]; vm_compute; discriminate|].
  intros w (L & H). destruct w as [|a [|b [|]]]; try discriminate. pose proof (H 0) as H0. oxide_net H0. exists (- a)%Q. repeat constructor; lra.
Qed.
Lemma poly_change_sides : LinSpec.sides 1 [(-1)%Q; 1%Q].
Proof. intros [|[|i]] q H; cbn in H; try (injection H as <-; split; intros; lia || reflexivity). destruct i; discriminate. Qed.
Lemma poly_run : exists ys, int_run mno polymorphs [split_off] together_again 0 = Ok ys /\ map (fun r => map (fun i => Qred (turnover r i)) [0; 1; 2; 3; 4]) ys = [[-1; 0; 2; -1; 0]; [-1; -1; 3; 0; 0]]%Q.
Proof. eexists. split; [vm_compute; reflexivity|]. vm_compute. reflexivity. Qed.
Lemma poly_unchanged cutoff : In cutoff [0; 1]%Q -> exists ys, int_run mno polymorphs [split_off] together_again cutoff = Ok ys /\ forall y, In y ys -> (0 <= turnover y 4)%Q.
Proof. intros [<-|[<-|[]]]; (eexists; split; [vm_compute; reflexivity|]; intros y I; cbn in I; one_of I; vm_compute; discriminate). Qed.
