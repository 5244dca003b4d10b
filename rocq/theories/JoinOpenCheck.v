(* Concrete runs with open phases: LiMnO2 from Li2CO3 and MnO, which takes O2 from the air and
   gives CO2 off. *)
From Coq Require Import Lqa.
From Verif Require Import Prelude NumQ SumQ UtilsModel UtilsSpec ReactionModel ReactionSpec ReactionBalanceProofs ChemTable EnumModel EnumSpec EnumLinkModel EnumCheck RxnSetModel RxnSetSpec RxnSetCheck LinModel LinSpec LinProofs LinBalanceProofs LinCheck
  NetModel YenModel FlowModel NetJobModel NetJobCheck ShortestPath RunModel ChainCheck JoinModel JoinSpec JoinOpenSpec JoinOpenProofs JoinCheck.
Open Scope list_scope.
Open Scope nat_scope.

(* Li2CO3, MnO, O2, LiMnO2 and CO2; the elements are Li, C, O and Mn *)
Definition limno_table : list chem_row := [([(0, 2%Q); (1, 1%Q); (2, 3%Q)], 0, 1%Q); ([(2, 1%Q); (3, 1%Q)], 1, 1%Q); ([(2, 2%Q)], 2, 1%Q);
  ([(0, 1%Q); (2, 2%Q); (3, 1%Q)], 3, 1%Q); ([(1, 1%Q); (2, 2%Q)], 4, 1%Q)].
Definition limno : chem := table_chem limno_table.
Definition five := [0; 1; 2; 3; 4].
(* from Li2CO3 and MnO to LiMnO2 with at most two phases besides the open ones *)
Definition synthesis (phases : option (list nat)) : enumerator :=
  {| en_options := mn_options 1; en_precursors := [0; 1]; en_targets := [3]; en_open := phases; en_duplicates := true |}.
Lemma limno_wf : wf_chem limno.
Proof. apply table_ok_wf. vm_compute. reflexivity. Qed.
Lemma limno_big : forall c e, In e (ReactionModel.elems limno c) -> (1 # 100 < amt limno (red limno c) e)%Q.
Proof.
  intros c e H. do 5 (destruct c as [|c]; [cbn in H; repeat (destruct H as [<-|H]; [vm_compute; reflexivity|]); destruct H|]). cbn in H. destruct c; destruct H.
Qed.
Lemma limno_other l e : 4 <= e -> (ReactionSpec.net limno l e == 0)%Q.
Proof.
  intros H. apply (net_unlisted limno limno_wf). intros I. apply in_flat_map in I as (c & _ & I).
  do 5 (destruct c as [|c]; [cbn in I; repeat (destruct I as [<-|I]; [lia|]); destruct I|]). cbn in I. destruct c; destruct I.
Qed.

(* 2 Li2CO3 + 4 MnO + O2 -> 4 LiMnO2 + 2 CO2 *)
Lemma limno_determined : determined limno (fun i => red limno (e_comp (plain_entry i))) [0; 1; 2] [3; 4].
Proof.
  split; [repeat constructor; cbn; intuition discriminate|]. exists [(-2)%Q; (-4)%Q; (-1)%Q; 4%Q; 2%Q]. split.
  - split; [|split].
    + split; [reflexivity|]. intros e. do 4 (destruct e as [|e]; [vm_compute; reflexivity|]). apply limno_other. lia.
    + intros k [<-|[<-|[<-|[<-|[<-|[]]]]]]; vm_compute; discriminate.
    + intros w (L & K). destruct w as [|a [|b [|c [|d [|f [|]]]]]]; try discriminate. exists (- c)%Q.
      pose proof (K 0) as K0. pose proof (K 1) as K1. pose proof (K 2) as K2. pose proof (K 3) as K3.
      unfold ReactionSpec.net in K0, K1, K2, K3. cbn [combine map app] in K0, K1, K2, K3. rewrite !sumQ_cons in K0, K1, K2, K3. cbn in K0, K1, K2, K3. repeat constructor; lra.
  - cbn [length]. intros [|[|[|[|[|i]]]]] k K; cbn in K; try (injection K as <-; split; intros; lia || reflexivity). destruct i; discriminate.
Qed.

Lemma limno_solids phases n c : subseq c five -> 1 <= length c <= n -> (forall i, In i c -> ~ In i phases) -> incl c five -> solids limno plain_entry five phases n c.
Proof.
  intros S L H I. split; [exact S|]. split; [exact L|]. intros i Hi G. apply (H i Hi). unfold gaseous in G. specialize (I i Hi).
  repeat (destruct I as [<-|I]; [exact G|]). destruct I.
Qed.
Lemma limno_gas : with_gas limno plain_entry five [2] 2 [3; 4] [0; 1; 2].
Proof.
  split; [apply limno_solids; [unfold five; within_list|cbn; lia|cbn; intuition congruence|cbn; intros i; cbn; tauto]|].
  exists [0; 1], [2]. split; [apply limno_solids; [unfold five; within_list|cbn; lia|cbn; intuition congruence|cbn; intros i; cbn; tauto]|].
  split; [|reflexivity]. split; [unfold five; within_list|]. split; [discriminate|]. intros i [<-|[]]. left. reflexivity.
Qed.
Lemma limno_spans : spans limno plain_entry five [2] None [0; 1; 2].
Proof.
  exists [0; 1; 2; 3]. split; [repeat constructor; cbn; intuition discriminate|]. split; [cbn; lia|]. split; [discriminate|]. intros x. split.
  - intros [<-|[<-|[<-|[<-|[]]]]]; [exists 0|exists 0|exists 0|exists 1]; (split; [left; cbn; tauto|cbn; tauto]).
  - intros (i & [I|(I & G)] & E).
    + repeat (destruct I as [<-|I]; [cbn in E; cbn; tauto|]). destruct I.
    + repeat (destruct I as [<-|I]; [cbn in E; cbn; tauto|]). destruct I.
Qed.

Lemma limno_sharp : forall outs, Forall2 (fun en xs => found limno five en = Ok xs) [synthesis None; synthesis (Some [2])] outs -> sharp (map (set_rxn limno) (concat outs)).
Proof.
  intros outs F. inversion F as [|? xs1 ? l1 E1 F1]; subst. inversion F1 as [|? xs2 ? l2 E2 F2]; subst. inversion F2; subst. clear F F1 F2.
  assert (D1 : found limno five (synthesis None) = Ok []) by (vm_compute; reflexivity).
  assert (D2 : exists xs, found limno five (synthesis (Some [2])) = Ok xs /\ told (map (set_rxn limno) xs) = true /\ Forall plain (map (set_rxn limno) xs)).
  { eexists. split; [vm_compute; reflexivity|]. split; [vm_compute; reflexivity|]. repeat (apply Forall_cons; [plain_rxn|]). apply Forall_nil. }
  rewrite D1 in E1. injection E1 as <-. destruct D2 as (xs & E & T & P). rewrite E in E2. injection E2 as <-. cbn. rewrite app_nil_r. apply told_sharp; [apply Forall_forall; exact P|exact T].
Qed.

Definition sides_found (xs : list srxn) : list (list nat * list Q) := map (fun x => (map uid (x_entries x), x_coeffs x)) xs.
Lemma limno_run : exists w rs ps, join_run limno [synthesis None; synthesis (Some [2])] five (maker (Some [0; 1; 2]) (Some [3]) 5) = Ok (w, rs, Some ps)
  /\ sides_found rs = [([3; 4; 0; 1; 2], [2%Q; 1%Q; (-1)%Q; (-2)%Q; (-1 # 2)%Q])] /\ map steps_of ps = [[0]].
Proof. do 3 eexists. split; [vm_compute; reflexivity|]. split; reflexivity. Qed.
Lemma limno_closed : join_run limno [synthesis None] five (maker (Some [0; 1; 2]) (Some [3]) 5) = Err ValueError.
Proof. vm_compute. reflexivity. Qed.
Lemma limno_both : join_run limno [synthesis None; synthesis (Some [2; 4])] five (maker (Some [0; 1; 2]) (Some [3]) 5) = Err ValueError.
Proof. vm_compute. reflexivity. Qed.

Lemma limno_precursors : allowed limno plain_entry [2] IsSuperset [0; 1] [0; 1; 2].
Proof. right. intros i [<-|[<-|[<-|[]]]]; [left; cbn; tauto|left; cbn; tauto|right; left; reflexivity]. Qed.
Lemma limno_target : allowed limno plain_entry [2] Intersection [3] [3; 4].
Proof. right. exists 3. split; [left; reflexivity|]. split; [left; reflexivity|]. intros [H|[]]. discriminate. Qed.
Lemma limno_covered : forall i, In i ([0; 1; 2] ++ [3]) -> exists r p, reacts limno plain_entry five [synthesis None; synthesis (Some [2])] r p /\ In i (r ++ p).
Proof.
  intros i I. exists [0; 1; 2], [3; 4]. split; [|cbn in I |- *; tauto]. split; [|exact limno_determined]. exists (synthesis (Some [2])). split; [right; left; reflexivity|].
  apply (gas_looks limno plain_entry five (synthesis (Some [2])) [2] eq_refl); [right; exact limno_gas|exact limno_spans|exact limno_precursors|exact limno_target|].
  intros x [<-|[<-|[<-|[]]]] [H|[H|[]]]; discriminate.
Qed.
Lemma limno_gases : exists C entries phases ens r p r1 r2 p1 p2, wf_chem C /\ (forall en, In en ens -> usable en) /\ (exists en, In en ens /\ en_open en = Some phases /\ o_n (en_options en) = 2)
  /\ r = r1 ++ r2 /\ p = p1 ++ p2 /\ solids C plain_entry entries phases 2 r1 /\ gases C plain_entry entries phases r2 /\ solids C plain_entry entries phases 2 p1 /\ gases C plain_entry entries phases p2
  /\ determined C (fun i => red C (e_comp (plain_entry i))) r p /\ In 3 p
  /\ join_run C ens entries (maker (Some r) (Some [3]) 5) = Err ValueError.
Proof.
  exists limno, five, [2; 4], [synthesis None; synthesis (Some [2; 4])], [0; 1; 2], [3; 4], [0; 1], [2], [3], [4]. split; [exact limno_wf|]. split; [intros en [<-|[<-|[]]]; repeat split; cbn; lia|].
  split; [exists (synthesis (Some [2; 4])); split; [right; left; reflexivity|split; reflexivity]|]. split; [reflexivity|]. split; [reflexivity|].
  split; [apply limno_solids; [unfold five; within_list|cbn; lia|cbn; intuition congruence|intros i; cbn; tauto]|].
  split; [split; [unfold five; within_list|]; split; [discriminate|]; intros i [<-|[]]; left; reflexivity|].
  split; [apply limno_solids; [unfold five; within_list|cbn; lia|cbn; intuition congruence|intros i; cbn; tauto]|].
  split; [split; [unfold five; within_list|]; split; [discriminate|]; intros i [<-|[]]; right; left; reflexivity|].
  split; [exact limno_determined|]. split; [left; reflexivity|exact limno_both].
Qed.
