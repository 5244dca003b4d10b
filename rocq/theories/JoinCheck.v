(* Concrete runs of enumeration followed by the search for pathways. *)
From Coq Require Import Lqa.
From Verif Require Import Prelude NumQ SumQ UtilsModel UtilsSpec ReactionModel ReactionSpec ReactionBalanceProofs ChemTable EnumModel EnumSpec EnumLinkModel EnumCheck RxnSetModel RxnSetSpec RxnSetCheck LinModel LinSpec LinProofs LinBalanceProofs LinCheck
  NetModel YenModel FlowModel NetJobModel NetJobCheck ShortestPath RunModel ChainCheck JoinModel JoinSpec.
Open Scope list_scope.
Open Scope nat_scope.

Definition open_enumerator (n : nat) : enumerator := {| en_options := mn_options n; en_precursors := []; en_targets := []; en_open := None; en_duplicates := true |}.
Definition found (C : chem) (entries : list nat) (en : enumerator) : result (list object) :=
  enumerated C plain_entry (entry_solve C plain_entry) (entry_rank C plain_entry) (fun k => k) lifo_any entries en.
Definition join_run (C : chem) (ens : list enumerator) (entries : list nat) (mk : network_maker) :=
  enumerate_and_search C plain_entry (entry_solve C plain_entry) (entry_rank C plain_entry) (fun k => k) arrange argsort (fun l => l) lifo_any 3 lifo_any (fun _ => 0%Q) unit_cost (fun weight => search weight) ens entries mk.
Definition steps_of (p : list (payload * Q)) : list nat := map (fun pc => match fst pc with Rxn n => n_id n | _ => 9 end) p.

(* --- a criterion for sharpness --- *)
Definition opposed (r r' : srxn) : bool :=
  existsb (fun ec => existsb (fun ec' => (uid (fst ec) =? uid (fst ec')) && (comp (fst ec) =? comp (fst ec')) && (form (fst ec) =? form (fst ec')) && Qle_bool (snd ec / snd ec') (-1 # 1000)) (combine (x_entries r') (x_coeffs r'))) (combine (x_entries r) (x_coeffs r)).
Definition lacks (r r' : srxn) : bool := existsb (fun e => negb (existsb (fun e' => uid e =? uid e') (x_entries r'))) (x_entries r).

Lemma sharp_told rs : (forall r, In r rs -> plain r) ->
  (forall r r', In r rs -> In r' rs -> r = r' \/ lacks r r' = true \/ lacks r' r = true \/ opposed r r' = true) -> sharp rs.
Proof.
  intros P A r r' I I' (l & e0 & x0 & y0 & Al & _ & Hl). assert (L : forall a b, In a rs -> In b rs -> lacks a b = true -> (exists l', aligned a b l') -> False).
  { intros a b Ia Ib H (l' & Al'). apply existsb_exists in H as (e & Ie & He). apply negb_true_iff in He. rewrite <- not_true_iff_false in He. apply He. apply existsb_exists. exists e.
    split; [exact (aligned_in a b l' e Al' (P a Ia) (P b Ib) Ie)|apply Nat.eqb_refl]. }
  destruct (A r r' I I') as [->|[H|[H|H]]]; [apply self_multiples| | |]; exfalso.
  - exact (L r r' I I' H (ex_intro _ l Al)).
  - exact (L r' r I' I H (aligned_back r r' l Al)).
  - apply existsb_exists in H as ([e c] & H1 & H). apply existsb_exists in H as ([e' c'] & H2 & H). cbn [fst snd] in H. rewrite !andb_true_iff in H. destruct H as (((U & Co) & Fo) & Q1).
    assert (e = e') as <- by (apply Nat.eqb_eq in U, Co, Fo; destruct e, e'; cbn in *; subst; reflexivity). apply Qle_bool_iff in Q1. destruct Al as (A1 & A2).
    pose proof (Permutation_in _ (Permutation_sym A1) H1) as G. apply in_map_iff in G as ([[e1 x] y] & E & G). cbn in E. injection E as -> ->.
    assert (G2 : In (e, y) (combine (x_entries r') (x_coeffs r'))) by (apply (Permutation_in _ A2); apply in_map_iff; exists (e, c, y); split; [reflexivity|exact G]).
    assert (Ey : y = c').
    { destruct (P r' I') as (N & Ln & _). clear - N Ln G2 H2. revert N Ln G2 H2. generalize (x_coeffs r'). induction (x_entries r') as [|a es IH]; intros [|k ks] N Ln G2 H2; cbn in *; try contradiction; try discriminate.
      inversion N as [|? ? N1 N2]; subst. destruct G2 as [G2|G2], H2 as [H2|H2].
      - congruence.
      - injection G2 as -> ->. contradiction N1. exact (in_combine_l _ _ _ _ H2).
      - injection H2 as -> ->. contradiction N1. exact (in_combine_l _ _ _ _ G2).
      - exact (IH ks N2 ltac:(lia) G2 H2). }
    subst y. specialize (Hl e c c' G). revert Hl Q1. generalize (c / c')%Q. intros q. pose proof (Qabs_nonneg (x0 / y0)) as Z. revert Z. generalize (Qabs (x0 / y0)). intros z Z Hl Q1.
    rewrite (Qabs_neg q), (Qabs_pos (z - q)) in Hl by lra. lra.
Qed.
Definition told (rs : list srxn) : bool := forallb (fun i => forallb (fun j => (i =? j) ||
  match nth_error rs i, nth_error rs j with Some r, Some r' => lacks r r' || lacks r' r || opposed r r' | _, _ => false end) (seq 0 (length rs))) (seq 0 (length rs)).
Lemma told_sharp rs : (forall r, In r rs -> plain r) -> told rs = true -> sharp rs.
Proof.
  intros P T. apply sharp_told; [exact P|]. intros r r' I I'. apply In_nth_error in I as (i & Hi), I' as (j & Hj). unfold told in T. rewrite forallb_forall in T.
  assert (Li : i < length rs) by (apply nth_error_Some; congruence). assert (Lj : j < length rs) by (apply nth_error_Some; congruence).
  specialize (T i ltac:(apply in_seq; lia)). rewrite forallb_forall in T. specialize (T j ltac:(apply in_seq; lia)). rewrite Hi, Hj in T. rewrite !orb_true_iff in T. destruct T as [T|[[T|T]|T]]; auto.
  left. apply Nat.eqb_eq in T. subst j. congruence.
Qed.

Ltac within_list := repeat first [apply subseq_take | apply subseq_skip | apply subseq_nil].

(* --- the manganese oxides --- *)
Definition four := [0; 1; 2; 3].
Lemma mn_reacts : reacts mno plain_entry four [open_enumerator 1] [0; 1] [2].
Proof.
  split; [|exact mn_determined]. exists (open_enumerator 1). split; [left; reflexivity|]. split; [split; (split; [within_list|cbn; lia])|].
  split; [intros x [<-|[<-|[]]] [H|[]]; discriminate|]. split; [exact (mn_system 1)|]. split; left; reflexivity.
Qed.
Lemma found_one C entries en xs0 : found C entries en = Ok xs0 -> forall outs, Forall2 (fun en xs => found C entries en = Ok xs) [en] outs -> concat outs = xs0.
Proof.
  intros E outs F. inversion F as [|a b la lb H F']; subst. inversion F'; subst. cbn. rewrite app_nil_r. congruence.
Qed.
Lemma mn_sharp : forall outs, Forall2 (fun en xs => found mno four en = Ok xs) [open_enumerator 1] outs -> sharp (map (set_rxn mno) (concat outs)).
Proof.
  intros outs F. assert (D : exists xs, found mno four (open_enumerator 1) = Ok xs /\ told (map (set_rxn mno) xs) = true /\ Forall plain (map (set_rxn mno) xs)).
  { eexists. split; [vm_compute; reflexivity|]. split; [vm_compute; reflexivity|]. repeat (apply Forall_cons; [plain_rxn|]). apply Forall_nil. }
  destruct D as (xs & E & T & P). rewrite (found_one _ _ _ _ E outs F). apply told_sharp; [apply Forall_forall; exact P|exact T].
Qed.
Lemma mn_join : exists w rs ps, join_run mno [open_enumerator 1] four (maker (Some [0; 1]) (Some [2]) 5) = Ok (w, rs, Some ps) /\ length rs = 8 /\ map steps_of ps = [[5]; [2]; [0; 7]; [2; 7]; [0; 1; 2]].
Proof. do 3 eexists. split; [vm_compute; reflexivity|]. split; reflexivity. Qed.

(* --- two phases of manganese --- *)
Definition poly_entry (i : nat) : entry := {| e_id := i; e_comp := i mod 4; e_energy := inject_Z (Z.of_nat i) |}.
Definition poly_epa (i : nat) : Q := (e_energy (poly_entry i) / natoms mno (e_comp (poly_entry i)))%Q.
Definition poly_found := enumerated mno poly_entry (entry_solve mno poly_entry) (entry_rank mno poly_entry) (fun k => k) lifo_any [0; 1; 2; 3; 4] (open_enumerator 1).
Lemma poly_stable : most_stable mno poly_entry poly_epa [0; 1; 2; 3; 4] [0; 1; 2].
Proof.
  intros i j I J E. repeat (destruct I as [<-|I]; [repeat (destruct J as [<-|J]; [first [left; reflexivity | discriminate E | right; vm_compute; reflexivity]|]); destruct J|]). destruct I.
Qed.
Lemma poly_determined : determined mno (formula mno poly_entry) [0; 1] [2].
Proof. destruct mn_determined as (N & v & H). split; [exact N|]. exists v. exact H. Qed.
Lemma poly_reacts : reacts mno poly_entry [0; 1; 2; 3; 4] [open_enumerator 1] [0; 1] [2].
Proof.
  split; [|exact poly_determined]. exists (open_enumerator 1). split; [left; reflexivity|]. split; [split; (split; [within_list|cbn; lia])|].
  split; [intros x [<-|[<-|[]]] [H|[]]; discriminate|]. split; [|split; left; reflexivity]. exists [0; 1]. split; [|split; [cbn; lia|intros f H; discriminate]]. split; [repeat constructor; lia|].
  intros x. cbn. split.
  - intros [<-|[<-|[]]]; left; exists 1; (split; [auto|cbn; auto]).
  - intros [(e & [<-|[<-|[]]] & Hx)|[]]; cbn in Hx; tauto.
Qed.
Lemma poly_sharp : forall outs, Forall2 (fun en xs => enumerated mno poly_entry (entry_solve mno poly_entry) (entry_rank mno poly_entry) (fun k => k) lifo_any [0; 1; 2; 3; 4] en = Ok xs) [open_enumerator 1] outs
  -> sharp (map (set_rxn mno) (concat outs)).
Proof.
  intros outs F. assert (D : exists xs, poly_found = Ok xs /\ told (map (set_rxn mno) xs) = true /\ Forall plain (map (set_rxn mno) xs)).
  { eexists. split; [vm_compute; reflexivity|]. split; [vm_compute; reflexivity|]. repeat (apply Forall_cons; [plain_rxn|]). apply Forall_nil. }
  destruct D as (xs & E & T & P). inversion F as [|a b la lb H F']; subst. inversion F'; subst. unfold poly_found in E. rewrite E in H. injection H as <-. cbn [concat]. rewrite app_nil_r.
  apply told_sharp; [apply Forall_forall; exact P|exact T].
Qed.
Lemma poly_run : exists w rs ps, enumerate_and_search mno poly_entry (entry_solve mno poly_entry) (entry_rank mno poly_entry) (fun k => k) arrange argsort (fun l => l) lifo_any 3 lifo_any poly_epa unit_cost (fun weight => search weight)
    [open_enumerator 1] [0; 1; 2; 3; 4] (maker (Some [0; 1]) (Some [2]) 5) = Ok (w, rs, Some ps) /\ length rs = 14 /\ map steps_of ps = [[3]; [12]; [4; 7]; [0; 9]; [0; 7]].
Proof. do 3 eexists. split; [vm_compute; reflexivity|]. split; reflexivity. Qed.

(* --- two branches: A + B -> AB, D + E -> DE, AB + DE -> ABDE --- *)
Definition branch_rows : list chem_row := [([(0, 1%Q)], 0, 1%Q); ([(1, 1%Q)], 1, 1%Q); ([(2, 1%Q)], 2, 1%Q); ([(3, 1%Q)], 3, 1%Q); ([(0, 1%Q); (1, 1%Q)], 4, 1%Q); ([(2, 1%Q); (3, 1%Q)], 5, 1%Q);
  ([(0, 1%Q); (1, 1%Q); (2, 1%Q); (3, 1%Q)], 6, 1%Q)].
Definition branching : chem := table_chem branch_rows.
Definition seven := [0; 1; 2; 3; 4; 5; 6].
Lemma branching_wf : wf_chem branching.
Proof. apply table_ok_wf. vm_compute. reflexivity. Qed.
Lemma branching_big : forall c e, In e (ReactionModel.elems branching c) -> (1 # 100 < amt branching (red branching c) e)%Q.
Proof.
  intros c e H. do 7 (destruct c as [|c]; [cbn in H; repeat (destruct H as [<-|H]; [vm_compute; reflexivity|]); destruct H|]). cbn in H. destruct c; destruct H.
Qed.
Lemma branching_other l e : 4 <= e -> (ReactionSpec.net branching l e == 0)%Q.
Proof.
  intros H. apply (net_unlisted branching branching_wf). intros I. apply in_flat_map in I as (c & _ & I).
  do 7 (destruct c as [|c]; [cbn in I; repeat (destruct I as [<-|I]; [lia|]); destruct I|]). cbn in I. destruct c; destruct I.
Qed.
Lemma joins_only a b c : In (a, b, c) [(0, 1, 4); (2, 3, 5); (4, 5, 6)] -> determined branching (formula branching plain_entry) [a; b] [c].
Proof.
  intros H. split; [repeat (destruct H as [H|H]; [injection H as <- <- <-; repeat constructor; cbn; intuition discriminate|]); destruct H|].
  exists [(-1)%Q; (-1)%Q; 1%Q]. split; [|cbn [length]; intros [|[|[|i]]] k K; cbn in K; try (injection K as <-; split; intros; lia || reflexivity); destruct i; discriminate].
  split; [|split].
  - split; [reflexivity|]. intros e. repeat (destruct H as [H|H]; [injection H as <- <- <-; do 4 (destruct e as [|e]; [vm_compute; reflexivity|]); apply branching_other; lia|]). destruct H.
  - intros k [<-|[<-|[<-|[]]]]; vm_compute; discriminate.
  - intros w (L & K). destruct w as [|x [|y [|z [|]]]]; try discriminate. exists z. pose proof (K 0) as K0. pose proof (K 1) as K1. pose proof (K 2) as K2. pose proof (K 3) as K3.
    unfold ReactionSpec.net in K0, K1, K2, K3. repeat (destruct H as [H|H]; [injection H as <- <- <-; cbn [combine map app] in K0, K1, K2, K3; rewrite !sumQ_cons in K0, K1, K2, K3; cbn in K0, K1, K2, K3; repeat constructor; lra|]). destruct H.
Qed.
Lemma branch_reacts a b c : In (a, b, c) [(0, 1, 4); (2, 3, 5); (4, 5, 6)] -> reacts branching plain_entry seven [open_enumerator 1] [a; b] [c].
Proof.
  intros H. split; [|exact (joins_only a b c H)]. exists (open_enumerator 1). split; [left; reflexivity|].
  repeat (destruct H as [H|H]; [injection H as <- <- <-; (split; [split; (split; [within_list|cbn; lia])|]);
    (split; [intros x [<-|[<-|[]]] [H|[]]; discriminate|]); (split; [|split; left; reflexivity])|]); [| | |destruct H].
  - exists [0; 1]. split; [|split; [cbn; lia|intros f H; discriminate]]. split; [repeat constructor; lia|]. intros x. cbn. split.
    + intros [<-|[<-|[]]]; left; [exists 0|exists 1]; split; auto; cbn; auto.
    + intros [(e & [<-|[<-|[]]] & Hx)|[]]; cbn in Hx; tauto.
  - exists [2; 3]. split; [|split; [cbn; lia|intros f H; discriminate]]. split; [repeat constructor; lia|]. intros x. cbn. split.
    + intros [<-|[<-|[]]]; left; [exists 2|exists 3]; split; auto; cbn; auto.
    + intros [(e & [<-|[<-|[]]] & Hx)|[]]; cbn in Hx; tauto.
  - exists [0; 1; 2; 3]. split; [|split; [cbn; lia|intros f H; discriminate]]. split; [repeat constructor; lia|]. intros x. cbn. split.
    + intros [<-|[<-|[<-|[<-|[]]]]]; left; [exists 4|exists 4|exists 5|exists 5]; split; auto; cbn; auto.
    + intros [(e & [<-|[<-|[]]] & Hx)|[]]; cbn in Hx; tauto.
Qed.
Lemma branch_sharp : forall outs, Forall2 (fun en xs => found branching seven en = Ok xs) [open_enumerator 1] outs -> sharp (map (set_rxn branching) (concat outs)).
Proof.
  intros outs F. assert (D : exists xs, found branching seven (open_enumerator 1) = Ok xs /\ told (map (set_rxn branching) xs) = true /\ Forall plain (map (set_rxn branching) xs)).
  { eexists. split; [vm_compute; reflexivity|]. split; [vm_compute; reflexivity|]. repeat (apply Forall_cons; [plain_rxn|]). apply Forall_nil. }
  destruct D as (xs & E & T & P). rewrite (found_one _ _ _ _ E outs F). apply told_sharp; [apply Forall_forall; exact P|exact T].
Qed.
Lemma branch_obtainable : obtainable (reacts branching plain_entry seven [open_enumerator 1]) four 6.
Proof.
  assert (G : forall i, In i four -> obtainable (reacts branching plain_entry seven [open_enumerator 1]) four i) by (intros i H; apply given_phase; exact H).
  apply (made_phase _ _ [4; 5] [6]); [apply branch_reacts; right; right; left; reflexivity| |left; reflexivity]. intros j [<-|[<-|[]]].
  - apply (made_phase _ _ [0; 1] [4]); [apply branch_reacts; left; reflexivity| |left; reflexivity]. intros j H. apply G. cbn in *. tauto.
  - apply (made_phase _ _ [2; 3] [5]); [apply branch_reacts; right; left; reflexivity| |left; reflexivity]. intros j H. apply G. cbn in *. tauto.
Qed.
Lemma branch_run : exists w rs, join_run branching [open_enumerator 1] seven (maker (Some four) (Some [6]) 5) = Ok (w, rs, Some []) /\ length rs = 6.
Proof. do 2 eexists. split; [vm_compute; reflexivity|]. reflexivity. Qed.
