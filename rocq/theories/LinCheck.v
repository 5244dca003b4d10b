(* Concrete data for C121: the manganese oxides. *)
From Coq Require Import Lqa.
From Verif Require Import Prelude NumQ SumQ UtilsModel UtilsSpec ReactionModel ReactionSpec ReactionBalanceProofs ChemTable EnumModel EnumSpec EnumLinkModel EnumCheck RxnSetCheck LinModel LinSpec LinProofs LinBalanceProofs.
Open Scope list_scope.
Open Scope nat_scope.

(* Mn, Mn2O3, MnO and MnO2 *)
Definition mn_table : list chem_row := [([(0, 1%Q)], 0, 1%Q); ([(0, 2%Q); (1, 3%Q)], 1, 1%Q); ([(0, 1%Q); (1, 1%Q)], 2, 1%Q); ([(0, 1%Q); (1, 2%Q)], 3, 1%Q)].
Definition mno : chem := table_chem mn_table.
Lemma mno_wf : wf_chem mno.
Proof. apply table_ok_wf. vm_compute. reflexivity. Qed.
Lemma mno_big : forall c e, In e (ReactionModel.elems mno c) -> (1 # 100 < amt mno (red mno c) e)%Q.
Proof.
  intros c e H. do 4 (destruct c as [|c]; [cbn in H; repeat (destruct H as [<-|H]; [vm_compute; reflexivity|]); destruct H|]). cbn in H. destruct c; destruct H.
Qed.

Lemma mno_other l e : 2 <= e -> (net mno l e == 0)%Q.
Proof.
  intros H. apply (net_unlisted mno mno_wf). intros I. apply in_flat_map in I as (c & _ & I).
  do 4 (destruct c as [|c]; [cbn in I; repeat (destruct I as [<-|I]; [lia|]); destruct I|]). cbn in I. destruct c; destruct I.
Qed.

(* Mn + Mn2O3 -> 3 MnO *)
Lemma mn_only : only_combination mno [0; 1; 2] [(-1)%Q; (-1)%Q; 3%Q].
Proof.
  split; [|split].
  - split; [reflexivity|]. intros e. do 2 (destruct e as [|e]; [vm_compute; reflexivity|]). apply mno_other. lia.
  - intros k [<-|[<-|[<-|[]]]]; vm_compute; discriminate.
  - intros w (L & H). destruct w as [|a [|b [|c [|]]]]; try discriminate. pose proof (H 0) as H0. pose proof (H 1) as H1.
    unfold net in H0, H1. cbn [combine] in H0, H1. rewrite !sumQ_cons in H0, H1. cbn in H0, H1. exists (- a)%Q. repeat constructor; lra.
Qed.
Lemma mn_sides : sides 2 [(-1)%Q; (-1)%Q; 3%Q].
Proof. intros [|[|[|i]]] k H; cbn in H; try (injection H as <-; split; intros; lia || reflexivity). destruct i; discriminate. Qed.
Definition mn_balanced : bool :=
  match exact_balance mno [0; 1] [2] with
  | Ok r => balanced r && match num_errors r with Some 0 => true | _ => false end && forallb (fun qq => Qeq_bool (fst qq) (snd qq)) (combine (coeffs r) [(-1#3)%Q; (-1#3)%Q; 1%Q])
  | Err _ => false
  end.

(* the enumerator on the four phases, with at most n degrees of freedom *)
Definition mn_options (n : nat) : options :=
  {| o_n := 2; o_pfunc := IsSuperset; o_tfunc := Intersection; o_chemsys := None; o_chunk := 7; o_jobs := 100;
     o_unbalanced := true; o_changed := true; o_constraints := n |}.
Definition mn_enumerate (n : nat) : result (list erxn) :=
  enumerate_rxns (fun i => ReactionModel.elems mno (e_comp (plain_entry i))) basic_iterable basic_iter_length
    (basic_react (forward_rxn mno plain_entry (entry_solve mno plain_entry) (entry_rank mno plain_entry))
                 (backward_rxn mno plain_entry (entry_solve mno plain_entry) (entry_rank mno plain_entry)))
    (fun k => k) (mn_options n) [0; 1; 2; 3] [] [] [] [] lifo_any.
Definition mn_found (n : nat) : list (list nat * list nat) :=
  match mn_enumerate n with Ok l => map (fun x => (er_reactants x, er_products x)) l | Err _ => [] end.
Lemma mn_determined : determined mno (formula mno plain_entry) [0; 1] [2].
Proof.
  split; [|exists [(-1)%Q; (-1)%Q; 3%Q]; split; [exact mn_only|exact mn_sides]].
  repeat constructor; cbn; intuition discriminate.
Qed.
Lemma mn_system n : system_ok (fun i => ReactionModel.elems mno (e_comp (plain_entry i))) (mn_options n) [] [0; 1].
Proof.
  exists [0; 1]. split; [|split; [cbn; lia|intros f H; discriminate]]. split; [repeat constructor; lia|].
  intros x. cbn. split.
  - intros [<-|[<-|[]]]; left; exists 1; (split; [auto|cbn; auto]).
  - intros [(e & [<-|[<-|[]]] & Hx)|[]]; cbn in Hx; tauto.
Qed.

(* Mn + 2 Mn2O3 -> 4 MnO + MnO2 *)
Lemma four_sides : sides 2 [(-1)%Q; (-2)%Q; 4%Q; 1%Q].
Proof. intros [|[|[|[|i]]]] k' H; cbn in H; try (injection H as <-; split; intros; lia || reflexivity). destruct i; discriminate. Qed.
Lemma missed_reaction : exists C rs ps v r, wf_chem C /\ NoDup (rs ++ ps) /\ conserves C (rs ++ ps) v /\ sides (length rs) v
  /\ exact_balance C rs ps = Ok r /\ balanced r = true /\ num_errors r = Some 1 /\ ~ sides (length rs) (coeffs r).
Proof.
  exists mno, [0; 1], [2; 3], [(-1)%Q; (-2)%Q; 4%Q; 1%Q].
  assert (D : exists r, exact_balance mno [0; 1] [2; 3] = Ok r /\ balanced r = true /\ num_errors r = Some 1 /\ exists k, nth_error (coeffs r) 0 = Some k /\ (0 <= k)%Q).
  { eexists. split; [vm_compute; reflexivity|]. split; [vm_compute; reflexivity|]. split; [vm_compute; reflexivity|]. eexists. split; [vm_compute; reflexivity|]. vm_compute. discriminate. }
  destruct D as (r & E & B & N & k & Hk & Hn). exists r. split; [exact mno_wf|]. split; [repeat constructor; cbn; intuition discriminate|].
  split; [split; [reflexivity|]; intros e; do 2 (destruct e as [|e]; [vm_compute; reflexivity|]); apply mno_other; lia|].
  split; [exact four_sides|].
  split; [exact E|]. split; [exact B|]. split; [exact N|]. intros S. destruct (S 0 k Hk) as [S1 _]. specialize (S1 ltac:(cbn; lia)). lra.
Qed.
Lemma missed_by_enumerator : exists C ent o entries v out, wf_chem C /\ o_constraints o = 2 /\ o_n o = 2 /\ (forall i, e_id (ent i) = i) /\ NoDup (map (formula C ent) entries)
  /\ conserves C (map (formula C ent) [0; 1; 2; 3]) v /\ sides 2 v /\ entries = [0; 1; 2; 3]
  /\ enumerate_rxns (fun i => ReactionModel.elems C (e_comp (ent i))) basic_iterable basic_iter_length
       (basic_react (forward_rxn C ent (entry_solve C ent) (entry_rank C ent)) (backward_rxn C ent (entry_solve C ent) (entry_rank C ent)))
       (fun k => k) o entries [] [] [] [] lifo_any = Ok out
  /\ out <> [] /\ ~ exists x, In x out /\ EnumSpec.same_set (er_reactants x) [0; 1] /\ EnumSpec.same_set (er_products x) [2; 3].
Proof.
  exists mno, plain_entry, (mn_options 2), [0; 1; 2; 3], [(-1)%Q; (-2)%Q; 4%Q; 1%Q].
  assert (D : exists out, mn_enumerate 2 = Ok out /\ out <> []
    /\ forallb (fun x => negb (ReactionModel.same_set (er_reactants x) [0; 1] && ReactionModel.same_set (er_products x) [2; 3])) out = true).
  { eexists. split; [vm_compute; reflexivity|]. split; [discriminate|]. reflexivity. }
  destruct D as (out & E & Ne & F). exists out. split; [exact mno_wf|]. split; [reflexivity|]. split; [reflexivity|]. split; [reflexivity|].
  split; [repeat constructor; cbn; intuition discriminate|].
  split; [split; [reflexivity|]; intros e; do 2 (destruct e as [|e]; [vm_compute; reflexivity|]); apply mno_other; lia|].
  split; [exact four_sides|].
  split; [reflexivity|]. split; [exact E|]. split; [exact Ne|]. intros (x & Hx & S1 & S2). rewrite forallb_forall in F. specialize (F x Hx). apply negb_true_iff in F.
  assert (G : forall a b, EnumSpec.same_set a b -> ReactionModel.same_set a b = true).
  { intros a b H. unfold ReactionModel.same_set. apply andb_true_iff. split; apply forallb_forall; intros y Hy; apply ReactionBaseProofs.memb_iff, H; exact Hy. }
  rewrite (G _ _ S1), (G _ _ S2) in F. discriminate.
Qed.
