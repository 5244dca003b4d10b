(* Rounding in concrete reactions. *)
From Coq Require Import Lia Lqa.
From Verif Require Import Prelude NumQ SumQ UtilsModel ReactionModel ReactionSpec ReactionBaseProofs ChemTable LinCheck RoundModel RoundSpec RoundProofs.
Open Scope list_scope.
Open Scope nat_scope.

(* one third is rounded *)
Definition third : Q := binary64 (1 # 3).
Lemma third_off : ~ (third == 1 # 3)%Q /\ (binary64 (binary64 (1 # 10) + binary64 (2 # 10)) == (5404319552844596 # 18014398509481984))%Q /\ ~ (binary64 (binary64 (1 # 10) + binary64 (2 # 10)) == binary64 (3 # 10))%Q.
Proof. split; [vm_compute; discriminate|]. split; [vm_compute; reflexivity|vm_compute; discriminate]. Qed.
(* Mn + Mn2O3 -> 3 MnO with coefficients divided by 3 *)
Definition thirds : list Q := [(- third)%Q; (- third)%Q; 1%Q].
Lemma mno_only e c : 2 <= e -> amt mno c e = 0%Q.
Proof.
  intros L. do 4 (destruct c as [|c]; [destruct e as [|[|e]]; [lia|lia|reflexivity]|]). destruct c; reflexivity.
Qed.
Lemma thirds_small : (forall e, (produced mno (combine [0; 1; 2]%nat thirds) e <= 1000000 /\ consumed mno (combine [0; 1; 2]%nat thirds) e <= 1000000)%Q)
  /\ (forall e, (Qabs (produced mno (combine [0; 1; 2]%nat thirds) e - consumed mno (combine [0; 1; 2]%nat thirds) e) <= 1 # 10000000)%Q)
  /\ ~ (produced mno (combine [0; 1; 2]%nat thirds) 0%nat == consumed mno (combine [0; 1; 2]%nat thirds) 0%nat)%Q.
Proof.
  split; [|split].
  - intros [|[|e]]; [split; vm_compute; discriminate|split; vm_compute; discriminate|].
    assert (Z : forall c, amt mno c (S (S e)) = 0%Q) by (intros c; apply mno_only; lia). unfold produced, consumed. split; (eapply Qle_trans; [apply Qle_lteq; right; apply sumQ_all_zero; intros [c k] _; cbn [fst snd]; rewrite Z; destruct (Qlt_bool _ _); ring|discriminate]).
  - intros [|[|e]]; [vm_compute; discriminate|vm_compute; discriminate|].
    assert (Z : forall c, amt mno c (S (S e)) = 0%Q) by (intros c; apply mno_only; lia).
    assert (E : (produced mno (combine [0; 1; 2]%nat thirds) (S (S e)) == 0 /\ consumed mno (combine [0; 1; 2]%nat thirds) (S (S e)) == 0)%Q) by (unfold produced, consumed; split; apply sumQ_all_zero; intros [c k] _; cbn [fst snd]; rewrite Z; destruct (Qlt_bool _ _); ring).
    destruct E as [-> ->]. discriminate.
  - vm_compute. discriminate.
Qed.

(* A, A2, A4 and A8 *)
Definition cluster_table : list chem_row := [([(0, 1%Q)], 0, 1%Q); ([(0, 2%Q)], 1, 1%Q); ([(0, 4%Q)], 2, 1%Q); ([(0, 8%Q)], 3, 1%Q)].
Definition clusters : chem := table_chem cluster_table.
Lemma clusters_wf : wf_chem clusters.
Proof. apply table_ok_wf. vm_compute. reflexivity. Qed.
(* 2^35 A + 2^-19 A2 + 2^-20 A4 -> (2^32 + 2^-20) A8 *)
Definition huge : list Q := [(-34359738368 # 1); (-1 # 524288); (-1 # 1048576); (4503599627370497 # 1048576)]%Q.
Lemma huge_exact : Forall (fun k => binary64 k == k)%Q huge.
Proof. repeat constructor; vm_compute; reflexivity. Qed.
Lemma huge_conserves e : (produced clusters (combine [0; 1; 2; 3]%nat huge) e == consumed clusters (combine [0; 1; 2; 3]%nat huge) e)%Q.
Proof. destruct e as [|e]; [vm_compute; reflexivity|]. destruct e; vm_compute; reflexivity. Qed.
Lemma huge_flag : rounded_flag binary64 clusters [0; 1; 2; 3] huge = false.
Proof. vm_compute. reflexivity. Qed.
(* the energy of Mn + Mn2O3 -> 3 MnO *)
Definition heats : list entry := [{| e_id := 0; e_comp := 0; e_energy := (-9162 # 1000)%Q |}; {| e_id := 1; e_comp := 1; e_energy := (-40109 # 1000)%Q |}; {| e_id := 2; e_comp := 2; e_energy := (-17013 # 1000)%Q |}].
Definition heated : crxn := computed_init mno heats thirds None.
Lemma heated_energy : exists x x', computed_energy mno heated = Ok x /\ rounded_energy binary64 mno heated = Ok x' /\ ~ (x == x')%Q.
Proof. eexists _, _. split; [vm_compute; reflexivity|]. split; [vm_compute; reflexivity|]. vm_compute. discriminate. Qed.
