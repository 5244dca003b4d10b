(* Concrete pathways for the plotter. *)
From Coq Require Import Lqa.
From Verif Require Import Prelude NumQ SumQ UtilsModel ReactionModel ReactionSpec ChemTable SolveJobModel SolveJobSpec PlotModel PlotSpec PlotProofs.
Open Scope nat_scope.

(* Elements: 0 Fe, 1 O. Compositions: 0 Fe, 1 O2, 2 FeO, 3 Fe2O3, 4 Fe3O4, 5 Fe2O2. *)
Definition feo : chem := table_chem
  [ ([(0, 1%Q)], 0, 1%Q); ([(1, 2%Q)], 1, 1%Q); ([(0, 1%Q); (1, 1%Q)], 2, 1%Q); ([(0, 2%Q); (1, 3%Q)], 3, 1%Q); ([(0, 3%Q); (1, 4%Q)], 4, 1%Q); ([(0, 2%Q); (1, 2%Q)], 2, 2%Q) ].
Lemma feo_wf : wf_chem feo.
Proof. apply table_ok_wf. reflexivity. Qed.

Definition fe_entries : list entry :=
  [ {| e_id := 0; e_comp := 0; e_energy := 0 |}; {| e_id := 1; e_comp := 1; e_energy := 0 |}; {| e_id := 2; e_comp := 5; e_energy := -6 |};
    {| e_id := 3; e_comp := 3; e_energy := -8 |}; {| e_id := 4; e_comp := 4; e_energy := -12 |} ].
Definition entry_dec (a b : entry) : {a = b} + {a <> b}.
Proof. decide equality; first [apply Nat.eq_dec|decide equality; first [apply Z.eq_dec|apply Pos.eq_dec]]. Defined.

(* The lowest energy per atom at the compositions of Fe3O4 and of FeO. *)
Definition fe_hull (ents : list entry) (c : list (nat * Q)) : result Q :=
  if list_eq_dec entry_dec ents fe_entries then
    match c with
    | [(0, a); (1, b)] =>
        if Qeq_bool a (3 # 7) && Qeq_bool b (4 # 7) then Ok (- (12 # 7))%Q
        else if Qeq_bool a (1 # 2) && Qeq_bool b (1 # 2) then Ok (- (3 # 2))%Q else Err ValueError
    | _ => Err ValueError
    end
  else Err ValueError.
Definition fe_set (t : Q) : result (list entry) := Ok fe_entries.

(* three units of energy per oxygen atom are a lower bound for every entry *)
Lemma fe_bound x : In x fe_entries -> (-(3) * amt feo (e_comp x) 1 <= e_energy x)%Q.
Proof. intros I. cbn in I. repeat (destruct I as [<-|I]; [vm_compute; discriminate|]). destruct I. Qed.
Lemma fe_lower c w : mixture feo fe_entries c w -> (-(3) * c 1%nat <= mixture_energy w)%Q.
Proof.
  intros (A & B). rewrite <- (B 1). unfold mixture_energy. rewrite <- sumQ_scale_l. apply sumQ_le. intros [x k] I. destruct (A _ I) as (Ix & Hk). cbn [fst snd] in *.
  setoid_replace (-(3) * (k * amt feo (e_comp x) 1))%Q with (k * (-(3) * amt feo (e_comp x) 1))%Q by ring. rewrite (Qmult_comm k), (Qmult_comm k (e_energy x)). apply Qmult_le_compat_r; [apply fe_bound; exact Ix|exact Hk].
Qed.
Lemma fe_two (c : list (nat * Q)) a b e : c = [(0, a); (1, b)] -> (amount_in c e == match e with O => a | S O => b | _ => 0 end)%Q.
Proof. intros ->. destruct e as [|[|e]]; reflexivity. Qed.

Lemma fe_hull_true ents c h : fe_hull ents c = Ok h -> lowest_mixture feo ents (amount_in c) h.
Proof.
  unfold fe_hull. destruct (list_eq_dec entry_dec ents fe_entries) as [->|]; [|discriminate].
  destruct c as [|[[|k] a] [|[[|[|k']] b] [|]]]; try discriminate. intros H.
  assert (L : (h == -(3) * b)%Q /\ exists x k, In x fe_entries /\ (0 <= k)%Q /\ (k * amt feo (e_comp x) 0 == a)%Q /\ (k * amt feo (e_comp x) 1 == b)%Q /\ (k * e_energy x == h)%Q).
  { destruct (Qeq_bool a (3 # 7) && Qeq_bool b (4 # 7)) eqn:T.
    - apply andb_true_iff in T as [Ta Tb]. apply Qeq_bool_iff in Ta, Tb. assert (h = (- (12 # 7))%Q) by congruence. subst h. split; [rewrite Tb; reflexivity|].
      exists (nth 4 fe_entries no_entry), (1 # 7)%Q. split; [right; right; right; right; left; reflexivity|]. split; [discriminate|]. rewrite Ta, Tb. split; [reflexivity|]. split; reflexivity.
    - destruct (Qeq_bool a (1 # 2) && Qeq_bool b (1 # 2)) eqn:T2; [|discriminate]. apply andb_true_iff in T2 as [Ta Tb]. apply Qeq_bool_iff in Ta, Tb.
      assert (h = (- (3 # 2))%Q) by congruence. subst h. split; [rewrite Tb; reflexivity|]. exists (nth 2 fe_entries no_entry), (1 # 4)%Q.
      split; [right; right; left; reflexivity|]. split; [discriminate|]. rewrite Ta, Tb. split; [reflexivity|]. split; reflexivity. }
  clear H. destruct L as (Eh & x & k & Ix & Hk & A0 & A1 & Ek). split.
  - intros w M. apply fe_lower in M. rewrite (fe_two _ a b 1 eq_refl) in M. rewrite Eh. exact M.
  - exists [(x, k)]. split; [|unfold mixture_energy; cbn [sumQ fold_right fst snd]; rewrite Ek; ring]. split.
    + intros ek [<-|[]]. split; assumption.
    + intros e. rewrite (fe_two _ a b e eq_refl). cbn [sumQ fold_right fst snd]. destruct e as [|[|e]]; [rewrite A0; ring|rewrite A1; ring|].
      assert (Z : (amt feo (e_comp x) (S (S e)) == 0)%Q); [|rewrite Z; ring]. cbn in Ix. repeat (destruct Ix as [<-|Ix]; [reflexivity|]). destruct Ix.
Qed.

Lemma fe_sets t ents : fe_set t = Ok ents -> elements_at_zero feo ents /\ forall x, In x ents -> elems feo (e_comp x) <> [].
Proof.
  intros H. assert (ents = fe_entries) by (unfold fe_set in H; congruence). subst. clear H. split.
  - intros x e I E. cbn in I. destruct I as [<-|[<-|I]].
    + split; [discriminate|]. exists (nth 0 fe_entries no_entry). split; [left; reflexivity|]. split; [exact E|reflexivity].
    + split; [discriminate|]. exists (nth 1 fe_entries no_entry). split; [right; left; reflexivity|]. split; [exact E|reflexivity].
    + repeat (destruct I as [<-|I]; [discriminate E|]). destruct I.
  - intros x I. cbn in I. repeat (destruct I as [<-|I]; [discriminate|]). destruct I.
Qed.

(* FeO and Fe2O3 react to Fe3O4 *)
Definition fe_temps : list Q := [300%Q; 600%Q; 900%Q].
Definition fe_phases : list (nat * list Q) := [(2, [1%Q; 1%Q; 0%Q]); (3, [1%Q; 1%Q; 0%Q]); (4, [0%Q; 0%Q; 1%Q])].
Lemma fe_run : exists vs, cascade feo fe_set fe_hull true fe_temps fe_phases = Ok vs /\ map Qred vs = [1 # 7; 1 # 7; 0]%Q.
Proof. eexists. split; [vm_compute; reflexivity|reflexivity]. Qed.

(* The amounts of element e at the i-th temperature decide about traces *)
Lemma fe_traces phases a : (forall p, In p phases -> fst p < 6) ->
  (forall e, e < 2 -> (atoms_of feo phases a e == 0 \/ (1 # 100000000 <= atoms_of feo phases a e /\ 1 # 100000000 <= atoms_of feo phases a e / atoms feo phases a))%Q) -> no_traces feo phases a.
Proof.
  intros L H e. destruct (Nat.lt_ge_cases e 2) as [He|He]; [apply H; exact He|]. left. unfold atoms_of. apply sumQ_all_zero. intros p I. apply L in I.
  assert (Z : (amt feo (fst p) e == 0)%Q); [|rewrite Z; ring]. destruct e as [|[|e]]; try lia. destruct p as [f l]. cbn [fst] in *. do 6 (destruct f as [|f]; [reflexivity|]). lia.
Qed.
Lemma fe_clean i : i < length fe_temps -> no_traces feo fe_phases (fun p => shown true (snd p) i).
Proof.
  intros Hi. apply fe_traces; [intros p I; cbn in I; repeat (destruct I as [<-|I]; [cbn; lia|]); destruct I|]. intros e He. right.
  cbn in Hi. destruct i as [|[|[|i]]]; try lia; (destruct e as [|[|e]]; try lia; split; vm_compute; discriminate).
Qed.

(* Fe2O2 alone, which is FeO: on the hull, yet shown above it *)
Definition fe2o2 : list (nat * list Q) := [(5, [1%Q])].
Lemma unreduced_above : exists v, cascade feo fe_set fe_hull true [300%Q] fe2o2 = Ok [v] /\ (v == 3 # 4)%Q
  /\ lowest_entry feo fe_entries 5 (nth 2 fe_entries no_entry)
  /\ (mean_energy feo fe2o2 (fun p => shown true (snd p) 0) [nth 2 fe_entries no_entry] == - (3 # 2))%Q
  /\ lowest_mixture feo fe_entries (fun e => atoms_of feo fe2o2 (fun p => shown true (snd p) 0) e / atoms feo fe2o2 (fun p => shown true (snd p) 0))%Q (- (3 # 2))%Q.
Proof.
  eexists. split; [vm_compute; reflexivity|]. split; [reflexivity|]. split.
  { split; [right; right; left; reflexivity|]. split; [reflexivity|]. intros x I E. cbn in I. repeat (destruct I as [<-|I]; [first [discriminate E|vm_compute; discriminate]|]). destruct I. }
  split; [reflexivity|]. apply (lowest_ext feo fe_entries (amount_in [(0, (1 # 2)%Q); (1, (1 # 2)%Q)])); [|apply fe_hull_true; reflexivity].
  intros e. destruct e as [|[|e]]; [reflexivity|reflexivity|]. reflexivity.
Qed.

(* Fe3O4, then FeO and Fe2O3, then FeO and oxygen: the same atoms at all temperatures *)
Definition turn : list (nat * list Q) := [(4, [1%Q; 0%Q; 0%Q]); (3, [0%Q; 1%Q; 0%Q]); (2, [0%Q; 1%Q; 3%Q]); (1, [0%Q; 0%Q; 1 # 2])].
Lemma turn_conserves i e : i < 3 -> (atoms_of feo turn (fun p => nth i (snd p) 0) e == atoms_of feo turn (fun p => nth 0 (snd p) 0) e)%Q.
Proof. intros Hi. destruct i as [|[|[|i]]]; try lia; (destruct e as [|[|e]]; reflexivity). Qed.
Lemma turn_smoothed : exists df, phase_df true fe_temps turn = Ok df /\ (atoms_of feo df (fun p => nth 0 (snd p) 0) 0 == 3)%Q /\ (atoms_of feo df (fun p => nth 1 (snd p) 0) 0 == 1)%Q.
Proof. eexists. split; [vm_compute; reflexivity|]. split; reflexivity. Qed.

Lemma unreduced_refutes : exists C set_at hull phases ents x v,
  wf_chem C
  /\ (forall ents c h, hull ents c = Ok h -> lowest_mixture C ents (amount_in c) h)
  /\ (forall t ents, set_at t = Ok ents -> elements_at_zero C ents /\ forall x, In x ents -> elems C (e_comp x) <> [])
  /\ set_at 300%Q = Ok ents /\ Forall2 (fun p x => lowest_entry C ents (fst p) x) phases [x]
  /\ (let a := fun p : nat * list Q => shown true (snd p) 0 in
      lowest_mixture C ents (fun e => atoms_of C phases a e / atoms C phases a)%Q (mean_energy C phases a [x]))
  /\ cascade C set_at hull true [300%Q] phases = Ok [v] /\ (v == 3 # 4)%Q.
Proof.
  destruct unreduced_above as (v & E & Ev & Lx & M & Lw). exists feo, fe_set, fe_hull, fe2o2, fe_entries, (nth 2 fe_entries no_entry), v.
  split; [exact feo_wf|]. split; [exact fe_hull_true|]. split; [exact fe_sets|]. split; [reflexivity|]. split; [constructor; [exact Lx|constructor]|].
  split; [|split; assumption]. cbv zeta. destruct Lw as (A & w & B & D). split.
  - intros u Mu. rewrite M. apply A. exact Mu.
  - exists w. split; [exact B|]. rewrite M. exact D.
Qed.

Lemma fe_monotone : (exists df, phase_df true fe_temps fe_phases = Ok df) /\ forall p, In p fe_phases -> monotone (snd p).
Proof.
  split; [eexists; vm_compute; reflexivity|]. intros p I. cbn in I. destruct I as [<-|[<-|[<-|[]]]]; cbn [snd]; [right|right|left];
  intros i j H; cbn [length] in H; destruct i as [|[|[|i]]], j as [|[|[|j]]]; try lia; vm_compute; discriminate.
Qed.

Lemma turn_refutes : exists C temps phases df,
  wf_chem C
  /\ (forall i e, i < length temps -> (atoms_of C phases (fun p => nth i (snd p) 0) e == atoms_of C phases (fun p => nth 0 (snd p) 0) e)%Q)
  /\ phase_df true temps phases = Ok df
  /\ exists e, (atoms_of C df (fun p => nth 0 (snd p) 0) e == 3 /\ atoms_of C df (fun p => nth 1 (snd p) 0) e == 1)%Q.
Proof.
  destruct turn_smoothed as (df & E & A & B). exists feo, fe_temps, turn, df. split; [exact feo_wf|]. split; [exact turn_conserves|]. split; [exact E|]. exists 0. split; assumption.
Qed.
