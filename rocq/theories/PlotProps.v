(* C108, C109: the energy cascade and the smoothing of the pathway plotter. *)
From Verif Require Import Prelude NumQ SumQ ReactionModel ReactionSpec ChemTable SolveJobModel SolveJobSpec PlotModel PlotSpec PlotProofs PlotCheck.
Open Scope nat_scope.

(* At each temperature the cascade shows the energy per atom of the phases, each at its
   lowest entry, minus the lowest energy per atom that any mixture of entries with the same
   composition has. Missing: formulas that are not reduced (refuted below), elements whose
   lowest energy is not zero, elements present in traces below 1e-8. *)
Theorem C108_cascade_partial : forall C set_at hull smoothing temps phases vs,
  wf_chem C ->
  (forall ents c h, hull ents c = Ok h -> lowest_mixture C ents (amount_in c) h) ->
  (forall t ents, In t temps -> set_at t = Ok ents -> elements_at_zero C ents /\ forall x, In x ents -> elems C (e_comp x) <> []) ->
  (forall p, In p phases -> red C (fst p) = fst p) ->
  (forall i, i < length temps -> no_traces C phases (fun p => shown smoothing (snd p) i)) ->
  cascade C set_at hull smoothing temps phases = Ok vs ->
  length vs = length temps /\ forall i t v, nth_error temps i = Some t -> nth_error vs i = Some v ->
    let a := fun p : nat * list Q => shown smoothing (snd p) i in
    exists ents gs h, set_at t = Ok ents /\ Forall2 (fun p x => lowest_entry C ents (fst p) x) phases gs
      /\ (0 < atoms C phases a)%Q /\ lowest_mixture C ents (fun e => atoms_of C phases a e / atoms C phases a)%Q h
      /\ (v == mean_energy C phases a gs - h)%Q.
Proof. exact (fun C set_at hull s temps phases vs W H1 H2 H3 H4 H => cascade_spec C W set_at hull s temps phases H1 H2 H3 H4 vs H). Qed.
Print Assumptions C108_cascade_partial.

(* So no value lies below zero when no amount does. *)
Theorem C108_nonneg_partial : forall C set_at hull smoothing temps phases vs,
  wf_chem C ->
  (forall ents c h, hull ents c = Ok h -> lowest_mixture C ents (amount_in c) h) ->
  (forall t ents, In t temps -> set_at t = Ok ents -> elements_at_zero C ents /\ forall x, In x ents -> elems C (e_comp x) <> []) ->
  (forall p, In p phases -> red C (fst p) = fst p) ->
  (forall i, i < length temps -> no_traces C phases (fun p => shown smoothing (snd p) i)) ->
  (forall p x, In p phases -> In x (snd p) -> (0 <= x)%Q) ->
  cascade C set_at hull smoothing temps phases = Ok vs ->
  forall v, In v vs -> (0 <= v)%Q.
Proof. exact (fun C set_at hull s temps phases vs W H1 H2 H3 H4 P H => cascade_nonneg C W set_at hull s temps phases H1 H2 H3 H4 vs P H). Qed.
Print Assumptions C108_nonneg_partial.

(* FeO and Fe2O3 at two temperatures, Fe3O4 at the third: a seventh above the hull, then
   on it. *)
Example C108_example : wf_chem feo
  /\ (forall ents c h, fe_hull ents c = Ok h -> lowest_mixture feo ents (amount_in c) h)
  /\ (forall t ents, In t fe_temps -> fe_set t = Ok ents -> elements_at_zero feo ents /\ forall x, In x ents -> elems feo (e_comp x) <> [])
  /\ (forall p, In p fe_phases -> red feo (fst p) = fst p)
  /\ (forall i, i < length fe_temps -> no_traces feo fe_phases (fun p => shown true (snd p) i))
  /\ (forall p x, In p fe_phases -> In x (snd p) -> (0 <= x)%Q)
  /\ exists vs, cascade feo fe_set fe_hull true fe_temps fe_phases = Ok vs /\ map Qred vs = [1 # 7; 1 # 7; 0]%Q.
Proof.
  split; [exact feo_wf|]. split; [exact fe_hull_true|]. split; [exact (fun t ents _ => fe_sets t ents)|].
  split; [intros p I; cbn in I; repeat (destruct I as [<-|I]; [reflexivity|]); destruct I|]. split; [exact fe_clean|].
  split; [intros p x I Ix; cbn in I; repeat (destruct I as [<-|I]; [cbn in Ix; repeat (destruct Ix as [<-|Ix]; [discriminate|]); destruct Ix|]); destruct I|].
  exact fe_run.
Qed.

(* A phase given by a formula that is not reduced: its atoms are counted from the formula
   given, its energy from the reduced formula. Fe2O2 is shown 3/4 above the hull, although
   FeO lies on it. *)
Theorem C108_unreduced_refuted : exists C set_at hull phases ents x v,
  wf_chem C
  /\ (forall ents c h, hull ents c = Ok h -> lowest_mixture C ents (amount_in c) h)
  /\ (forall t ents, set_at t = Ok ents -> elements_at_zero C ents /\ forall x, In x ents -> elems C (e_comp x) <> [])
  /\ set_at 300%Q = Ok ents /\ Forall2 (fun p x => lowest_entry C ents (fst p) x) phases [x]
  /\ (let a := fun p : nat * list Q => shown true (snd p) 0 in
      lowest_mixture C ents (fun e => atoms_of C phases a e / atoms C phases a)%Q (mean_energy C phases a [x]))
  /\ cascade C set_at hull true [300%Q] phases = Ok [v] /\ (v == 3 # 4)%Q.
Proof. exact unreduced_refutes. Qed.
Print Assumptions C108_unreduced_refuted.

(* The frame has one column per phase. Its values are the amounts given, or with smoothing
   the middle one of three neighbouring amounts, and never leave their range. *)
Theorem C109_frame : forall smoothing temps phases df, phase_df smoothing temps phases = Ok df ->
  map fst df = map fst phases /\ forall k p q, nth_error phases k = Some p -> nth_error df k = Some q ->
    length (snd q) = length temps /\ (forall i, i < length temps -> (nth i (snd q) 0 == shown smoothing (snd p) i)%Q)
    /\ forall lo hi, (forall x, In x (snd p) -> (lo <= x <= hi)%Q) -> forall x, In x (snd q) -> (lo <= x <= hi)%Q.
Proof. exact frame_range. Qed.
Print Assumptions C109_frame.

(* The frame holds the atoms of the amounts given. Missing: smoothing when some phase comes
   and goes (refuted below). *)
Theorem C109_atoms_partial : forall C smoothing temps phases df, phase_df smoothing temps phases = Ok df ->
  (smoothing = false \/ forall p, In p phases -> monotone (snd p)) ->
  forall i e, i < length temps -> (atoms_of C df (fun q => nth i (snd q) 0) e == atoms_of C phases (fun p => nth i (snd p) 0) e)%Q.
Proof. exact frame_conserves. Qed.
Print Assumptions C109_atoms_partial.

Example C109_example : (exists df, phase_df true fe_temps fe_phases = Ok df) /\ forall p, In p fe_phases -> monotone (snd p).
Proof. exact fe_monotone. Qed.

(* Smoothing loses atoms: the amounts given hold the same atoms at all temperatures, the
   frame holds three iron atoms at the first temperature and one at the second. *)
Theorem C109_atoms_refuted : exists C temps phases df,
  wf_chem C
  /\ (forall i e, i < length temps -> (atoms_of C phases (fun p => nth i (snd p) 0) e == atoms_of C phases (fun p => nth 0 (snd p) 0) e)%Q)
  /\ phase_df true temps phases = Ok df
  /\ exists e, (atoms_of C df (fun p => nth 0 (snd p) 0) e == 3 /\ atoms_of C df (fun p => nth 1 (snd p) 0) e == 1)%Q.
Proof. exact turn_refutes. Qed.
Print Assumptions C109_atoms_refuted.
