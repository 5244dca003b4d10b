(* What an energy cascade should show. *)
From Verif Require Import Prelude NumQ SumQ ReactionModel.
Open Scope nat_scope.

(* The amount of a phase shown at the i-th temperature: the amount given, or with
   smoothing the middle one of the amounts at the temperatures before, at and after it.
   The first and the last are shown as given. *)
Definition middle (a b c : Q) : Q := Qmax (Qmin a b) (Qmin (Qmax a b) c).
Definition shown (smoothing : bool) (l : list Q) (i : nat) : Q :=
  if smoothing && (0 <? i) && (S i <? length l) then middle (nth (i - 1) l 0%Q) (nth i l 0%Q) (nth (S i) l 0%Q) else nth i l 0%Q.

(* Atoms of one element, and of all, in the phases at the i-th temperature; a phase has
   amounts [a p]. *)
Definition atoms_of (C : chem) (phases : list (nat * list Q)) (a : nat * list Q -> Q) (e : nat) : Q :=
  sumQ (fun p => a p * amt C (fst p) e)%Q phases.
Definition atoms (C : chem) (phases : list (nat * list Q)) (a : nat * list Q -> Q) : Q :=
  sumQ (fun p => a p * natoms C (fst p))%Q phases.

(* A mixture of entries holding the amounts x of the elements; its energy; the lowest
   energy of all such mixtures. *)
Definition mixture (C : chem) (ents : list entry) (x : nat -> Q) (w : list (entry * Q)) : Prop :=
  (forall ek, In ek w -> In (fst ek) ents /\ (0 <= snd ek)%Q) /\ forall e, (sumQ (fun ek => snd ek * amt C (e_comp (fst ek)) e) w == x e)%Q.
Definition mixture_energy (w : list (entry * Q)) : Q := sumQ (fun ek => snd ek * e_energy (fst ek))%Q w.
Definition lowest_mixture (C : chem) (ents : list entry) (x : nat -> Q) (h : Q) : Prop :=
  (forall w, mixture C ents x w -> (h <= mixture_energy w)%Q) /\ exists w, mixture C ents x w /\ (mixture_energy w == h)%Q.

(* The elements have energy zero in their lowest entries. *)
Definition elements_at_zero (C : chem) (ents : list entry) : Prop :=
  forall x e, In x ents -> elems C (e_comp x) = [e] ->
    (0 <= e_energy x)%Q /\ exists y, In y ents /\ elems C (e_comp y) = [e] /\ (e_energy y == 0)%Q.

(* The numbers never turn around. *)
Definition monotone (l : list Q) : Prop :=
  (forall i j, i <= j < length l -> (nth i l 0 <= nth j l 0)%Q) \/ (forall i j, i <= j < length l -> (nth j l 0 <= nth i l 0)%Q).

(* No element is there in traces, in total or as a fraction. *)
Definition no_traces (C : chem) (phases : list (nat * list Q)) (a : nat * list Q -> Q) : Prop :=
  forall e, (atoms_of C phases a e == 0 \/ (1 # 100000000 <= atoms_of C phases a e /\ 1 # 100000000 <= atoms_of C phases a e / atoms C phases a))%Q.

(* Energy per atom of the phases, each at the energy per atom of the entry chosen for it. *)
Definition mean_energy (C : chem) (phases : list (nat * list Q)) (a : nat * list Q -> Q) (gs : list entry) : Q :=
  (sumQ (fun px => a (fst px) * natoms C (fst (fst px)) * (e_energy (snd px) / natoms C (e_comp (snd px)))) (combine phases gs) / atoms C phases a)%Q.
