(* What is asked of a flow with minimising enumerators. *)
From Verif Require Import Prelude NumQ UtilsSpec ReactionModel RxnSetModel RxnSetSpec EnumModel EnumSpec EntrySetSpec LinSpec MinSpec JoinModel JoinSpec MinJoinModel.
Open Scope nat_scope.

Section Spec.
Variable C : chem.
Variable ent : nat -> entry.
Context {P : Type}.
Variable build : list nat -> result P.
Variable kinks : P -> nat -> nat -> result (list (list nat * list nat)).
Variable epa : nat -> Q.
Variable entries : list nat.
Let elems (i : nat) : list nat := ReactionModel.elems C (e_comp (ent i)).
Let formula (i : nat) : nat := red C (e_comp (ent i)).

(* The phases of a kink are different ones, and the two sides have none in common, or the kink is a stable phase
   that does not react. *)
Definition tidy_kinks : Prop := forall pd a b ks kink, kinks pd a b = Ok ks -> In kink ks ->
  NoDup (fst kink) /\ NoDup (snd kink) /\ (disjoint (fst kink) (snd kink) \/ exists f, kink = ([f], [f])).

(* The one phase with the least energy per atom that s has for the formula f. *)
Definition stable_phase (s : list nat) (f e : nat) : Prop :=
  formula e = f /\ In e s /\ forall x, In x s -> formula x = f -> (epa e <= epa x)%Q.
Definition only_stable_phase (s : list nat) (f e : nat) : Prop :=
  formula e = f /\ In e s /\ forall x, In x s -> formula x = f -> x = e \/ (epa e < epa x)%Q.

(* The combination c is searched, and its diagram is the one of the entries s. *)
Definition interface_of (m : minimizer) (c s : list nat) (pd : P) : Prop :=
  combination entries [] c /\ searched elems (mi_options m) (mi_precursors m) (mi_targets m) [] c
  /\ exists k, chemsys_of elems [] c k /\ within elems entries k s /\ build s = Ok pd.
(* r to p is at a kink of an interface, and has the precursors and targets asked for. *)
Definition at_kink (m : minimizer) (r p : list nat) : Prop :=
  (exists c s pd a b ks kink, interface_of m c s pd /\ ends c a b /\ kinks pd a b = Ok ks /\ In kink ks
     /\ Forall2 (stable_phase s) (fst kink) r /\ Forall2 (stable_phase s) (snd kink) p)
  /\ option_met (o_pfunc (mi_options m)) (mi_precursors m) [] r /\ option_met (o_tfunc (mi_options m)) (mi_targets m) [] p.
(* The same, whichever of the two phases comes first, and with no other phase as stable. *)
Definition surely_at_kink (m : minimizer) (r p : list nat) : Prop :=
  (exists c s pd kink, interface_of m c s pd /\ (forall a b, ends c a b -> exists ks, kinks pd a b = Ok ks /\ In kink ks)
     /\ Forall2 (only_stable_phase s) (fst kink) r /\ Forall2 (only_stable_phase s) (snd kink) p)
  /\ option_met (o_pfunc (mi_options m)) (mi_precursors m) [] r /\ option_met (o_tfunc (mi_options m)) (mi_targets m) [] p.

Definition minimizer_usable (m : minimizer) : Prop :=
  o_n (mi_options m) = 2 /\ o_changed (mi_options m) = true /\ 1 <= o_chunk (mi_options m) /\ 1 <= o_jobs (mi_options m) /\ 1 <= o_constraints (mi_options m).
Definition any_usable (a : any_enumerator) : Prop := match a with Basic en => usable en | Minimize m => minimizer_usable m end.
(* What one of the enumerators may find, and what it is sure to find. *)
Definition any_looks (a : any_enumerator) (r p : list nat) : Prop :=
  match a with Basic en => looks_at C ent entries en r p | Minimize m => at_kink m r p end.
Definition any_finds (a : any_enumerator) (r p : list nat) : Prop :=
  match a with Basic en => looks_at C ent entries en r p | Minimize m => surely_at_kink m r p end
  /\ determined C formula r p.
Definition any_reacts (ens : list any_enumerator) (r p : list nat) : Prop := exists a, In a ens /\ any_finds a r p.
End Spec.
