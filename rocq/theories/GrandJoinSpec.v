(* What is asked of the enumerator for an open element and a chemical potential. *)
From Verif Require Import Prelude NumQ UtilsSpec ReactionModel RxnSetModel RxnSetSpec EnumModel EnumSpec EntrySetSpec LinSpec MinSpec JoinModel JoinSpec MinJoinModel MinJoinSpec.
Open Scope nat_scope.

Section Spec.
Variable C : chem.
Variable ent : nat -> entry.
Context {P : Type}.
Variable build : list nat -> result P.
Variable kinks : P -> nat -> nat -> result (list (list nat * list nat)).
Variable epa : nat -> Q.
Variable entries : list nat.
Variable gas : nat.
Let elems (i : nat) : list nat := ReactionModel.elems C (e_comp (ent i)).
(* The entries of the open phase. *)
Definition gases_in : list nat := filter (fun i => Nat.eqb (red C (e_comp (ent i))) gas) entries.

(* One or two phases, none of them open; the diagram is of their elements and those of the open phases. *)
Definition open_interface (m : minimizer) (c s : list nat) (pd : P) : Prop :=
  combination entries gases_in c /\ searched elems (mi_options m) (mi_precursors m) (mi_targets m) gases_in c
  /\ exists k, chemsys_of elems (flat_map elems gases_in) c k /\ within elems entries k s /\ build s = Ok pd.
Definition at_open_kink (m : minimizer) (r p : list nat) : Prop :=
  (exists c s pd a b ks kink, open_interface m c s pd /\ ends c a b /\ kinks pd a b = Ok ks /\ In kink ks
     /\ Forall2 (stable_phase C ent epa s) (fst kink) r /\ Forall2 (stable_phase C ent epa s) (snd kink) p)
  /\ option_met (o_pfunc (mi_options m)) (mi_precursors m) gases_in r /\ option_met (o_tfunc (mi_options m)) (mi_targets m) gases_in p.
Definition surely_at_open_kink (m : minimizer) (r p : list nat) : Prop :=
  (exists c s pd kink, open_interface m c s pd /\ (forall a b, ends c a b -> exists ks, kinks pd a b = Ok ks /\ In kink ks)
     /\ Forall2 (only_stable_phase C ent epa s) (fst kink) r /\ Forall2 (only_stable_phase C ent epa s) (snd kink) p)
  /\ option_met (o_pfunc (mi_options m)) (mi_precursors m) gases_in r /\ option_met (o_tfunc (mi_options m)) (mi_targets m) gases_in p.
End Spec.
