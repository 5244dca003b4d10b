(* Vocabulary for the cost functions. *)
From Coq Require Import Reals String.
From Verif Require Import Prelude CostModel.
Open Scope R_scope.

(* The key p is bound in the dictionary. *)
Definition has_key (d : list (string * R)) (p : string) : Prop := exists v, In (p, v) d.

(* Parameter p of the reaction has value v: the data dictionary wins, the
   attribute is only used if the dictionary has no such key. *)
Definition reads (rxn : rxn_view) (p : string) (v : R) : Prop :=
  In (p, v) (data rxn) \/ (~ has_key (data rxn) p /\ attr rxn p = Some v).

Definition missing (rxn : rxn_view) (p : string) : Prop :=
  ~ has_key (data rxn) p /\ attr rxn p = None.

(* Python dictionaries have unique keys. *)
Definition well_formed (rxn : rxn_view) : Prop := NoDup (map fst (data rxn)).

(* Sum of value times weight. *)
Definition weighted (vs ws : list R) : R :=
  fold_right (fun vw s => fst vw * snd vw + s) 0 (combine vs ws).
