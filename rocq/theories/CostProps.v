(* Property theorems for costs/functions.py. *)
From Coq Require Import Reals String Lra.
From Verif Require Import Prelude CostModel CostSpec CostProofs.
Open Scope R_scope.

(* C06: parameter lookup. The data dictionary wins over the attribute, a missing
   parameter raises ValueError. *)
Theorem C06_weighted_sum_lookup : forall params weights rxn,
  well_formed rxn ->
  (forall vs, Forall2 (reads rxn) params vs -> length params = length weights ->
     WeightedSum_evaluate params weights rxn = Ok (weighted vs weights))
  /\ (forall p, In p params -> missing rxn p -> WeightedSum_evaluate params weights rxn = Err ValueError)
  /\ (length params <> length weights -> WeightedSum_evaluate params weights rxn = Err ValueError).
Proof. exact weighted_sum_spec. Qed.
Print Assumptions C06_weighted_sum_lookup.

(* C06: Softplus rejects temp <= 0 and otherwise is ln(1 + 273/T * exp(sum)). *)
Theorem C06_softplus_value : forall temp params weights rxn,
  (temp <= 0 -> Softplus_init temp params weights = Err ValueError)
  /\ (0 < temp -> exists self, Softplus_init temp params weights = Ok self
      /\ (forall total, WeightedSum_evaluate params weights rxn = Ok total ->
            Softplus_evaluate self rxn = Ok (ln (1 + 273 / temp * exp total)))
      /\ (forall e, WeightedSum_evaluate params weights rxn = Err e ->
            Softplus_evaluate self rxn = Err e)).
Proof. exact softplus_evaluate_spec. Qed.
Print Assumptions C06_softplus_value.

(* C06: positive, strictly increasing in the sum, strictly decreasing in T. *)
Theorem C06_softplus_monotone :
  forall temp temp' params params' weights weights' self self' rxn rxn' s s' c c',
  Softplus_init temp params weights = Ok self ->
  Softplus_init temp' params' weights' = Ok self' ->
  WeightedSum_evaluate params weights rxn = Ok s ->
  WeightedSum_evaluate params' weights' rxn' = Ok s' ->
  Softplus_evaluate self rxn = Ok c -> Softplus_evaluate self' rxn' = Ok c' ->
  0 < c /\ (temp = temp' -> s < s' -> c < c') /\ (temp < temp' -> s = s' -> c' < c).
Proof. exact softplus_shape. Qed.
Print Assumptions C06_softplus_monotone.

(* A reaction whose data dictionary overrides one attribute, two parameters. *)
Definition C06_rxn : rxn_view :=
  {| data := [("energy_per_atom"%string, 2)];
     attr := fun p => if String.eqb p "energy_per_atom" then Some 7
                      else if String.eqb p "volume" then Some 3 else None |}.
Example C06_example :
  well_formed C06_rxn
  /\ Forall2 (reads C06_rxn) ["energy_per_atom"; "volume"]%string [2; 3]
  /\ missing C06_rxn "nope"
  /\ (exists self, Softplus_init 300 ["energy_per_atom"%string] [1] = Ok self).
Proof.
  split; [repeat constructor; simpl; tauto|]. split; [|split].
  - constructor; [left; simpl; auto|]. constructor; [right; split|constructor].
    + intros [v [H|[]]]. discriminate.
    + reflexivity.
  - split; [intros [v [H|[]]]; discriminate | reflexivity].
  - unfold Softplus_init. destruct (Rle_dec 300 0) as [H|H]; [exfalso; lra|]. eexists; reflexivity.
Qed.
