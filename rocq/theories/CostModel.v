(* Model of costs/functions.py over the reals. *)
From Coq Require Import Reals String.
From Verif Require Import Prelude.
Open Scope R_scope.

(* What evaluate reads from a reaction: its data dictionary and its numeric
   attributes (hasattr/getattr). A missing or empty data dictionary is []. *)
Record rxn_view := { data : list (string * R); attr : string -> option R }.

(* d[p] of a dictionary (keys are unique, the first binding is the one). *)
Fixpoint lookup (p : string) (d : list (string * R)) : option R :=
  match d with
  | [] => None
  | (k, v) :: d' => if String.eqb p k then Some v else lookup p d'
  end.

(* The loop body of costs/functions.py:60-67 and 121-128. *)
Definition param_value (rxn : rxn_view) (p : string) : result R :=
  match lookup p (data rxn) with
  | Some v => Ok v
  | None => match attr rxn p with Some v => Ok v | None => Err ValueError end
  end.

(* np.dot of two vectors (ValueError on a length mismatch). *)
Fixpoint dotR (l1 l2 : list R) : result R :=
  match l1, l2 with
  | [], [] => Ok 0
  | a :: l1', b :: l2' =>
      match dotR l1' l2' with Ok s => Ok (a * b + s) | Err e => Err e end
  | _, _ => Err ValueError
  end.

(* costs/functions.py:59-70, 120-131: the weighted parameter sum. *)
Definition weighted_sum (params : list string) (weights : list R) (rxn : rxn_view) : result R :=
  match mapM (param_value rxn) params with
  | Err e => Err e
  | Ok values => dotR values weights
  end.

(* costs/functions.py:86-133 WeightedSum.evaluate. *)
Definition WeightedSum_evaluate := weighted_sum.

(* costs/functions.py:75-77 Softplus._softplus. *)
Definition softplus (x t : R) : R := ln (1 + (273 / t) * exp x).

(* costs/functions.py:39-48 Softplus.__init__: the object holds temp, params, weights. *)
Definition Softplus_init (temp : R) (params : list string) (weights : list R)
  : result (R * list string * list R) :=
  if Rle_dec temp 0 then Err ValueError else Ok (temp, params, weights).

(* costs/functions.py:50-72 Softplus.evaluate. *)
Definition Softplus_evaluate (self : R * list string * list R) (rxn : rxn_view) : result R :=
  let '(temp, params, weights) := self in
  match weighted_sum params weights rxn with
  | Err e => Err e
  | Ok total => Ok (softplus total temp)
  end.
