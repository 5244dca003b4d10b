(* Model of the competition job of jobs/core.py on reactions: the model of the job in
   JobsModel, with the scores of two precursors taken from the interface reaction hull of
   IrhModel. *)
From Verif Require Import Prelude NumQ UtilsModel ReactionModel HullModel IrhModel JobsModel.
Open Scope nat_scope.

Section Comp.
Variable C : chem.
Variable round4 : Q -> Q.                                (* round(_, 4) *)
Variable round12 : Q -> Q.                               (* round(_, 12) *)
Variable argsort : list Q -> list nat.                   (* numpy's argsort *)
Variable convex_hull : list coord -> result (list nat).  (* ConvexHull(_).vertices *)
Variable lsq : list nat -> list nat -> list nat -> list Q. (* the pseudo-inverse in _balance_coeffs *)
Variable rank : list nat -> list nat -> nat.             (* numpy.linalg.matrix_rank *)
Variable req : rxn -> rxn -> bool.                       (* a is b or a == b *)
Variable arrange : list nat -> list nat.                 (* iteration order of a set *)

(* What the job uses of the reaction number i: the reduced formulas of its reactants
   (jobs/core.py:740) and products (reaction_set.py get_rxns_by_product), its energy per
   atom. *)
Definition view (i : nat) (r : rxn) : result jrxn :=
  bind (energy_per_atom C r) (fun e =>
  Ok {| j_id := i; j_reactants := map (red C) (reactants (base_of r)); j_products := map (red C) (products (base_of r)); j_energy := e |}).
Definition views (rs : list rxn) : result (list jrxn) :=
  mapM (fun ir => view (fst ir) (snd ir)) (combine (seq 0 (length rs)) rs).

(* jobs/core.py:713-725 and costs/calculators.py:149-221 *)
Definition hull_scores (rs : list rxn) (a b : nat) (competing : list jrxn) (j : jrxn) : result (Q * Q) :=
  bind (mapM (fun x => index rs (j_id x)) competing) (fun others =>
  bind (index rs (j_id j)) (fun r =>
  bind (build C round12 argsort convex_hull lsq rank a b others) (fun h =>
  bind (calculate C round12 req Primary h r) (fun p =>
  bind (calculate C round12 req Secondary h r) (fun s => Ok (p, s)))))).

(* jobs/core.py:703 r != rxn *)
Definition same_rxn (rs : list rxn) (x y : jrxn) : bool :=
  match index rs (j_id x), index rs (j_id y) with Ok a, Ok b => req a b | _, _ => false end.

(* jobs/core.py:354-381 and 407-446: the target reactions with primary_competition and
   secondary_competition *)
Definition competition_job (wait : nat -> list nat -> list nat * list nat) (chunk_size : nat) (cpus memory : Q)
    (target : nat) (rs : list rxn) (open : option nat) : result (list (rxn * (Q * Q))) :=
  bind (views rs) (fun js =>
  bind (make (same_rxn rs) round4 (hull_scores rs) arrange wait chunk_size cpus memory target js open) (fun out =>
  mapM (fun x : scored => bind (index rs (j_id (fst x))) (fun r => Ok (r, snd x))) out)).
End Comp.
