(* Vocabulary for the table of a reaction set. *)
From Coq Require Import String Sorted.
From Verif Require Import Prelude NumQ FrameModel.
Local Open Scope string_scope.
Open Scope nat_scope.
Open Scope list_scope.

(* q is the greatest value of f on the items of l. *)
Definition greatest {A} (f : A -> Q) (l : list A) (q : Q) : Prop := (exists x, In x l /\ f x = q) /\ forall x, In x l -> (f x <= q)%Q.

(* The energy above hull that counts for an entry; unknown ones count as 0. *)
Definition above (e : fentry) : Q := match f_hull e with Some q => q | None => 0%Q end.

(* Names with a meaning of their own. *)
Definition reserved : list string :=
  ["rxn"; "energy"; "dE"; "added_elems"; "separable"; "max_e_hull_reactants"; "max_e_hull_products";
   "num_theoretical_reactants"; "num_theoretical_products"; "max_num_precursor_elems"; "cost"].

(* The value [k] shows of the reaction [r]. *)
Definition describes (evaluate : frxn -> result Q) (target : option (list nat)) (r : frxn) (k : string) (c : cell) : Prop :=
  (k = "rxn" -> c = Rxn (f_id r))
  /\ (k = "energy" -> exists q, f_energy r = Ok q /\ c = Num q)
  /\ (k = "dE" -> exists q, f_uncertainty r = Ok q /\ c = Num q)
  /\ (k = "added_elems" -> exists t l, target = Some t /\ c = Elems l /\ StronglySorted lt l /\ forall e, In e l <-> In e (f_system r) /\ ~ In e t)
  /\ (k = "separable" -> exists b, f_separable r = Ok b /\ c = Flag b)
  /\ (k = "max_e_hull_reactants" -> exists q, c = Num q /\ greatest above (f_reactants r) q)
  /\ (k = "max_e_hull_products" -> exists q, c = Num q /\ greatest above (f_products r) q)
  /\ (k = "num_theoretical_reactants" -> exists l, Permutation (l ++ filter f_experimental (f_reactants r)) (f_reactants r)
      /\ (forall e, In e l -> f_experimental e = false) /\ c = Count (length l))
  /\ (k = "num_theoretical_products" -> exists l, Permutation (l ++ filter f_experimental (f_products r)) (f_products r)
      /\ (forall e, In e l -> f_experimental e = false) /\ c = Count (length l))
  /\ (k = "max_num_precursor_elems" -> exists n, c = Count n /\ In n (f_precursors r) /\ forall m, In m (f_precursors r) -> m <= n)
  /\ (k = "cost" -> exists q, evaluate r = Ok q /\ c = Num q)
  /\ (~ In k reserved -> (exists v, In (k, v) (f_data r) /\ c = Datum (Some v)) \/ ((forall v, ~ In (k, v) (f_data r)) /\ c = Datum None)).

(* The columns the documentation lists, given the switches and the first reaction. *)
Definition shows_hulls (rxns : list frxn) : Prop := exists r rest e es q, rxns = r :: rest /\ f_entries r = e :: es /\ f_hull e = Some q.
Definition shows_origin (rxns : list frxn) : Prop := exists r rest e es, rxns = r :: rest /\ f_entries r = e :: es /\ f_origin e = true.
Definition attribute (rxns : list frxn) (k : string) : Prop :=
  exists r rest v, rxns = r :: rest /\ In (k, v) (f_data r) /\ k <> "num_constraints".
Definition shown (target : option (list nat)) (uncertainties separable : bool) (rxns : list frxn) (k : string) : Prop :=
  In k ["rxn"; "energy"; "max_num_precursor_elems"; "cost"]
  \/ In k ["max_e_hull_reactants"; "max_e_hull_products"] /\ shows_hulls rxns
  \/ In k ["num_theoretical_reactants"; "num_theoretical_products"] /\ shows_origin rxns
  \/ In k ["dE"] /\ uncertainties = true
  \/ In k ["added_elems"] /\ target <> None
  \/ In k ["separable"] /\ target <> None /\ separable = true
  \/ attribute rxns k.

(* What an order by value gives: every position once, values increasing. *)
Definition orders (argsort : list Q -> list nat) : Prop :=
  forall l, Permutation (argsort l) (seq 0 (length l)) /\ StronglySorted Qle (map (fun i => nth i l 0%Q) (argsort l)).

(* The cheaper or equally cheap of two reactions. *)
Definition cheaper (evaluate : frxn -> result Q) (a b : frxn) : Prop :=
  exists p q, evaluate a = Ok p /\ evaluate b = Ok q /\ (p <= q)%Q.

(* Every value that the table needs can be computed. *)
Definition fillable (evaluate : frxn -> result Q) (target : option (list nat)) (uncertainties separable : bool) (rxns : list frxn) : Prop :=
  forall r, In r rxns ->
  (exists q, f_energy r = Ok q) /\ (exists q, evaluate r = Ok q) /\ f_precursors r <> []
  /\ (uncertainties = true -> exists q, f_uncertainty r = Ok q)
  /\ (target <> None -> separable = true -> exists b, f_separable r = Ok b)
  /\ (shows_hulls rxns -> f_reactants r <> [] /\ f_products r <> []).
