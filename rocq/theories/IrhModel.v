(* Model of InterfaceReactionHull (reactions/hull.py) from its reactions: the constructor,
   get_coordinate and the scores of a reaction. What is computed from the coordinates is in
   HullModel. Also the competition calculators of costs/calculators.py. *)
From Verif Require Import Prelude NumQ UtilsModel ReactionModel HullModel.
Open Scope nat_scope.

(* reactions/computed.py:43 reactant_entries, found through the class of the reaction *)
Definition used_entries (r : rxn) : list entry :=
  match r with RBasic _ => [] | RComputed k => reactant_entries k | ROpen o => reactant_entries (o_base o) end.
(* basic.py:226-234 and open.py:182-191 *)
Definition fractions (C : chem) (r : rxn) : result (list (nat * Q)) :=
  match r with
  | RBasic b => reactant_atomic_fractions C b
  | RComputed k => reactant_atomic_fractions C (c_base k)
  | ROpen o => open_reactant_atomic_fractions C o
  end.

Section Build.
Variable C : chem.
Variable round12 : Q -> Q.                               (* round(_, 12) *)
Variable argsort : list Q -> list nat.                   (* numpy's argsort *)
Variable convex_hull : list coord -> result (list nat).  (* ConvexHull(_).vertices *)
Variable lsq : list nat -> list nat -> list nat -> list Q. (* the pseudo-inverse in _balance_coeffs *)
Variable rank : list nat -> list nat -> nat.             (* numpy.linalg.matrix_rank *)
Variable req : rxn -> rxn -> bool.                       (* a is b or a == b *)

(* hull.py:101-113 get_coordinate. Without both reactants the integers 0 are divided:
   ZeroDivisionError, made a ValueError. If one of them is there without atoms that count
   (an open element) numpy's nan is ZeroDivisionError here. *)
Definition get_coordinate (c1 c2 : nat) (r : rxn) : result Q :=
  bind (fractions C r) (fun d =>
  match dict_get c1 d, dict_get c2 d with
  | None, None => Err ValueError
  | a1, a2 =>
      let amt_c1 := match a1 with Some q => q | None => 0%Q end in
      let amt_c2 := match a2 with Some q => q | None => 0%Q end in
      if Qeq_bool (amt_c1 + amt_c2) 0 then Err ZeroDivisionError else Ok (round12 (amt_c2 / (amt_c1 + amt_c2))%Q)
  end).

(* hull.py:42-48, the entries of one reaction *)
Definition look_at (c1 c2 : nat) (ends : option entry * option entry) (e : entry) : option entry * option entry :=
  if Nat.eqb (red C (e_comp e)) c1 then (Some e, snd ends)
  else if Nat.eqb (red C (e_comp e)) c2 then (fst ends, Some e) else ends.
(* hull.py:42-57 with break and else *)
Fixpoint find_ends (c1 c2 : nat) (ends : option entry * option entry) (rs : list rxn) : result (entry * entry) :=
  match rs with
  | [] => Err ValueError
  | r :: rs' =>
      match fold_left (look_at c1 c2) (used_entries r) ends with
      | (Some e1, Some e2) => Ok (e1, e2)
      | ends => find_ends c1 c2 ends rs'
      end
  end.

(* hull.py:59-62: e -> e *)
Definition end_reaction (e : entry) : result rxn :=
  let c := red C (e_comp e) in
  bind (computed_balance C [e] [e] (lsq [c] [c]) (rank [c] [c])) (fun r => Ok (RComputed r)).

Record irh := { i_c1 : nat; i_c2 : nat; i_reactions : list rxn; i_hull : hull }.

(* hull.py:25-75 __init__ *)
Definition build (comp1 comp2 : nat) (rs : list rxn) : result irh :=
  let c1 := red C comp1 in
  let c2 := red C comp2 in
  bind (find_ends c1 c2 (None, None) rs) (fun ends =>
  bind (end_reaction (fst ends)) (fun r1 =>
  bind (end_reaction (snd ends)) (fun r2 =>
  bind (mapM (fun r => bind (get_coordinate c1 c2 r) (fun x => bind (energy_per_atom C r) (fun y => Ok (x, y)))) rs) (fun pts =>
  let pts := pts ++ [(0, 0); (1, 0)]%Q in
  let idx_sort := argsort (map fst pts) in
  bind (mapM (index pts) idx_sort) (fun cs =>
  bind (mapM (index (rs ++ [r1; r2])) idx_sort) (fun reactions =>
  bind (convex_hull cs) (fun vs =>
  Ok {| i_c1 := c1; i_c2 := c2; i_reactions := reactions; i_hull := {| coords := cs; qhull := vs |} |}))))))).

(* self.reactions.index(reaction) *)
Fixpoint position (r : rxn) (l : list rxn) : result nat :=
  match l with
  | [] => Err ValueError
  | x :: l' => if req x r then Ok 0 else bind (position r l') (fun i => Ok (S i))
  end.

(* hull.py:95-99 get_energy_above_hull *)
Definition above_hull (h : irh) (r : rxn) : result Q :=
  bind (position r (i_reactions h)) (get_energy_above_hull (i_hull h)).
(* hull.py:151-182 get_primary_competition *)
Definition primary (h : irh) (r : rxn) : result Q :=
  bind (energy_per_atom C r) (fun energy =>
  bind (get_coordinate (i_c1 h) (i_c2 h) r) (fun x => get_primary_competition (i_hull h) energy x)).
(* hull.py:184-250 get_secondary_competition; -1 * (energy - e_above_hull) with include_e_hull *)
Definition secondary (h : irh) (r : rxn) (normalize include_e_hull recursive : bool) : result Q :=
  bind (get_coordinate (i_c1 h) (i_c2 h) r) (fun x =>
  bind (get_secondary_competition (i_hull h) x normalize recursive) (fun s =>
  if include_e_hull then bind (above_hull h r) (fun d => Ok (-1 * (-1 * s - d))%Q) else Ok s)).
(* hull.py:252-264 get_secondary_competition_max_energy *)
Definition secondary_max (h : irh) (r : rxn) : result Q :=
  bind (get_coordinate (i_c1 h) (i_c2 h) r) (get_secondary_competition_max_energy (i_hull h)).

(* hull.py:595-607 stable_reactions, unstable_reactions *)
Definition numbered (l : list rxn) : list (nat * rxn) := combine (seq 0 (length l)) l.
Definition stable_reactions (h : irh) : list rxn :=
  map snd (filter (fun ir => memb Nat.eqb (fst ir) (hull_vertices (i_hull h))) (numbered (i_reactions h))).
Definition unstable_reactions (h : irh) : list rxn :=
  map snd (filter (fun ir => negb (memb Nat.eqb (fst ir) (hull_vertices (i_hull h)))) (numbered (i_reactions h))).

(* costs/calculators.py:149-283; the area calculator is in CalcModel *)
Inductive calculator := Primary | Secondary | SecondaryWithEhull | SecondaryMax.
Definition calculate (k : calculator) (h : irh) (r : rxn) : result Q :=
  match k with
  | Primary => primary h r
  | Secondary => secondary h r true false false
  | SecondaryWithEhull => secondary h r true true false
  | SecondaryMax => secondary_max h r
  end.
End Build.
