(* Model of pathways/base.py, basic.py, balanced.py and pathway_set.py. *)
From Verif Require Import Prelude NumQ UtilsModel ReactionModel RxnSetModel.
Open Scope nat_scope.

Section Path.
Context {R : Type}.                       (* reactions *)
(* reaction equality (==), assumed not to raise; rxn.reactants, rxn.products,
   rxn.compositions as numbers *)
Variable req : R -> R -> bool.
Variable r_reactants r_products r_comps : R -> list nat.

(* basic.py:23-29 BasicPathway when p_coeffs is None; balanced.py:24-42
   BalancedPathway otherwise. costs=None is the empty list (costs or []). *)
Record path := { p_rxns : list R; p_costs : list Q; p_coeffs : option (list Q); p_balanced : bool }.

(* set difference, intersection and union of lists of numbers without repetition *)
Definition set_minus (a b : list nat) : list nat := filter (fun x => negb (memb Nat.eqb x b)) a.
Definition set_inter (a b : list nat) : list nat := filter (fun x => memb Nat.eqb x b) a.

(* base.py:26-54 *)
Definition all_reactants (p : path) : list nat := nodup Nat.eq_dec (flat_map r_reactants (p_rxns p)).
Definition all_products (p : path) : list nat := nodup Nat.eq_dec (flat_map r_products (p_rxns p)).
Definition path_comps (p : path) : list nat := nodup Nat.eq_dec (all_reactants p ++ all_products p).
Definition path_reactants (p : path) : list nat := set_minus (all_reactants p) (all_products p).
Definition path_products (p : path) : list nat := set_minus (all_products p) (all_reactants p).
Definition intermediates (p : path) : list nat := set_inter (all_products p) (all_reactants p).

(* basic.py:36-39 total_cost *)
Definition total_cost (p : path) : Q := Qsum (p_costs p).

(* all(other_rxn == rxn for other_rxn, rxn in zip(other.reactions, self.reactions)) *)
Definition rxns_eq (self other : list R) : bool := forallb (fun os => req (fst os) (snd os)) (combine other self).

(* basic.py:55-59 and balanced.py:131-135 __eq__. A comparison between the two classes
   is False in both directions: Python asks the subclass first, and a BasicPathway is
   not an instance of it. *)
Definition path_eq (self other : path) : result bool :=
  match p_coeffs self, p_coeffs other with
  | None, None => Ok (rxns_eq (p_rxns self) (p_rxns other))
  | Some _, Some _ => if rxns_eq (p_rxns self) (p_rxns other) then np_allclose (p_costs self) (p_costs other) else Ok false
  | _, _ => Ok false
  end.

(* basic.py:61-62 and balanced.py:137-138: what is hashed *)
Variable rhash : R -> nat.
Definition hash_key (p : path) : list nat * option (list Q) := (map rhash (p_rxns p), p_coeffs p).

(* balanced.py:126-129 average_cost. A sum of zero gives nan or inf in numpy; here
   ZeroDivisionError. A BasicPathway has no such attribute. *)
Definition average_cost (p : path) : result Q :=
  match p_coeffs p with
  | None => Err AttributeError
  | Some ms => bind (dot ms (p_costs p)) (fun d =>
               if Qeq_bool (Qsum ms) 0 then Err ZeroDivisionError else Ok (d / Qsum ms)%Q)
  end.

(* set(l) for reactions: the first of equal ones *)
Fixpoint set_list (l seen : list R) : list R :=
  match l with
  | [] => []
  | r :: l' => if memb req r seen then set_list l' seen else r :: set_list l' (r :: seen)
  end.

(* set(a).issubset(b) *)
Definition subset (a b : list nat) : bool := forallb (fun x => memb Nat.eqb x b) a.

(* balanced.py:93-104 for one combination: every member has a reactant in common with
   the products of another member. Line 101 looks a set of compositions up in a set
   of compositions: it is never found, so the test is always true and other_comp
   (line 90) has no influence. *)
Definition in_other_comp (phases : list nat) (other_comp : list nat) : bool := false.
Definition overlaps (prec : list nat) (combo : list R) (other_comp : list nat) (i : nat) : bool :=
  existsb (fun j =>
    negb (Nat.eqb i j) &&
    match nth_error combo i, nth_error combo j with
    | Some ri, Some rj =>
        let ov := set_inter (set_minus (r_reactants ri) prec) (set_minus (r_products rj) prec) in
        negb (Nat.eqb (length ov) 0) && negb (in_other_comp ov other_comp)
    | _, _ => false
    end) (seq 0 (length combo)).

(* balanced.py:68-109 contains_interdependent_rxns *)
Definition contains_interdependent (p : path) (prec : list nat) : bool :=
  let rxns := set_list (p_rxns p) [] in
  if Nat.eqb (length rxns) 1 then false
  else existsb (fun combo =>
    if existsb (fun r => subset (r_reactants r) prec) combo || Nat.eqb (length combo) 1 then false
    else let other := flat_map r_comps (filter (fun r => negb (memb req r combo)) rxns) in
         forallb (overlaps prec combo other) (seq 0 (length combo)))
    (limited_powerset rxns (length rxns)).
End Path.
Arguments path : clear implicits.

(* balanced.py:44-55 get_comp_matrix. The attribute all_comp does not exist, so the
   first element of the matrix raises AttributeError. *)
Definition get_comp_matrix {R} (r_reactants r_products : R -> list nat) (p : path R) : result (list (list Q)) :=
  mapM (fun _ => mapM (fun _ => Err AttributeError) (path_comps r_reactants r_products p)) (p_rxns p).

(* balanced.py:57-66 get_coeff_vector_for_rxn *)
Definition get_coeff_vector_for_rxn (p : path brxn) (r : brxn) : result (list Q) :=
  mapM (fun c => if memb Nat.eqb c (comps r) then get_coeff r c else Ok 0%Q) (path_comps reactants products p).

(* base.py:56-64 energy and energy_per_atom of a pathway *)
Definition path_energy (C : chem) (p : path rxn) : result Q := bind (mapM (energy C) (p_rxns p)) (fun l => Ok (Qsum l)).
Definition path_energy_per_atom (C : chem) (p : path rxn) : result Q := bind (mapM (energy_per_atom C) (p_rxns p)) (fun l => Ok (Qsum l)).

(* --- pathway_set.py --- *)
Record pathset := { s_rset : rset; s_indices : list (list nat); s_coeffs : list (option (list Q)); s_costs : list (list Q) }.

(* l.index(x): the first item with item == x *)
Fixpoint py_index {R} (req : R -> R -> bool) (x : R) (l : list R) : result nat :=
  match l with
  | [] => Err ValueError
  | y :: l' => if req y x then Ok 0 else bind (py_index req x l') (fun i => Ok (S i))
  end.

(* pathway_set.py:83-115 from_paths; [arrange] as in from_rxns *)
Definition from_paths (req : srxn -> srxn -> bool) (arrange : list sentry -> list sentry) (paths : list (path srxn)) : result pathset :=
  bind (from_rxns arrange (flat_map p_rxns paths) [] None 0%Q) (fun s =>
  bind (get_rxns s) (fun rxns =>
  bind (mapM (fun p => mapM (fun r => py_index req r rxns) (p_rxns p)) paths) (fun idx =>
  Ok {| s_rset := s; s_indices := idx; s_coeffs := map p_coeffs paths; s_costs := map p_costs paths |}))).

(* pathway_set.py:59-81 _get_paths. The flag [balanced] takes its default. *)
Definition get_paths (ps : pathset) : result (list (path srxn)) :=
  bind (get_rxns (s_rset ps)) (fun rxns =>
  mapM (fun t => let '(idx, co, cs) := t in
    bind (mapM (index rxns) idx) (fun rs =>
    Ok {| p_rxns := rs; p_costs := cs; p_coeffs := co; p_balanced := false |}))
    (zip3 (s_indices ps) (s_coeffs ps) (s_costs ps))).

(* pathway_set.py:121-123 __len__ *)
Definition pathset_len (ps : pathset) : nat := length (s_indices ps).
