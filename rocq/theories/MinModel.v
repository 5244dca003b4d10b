(* Model of enumerators/minimize.py and of the two functions of enumerators/utils.py it
   uses. Entries, elements and reduced formulas are numbers. *)
From Coq Require Import QArith.
From Verif Require Import Prelude UtilsModel ReactionModel EnumModel EnumLinkModel EntrySetModel.
Open Scope nat_scope.

Section Minimize.
Context {P X : Type}.                           (* the phase diagrams of one chemical system; reactions *)
Variable elems : nat -> list nat.
Variable formula : nat -> nat.
Variable epa : nat -> Q.
(* PhaseDiagram and GrandPotentialPhaseDiagram of pymatgen; both may raise *)
Variable build : list nat -> result P.
(* the reactions get_kinks() of pymatgen lists for two compositions: the reduced
   formulas of their reactants and of their products *)
Variable kinks : P -> nat -> nat -> result (list (list nat * list nat)).
(* ComputedReaction.balance or, with chemical potentials, OpenComputedReaction.balance *)
Variable balance : list nat -> list nat -> result X.
Variable order : list nat -> list nat.          (* iteration order of a set *)

(* enumerators/utils.py:32-57 get_computed_rxn *)
Definition get_computed_rxn (entries : list nat) (rxn : list nat * list nat) : result X :=
  bind (mapM (get_min_entry formula epa entries) (fst rxn)) (fun rs =>
  bind (mapM (get_min_entry formula epa entries) (snd rxn)) (fun ps =>
  balance rs ps)).

(* enumerators/utils.py:60-92 react_interface *)
Definition react_interface (r1 r2 : nat) (entries : list nat) (pd : P) : result (list X) :=
  bind (kinks pd r1 r2) (fun ks => mapM (get_computed_rxn entries) ks).

(* The phase diagrams are looked up by chemical system (basic.py:205); [None] is a key
   that is not there. *)
Notation diagrams := (option (list nat * P)).

(* minimize.py:95-113 MinimizeGibbsEnumerator._react_function *)
Definition gibbs_react (reactants products : list nat) (d : diagrams) : result (list X) :=
  match d with
  | None => Err KeyError
  | Some (entries, pd) =>
      match order reactants with
      | [] => Err IndexError
      | [r0] => react_interface r0 r0 entries pd
      | r0 :: r1 :: _ => react_interface r0 r1 entries pd
      end
  end.

(* minimize.py:220-248 MinimizeGrandPotentialEnumerator._react_function; [open_elem] is
   the first key of the chemical potentials *)
Definition is_open_elem (open_elem r : nat) : bool :=
  match elems r with [x] => Nat.eqb x open_elem | _ => false end.
Definition grand_react (open_elem : nat) (reactants products : list nat) (d : diagrams) : result (list X) :=
  match d with
  | None => Err KeyError
  | Some (entries, pd) =>
      match order reactants with
      | [] => Err IndexError
      | r0 :: rest =>
          if existsb (is_open_elem open_elem) (order reactants) then Ok []
          else react_interface r0 (match rest with [] => r0 | r1 :: _ => r1 end) entries pd
      end
  end.

(* basic.py:611-633 _get_entries_and_pds for one chemical system *)
Definition system_diagram (entries : list nat) (k : list nat) : result (list nat * P) :=
  bind (get_subset elems entries k) (fun s => bind (build s) (fun pd => Ok (s, pd))).

(* basic.py:121-270 enumerate() with the phase diagrams of 168-193 built first; the
   chunks they are built in are modelled in [build_pd_dict]. [react] is one of the two
   react functions above. minimize.py:115-125 gives the iterable and its length. *)
Definition minimize_iter_length (combos opens : list (list nat)) : nat := length combos.
Definition min_enumerate (react : list nat -> list nat -> diagrams -> result (list erxn)) (o : options)
    (entries precursors targets open_entries : list nat)
    (wait : nat -> list (list (list (list nat * list nat) * diagrams)) -> list (list (list (list nat * list nat) * diagrams)) * list (list (list (list nat * list nat) * diagrams)))
    : result (list erxn) :=
  let keys := map fst (combos_dict elems o entries precursors targets open_entries) in
  bind (mapM (system_diagram entries) keys) (fun ds =>
  enumerate_rxns elems minimize_iterable minimize_iter_length react (fun k => lookup list_eqb k (combine keys ds))
    o entries precursors targets open_entries [] wait).
End Minimize.

(* The balance function of [get_computed_rxn] made of the modelled ComputedReaction, as
   _react (basic.py:586-600) reads it. *)
Definition balance_seen (C : chem) (ent : nat -> entry) (solve : list nat -> list nat -> list nat -> list Q)
    (rank : list nat -> list nat -> nat) (r p : list nat) : result erxn :=
  bind (real_balance C ent solve rank r p) (fun x =>
  Ok (seen_by_react C x (num_constraints (length r) (length p) (rank r p)))).
