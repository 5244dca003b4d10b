(* Model of costs/calculators.py ChempotDistanceCalculator and of the distances of
   thermo/chempot_diagram.py. *)
From Coq Require Import String.
From Verif Require Import Prelude NumQ UtilsModel ReactionModel EntrySetModel SolverModel EnumModel RunModel JobsModel.
Open Scope list_scope.
Open Scope nat_scope.

(* --- Aggregation --- *)
(* mu_func: a name or a function. A value None stands for nan. *)
Inductive mu_arg := Name (s : string) | Func (f : list Q -> result (option Q)).

(* sum, max and np.mean of a list *)
Definition agg_sum (l : list Q) : result (option Q) := Ok (Some (Qsum l)).
Definition agg_max (l : list Q) : result (option Q) := bind (arr_max l) (fun m => Ok (Some m)).
Definition agg_mean (l : list Q) : result (option Q) :=
  match l with [] => Ok None | _ => Ok (Some (Qsum l / inject_Z (Z.of_nat (length l)))%Q) end.

(* calculators.py:54-61: the attribute mu_func, None if it is not set. Comparing a
   function with a string gives False. *)
Definition mu_init (a : mu_arg) : result (option (list Q -> result (option Q))) :=
  match a with
  | Name s =>
      if String.eqb s "max" then Ok (Some agg_max)
      else if String.eqb s "mean" then Ok (Some agg_mean)
      else if String.eqb s "sum" then Ok (Some agg_sum)
      else Err ValueError
  | Func _ => Ok None
  end.

(* A reaction: entries with coefficients; [grand] tells for an open reaction which
   entries are grand potential entries (reactions/open.py:55-63). *)
Record creaction := { c_entries : list (nat * Q); c_grand : option (nat -> bool) }.

(* calculators.py:80-93, computed.py:43-44 *)
Definition side (pick : Q -> bool) (r : creaction) : list nat :=
  map fst (filter (fun ec => pick (snd ec) && match c_grand r with Some g => g (fst ec) | None => true end) (c_entries r)).
Definition reactant_side (r : creaction) : list nat := side (fun c => Qlt_bool c 0) r.
Definition product_side (r : creaction) : list nat := side (fun c => Qlt_bool 0 c) r.

(* itertools.product(a, b) and combinations(l, 2) *)
Definition pairs_product (a b : list nat) : list (nat * nat) := flat_map (fun x => map (fun y => (x, y)) b) a.
Fixpoint pairs_of (l : list nat) : list (nat * nat) :=
  match l with [] => [] | x :: l' => map (fun y => (x, y)) l' ++ pairs_of l' end.

(* calculators.py:67-107 calculate. [distance a b] is shortest_domain_distance for the
   formulas of two entries with their offsets; its effect on the diagram is left out.
   The attribute is looked up after the distances are computed. *)
Definition calculate (round5 : Q -> Q) (distance : nat -> nat -> result Q) (mu : option (list Q -> result (option Q))) (r : creaction) : result (option Q) :=
  let rs := reactant_side r in let ps := product_side r in
  bind (mapM (fun p => distance (fst p) (snd p)) (pairs_product rs ps ++ pairs_of ps)) (fun ds =>
  match mu with
  | None => Err AttributeError
  | Some f => bind (f ds) (fun v => Ok (option_map round5 v))
  end).

(* --- Distances --- *)
Section Distance.
Context {P : Type}.                                   (* points *)
Variable dist : P -> P -> Q.                          (* Euclidean distance *)

(* chempot_diagram.py:107-109; KDTree(pts1).query(pts2)[0] holds the distance from each
   point of pts2 to the nearest point of pts1 *)
Definition shortest (pts1 pts2 : list P) (offset : Q) : result Q :=
  bind (mapM (fun p => arr_min (map (fun q => dist q p) pts1)) pts2) (fun ds =>
  bind (arr_min ds) (fun m => Ok (m + offset)%Q)).

(* --- Domains of metastable phases --- *)
(* self._entry_set and self._metastable_domains *)
Record cpd := { c_set : list nat; c_cache : list (nat * list P) }.

(* self.domains *)
Variable domains : nat -> option (list P).
(* get_min_entry_by_formula, get_stabilized_entry (with its tolerance) of a set *)
Variable ground : list nat -> nat -> result nat.
Variable stabilized : list nat -> nat -> bool -> result nat.
(* ChemicalPotentialDiagram(set, default_min_limit=-500).domains[formula], None for a
   KeyError; building the diagram is assumed not to raise *)
Variable domain_in : list nat -> nat -> option (list P).

(* MutableSet.remove *)
Definition set_remove (e : nat) (l : list nat) : result (list nat) := if mem e l then Ok (set_discard e l) else Err KeyError.

(* chempot_diagram.py:224-227 *)
Definition store (f : nat) (d : list P) (set : list nat) (new : nat) (c : cpd) : cpd * result (list P) :=
  let cache := dict_set f d (c_cache c) in
  match set_remove new set with
  | Err e => ({| c_set := set; c_cache := cache |}, Err e)
  | Ok set' => ({| c_set := set'; c_cache := cache |}, Ok d)
  end.
Definition with_set (set : list nat) (c : cpd) : cpd := {| c_set := set; c_cache := c_cache c |}.

(* chempot_diagram.py:195-227 _get_metastable_domain: the diagram afterwards, and the
   result *)
Definition metastable (f : nat) (c : cpd) : cpd * result (list P) :=
  match dict_get f (c_cache c) with
  | Some d => (c, Ok d)
  | None =>
  match ground (c_set c) f with
  | Err e => (c, Err e)
  | Ok orig =>
  match stabilized (c_set c) orig false with
  | Err e => (c, Err e)
  | Ok new =>
  let s1 := set_add new (c_set c) in
  match domain_in s1 f with
  | Some d => store f d s1 new c
  | None =>
  match set_remove new s1 with
  | Err e => (with_set s1 c, Err e)
  | Ok s2 =>
  match stabilized s2 orig true with
  | Err e => (with_set s2 c, Err e)
  | Ok new2 =>
  let s3 := set_add new2 s2 in
  match domain_in s3 f with
  | Some d => store f d s3 new2 c
  | None => (with_set s3 c, Err ValueError)
  end end end end end end end.

(* chempot_diagram.py:89-109 shortest_domain_distance *)
Definition domain_of (f : nat) (c : cpd) : cpd * result (list P) :=
  match domains f with Some d => (c, Ok d) | None => metastable f c end.
Definition shortest_domain_distance (f1 f2 : nat) (offset : Q) (c : cpd) : cpd * result Q :=
  let (c1, r1) := domain_of f1 c in
  match r1 with
  | Err e => (c1, Err e)
  | Ok p1 =>
      let (c2, r2) := domain_of f2 c1 in
      (c2, bind r2 (fun p2 => shortest p1 p2 offset))
  end.
End Distance.
Arguments Build_cpd {P}.

(* --- The chempot distance job --- *)
Section Chunks.
Variable system : nat -> list nat.                    (* rxn.elements = chemical_system *)

(* jobs/core.py:774-793: for each reaction the chemical system of the diagram with which
   it is decorated; the keys of cpd_calc_dict are [systems] *)
Fixpoint use_systems (systems : list (list nat)) (rxns : list nat) : list (nat * list nat) :=
  match rxns with
  | [] => []
  | r :: rest =>
      match find (fun c => subset (system r) c) systems with
      | Some c => (r, c) :: use_systems systems rest
      | None => (r, system r) :: use_systems (systems ++ [system r]) rest
      end
  end.
(* jobs/core.py:759-795 _get_chempot_decorated_rxns_by_chunk, up to from_rxns *)
Definition chempot_chunk (chunk : list (option nat)) : list (nat * list nat) :=
  use_systems [] (sort_desc (fun r => length (system r)) (flat_map (fun o => match o with Some r => [r] | None => [] end) chunk)).
(* jobs/core.py:448-479 _get_chempot_decorated_rxns; [by_system] sorts by the name of
   the chemical system *)
Definition chempot_job (wait : nat -> list nat -> list nat * list nat) (by_system : list nat -> list nat) (chunk_size : nat) (rxns : list nat) : result (list (nat * list nat)) :=
  bind (grouper (map Some (by_system rxns)) chunk_size None) (fun chunks =>
  bind (gather wait (fun c => Ok (chempot_chunk c)) chunks) (fun ls => Ok (concat ls))).
End Chunks.
