(* Model of thermo/chempot_diagram.py: the hyperplanes, the domains and the offset of a
   chemical potential diagram. Elements, formulas and entries are numbers. *)
From Verif Require Import Prelude NumQ UtilsModel ReactionModel EntrySetModel EnumModel.
Open Scope nat_scope.

(* itertools.groupby(l, key): runs of equal keys *)
Fixpoint groupby (key : nat -> nat) (l : list nat) : list (list nat) :=
  match l with
  | [] => []
  | x :: l' =>
      match groupby key l' with
      | (y :: g) :: gs => if Nat.eqb (key x) (key y) then (x :: y :: g) :: gs else [x] :: (y :: g) :: gs
      | gs => [x] :: gs
      end
  end.
(* sorted(l, key), stable *)
Fixpoint insert_key (key : nat -> nat) (x : nat) (l : list nat) : list nat :=
  match l with [] => [x] | y :: l' => if Nat.leb (key x) (key y) then x :: y :: l' else y :: insert_key key x l' end.
Definition sorted_key (key : nat -> nat) (l : list nat) : list nat := fold_right (insert_key key) [] l.
(* min(l, key): the first least item *)
Fixpoint min_by (key : nat -> Q) (x : nat) (l : list nat) : nat :=
  match l with [] => x | y :: l' => if Qlt_bool (key y) (key x) then min_by key y l' else min_by key x l' end.

Section Diagram.
Variable els : nat -> list nat.              (* composition.elements *)
Variable frac : nat -> nat -> Q.             (* composition.get_atomic_fraction *)
Variable formula : nat -> nat.               (* composition.reduced_formula, in text order *)
Variable epa : nat -> Q.                     (* energy_per_atom *)
Variable same : nat -> nat -> bool.          (* entry == entry *)

(* chempot_diagram.py:65 self.elements *)
Definition diagram_elements (entries : list nat) : list nat := sorted_set (flat_map els entries).

(* pymatgen ChemicalPotentialDiagram._get_min_entries_and_el_refs *)
Definition least_entries (entries : list nat) : list nat :=
  flat_map (fun g => match g with [] => [] | x :: l => [min_by epa x l] end) (groupby formula entries).
Definition refs (mins : list nat) : list (nat * nat) :=
  dict_of (flat_map (fun e => match els e with [el] => [(el, e)] | _ => [] end) mins).

(* chempot_diagram.py:192-193 _get_hyperplane, without the last number, which is -epa *)
Definition normal (elements : list nat) (e : nat) : list Q := map (frac e) elements.

(* l.index(x) *)
Fixpoint first_same (x : nat) (l : list nat) : result nat :=
  match l with [] => Err ValueError | y :: l' => if same y x then Ok 0 else bind (first_same x l') (fun i => Ok (S i)) end.

(* numpy.dot of vectors of one length *)
Definition dotp (a b : list Q) : Q := Qsum (map (fun xy => (fst xy * snd xy)%Q) (combine a b)).
(* PhaseDiagram.formation_energy_tol *)
Definition FORMATION_TOL : Q := 1 # 100000000000.

(* chempot_diagram.py:175-190 _get_hyperplanes_and_entries: the entries; the
   hyperplanes are theirs *)
Definition hyperplane_entries (elements mins : list nat) : result (list nat) :=
  bind (mapM (fun el => match dict_get el (refs mins) with Some e => Ok (epa e) | None => Err KeyError end) elements) (fun vec =>
  let form_e e := (- (dotp (normal elements e) vec + (- epa e) * 1))%Q in
  bind (mapM (fun p => first_same (snd p) mins) (refs mins)) (fun more =>
  bind (mapM (fun i => match nth_error mins i with Some e => Ok e | None => Err IndexError end) more) (fun ref_entries =>
  Ok (filter (fun e => Qlt_bool (form_e e) (- FORMATION_TOL)) mins ++ ref_entries)))).

(* chempot_diagram.py:61-88 __init__ up to the halfspaces: the elements, the minimal
   entries and the entries with a hyperplane *)
Definition diagram_init (entries : list nat) : result (list nat * list nat * list nat) :=
  let sorted_entries := sorted_key formula entries in
  let elements := diagram_elements sorted_entries in
  let mins := least_entries sorted_entries in
  match mins with
  | [] => Err ValueError                       (* numpy.dot of shapes (0,) and (1,) *)
  | _ =>
  bind (hyperplane_entries elements mins) (fun planes =>
  if Nat.ltb (length elements) 2 then Err ValueError
  else if negb (Nat.eqb (length (refs mins)) (length elements)) then Err ValueError
  else Ok (elements, mins, planes))
  end.

(* A half space {x | normal x + offset <= 0} *)
Definition halfspace : Type := (list Q * Q)%type.
Definition entry_halfspace (elements : list nat) (e : nat) : halfspace := (normal elements e, (- epa e)%Q).
(* chempot_diagram.py:156-159; [borders] are the hyperplanes of the limits *)
Definition all_halfspaces (elements planes : list nat) (borders : list halfspace) : list halfspace :=
  map (entry_halfspace elements) planes ++ borders.

(* chempot_diagram.py:161-173 _get_domains, for hs_int.intersections and
   hs_int.dual_facets; [nborders] is the number of border hyperplanes *)
Definition put_point (planes : list nat) (nborders : nat) (p : list Q) (v : nat) (d : list (nat * list (list Q))) : result (list (nat * list (list Q))) :=
  if Nat.leb (length planes) v && Nat.ltb v (length planes + nborders) then Ok d
  else match nth_error planes v with
       | None => Err IndexError
       | Some e => match dict_get (formula e) d with
                   | None => Err KeyError
                   | Some pts => Ok (dict_set (formula e) (pts ++ [p]) d)
                   end
       end.
Fixpoint put_points (planes : list nat) (nborders : nat) (p : list Q) (facet : list nat) (d : list (nat * list (list Q))) : result (list (nat * list (list Q))) :=
  match facet with [] => Ok d | v :: facet' => bind (put_point planes nborders p v d) (put_points planes nborders p facet') end.
Fixpoint put_vertices (planes : list nat) (nborders : nat) (vs : list (list Q * list nat)) (d : list (nat * list (list Q))) : result (list (nat * list (list Q))) :=
  match vs with [] => Ok d | (p, facet) :: vs' => bind (put_points planes nborders p facet d) (put_vertices planes nborders vs') end.
Definition get_domains (planes : list nat) (nborders : nat) (vs : list (list Q * list nat)) : result (list (nat * list (list Q))) :=
  bind (put_vertices planes nborders vs (dict_of (map (fun e => (formula e, [])) planes))) (fun d =>
  Ok (filter (fun kv => negb (Nat.eqb (length (snd kv)) 0)) d)).
End Diagram.
