(* Model of ReactionSet.to_dataframe, calculate_costs and compute_at_temperatures
   (reactions/reaction_set.py). *)
From Coq Require Import String.
From Verif Require Import Prelude NumQ ReactionModel RxnSetModel.
Local Open Scope string_scope.
Open Scope nat_scope.
Open Scope list_scope.

(* What the table reads from an entry: data.get("e_above_hull") (a missing key and None
   are the same), whether data has "icsd_ids" or "theoretical", is_experimental. *)
Record fentry := { f_hull : option Q; f_origin : bool; f_experimental : bool }.
(* What the table reads from a reaction. [f_precursors]: len(c.elements) for c in
   rxn.reactants. [f_system]: the elements of chemical_system, or of
   total_chemical_system for an open reaction. Uncertainty and separability may raise. *)
Record frxn := {
  f_id : nat;
  f_energy : result Q;
  f_uncertainty : result Q;
  f_entries : list fentry;
  f_reactants : list fentry;
  f_products : list fentry;
  f_precursors : list nat;
  f_system : list nat;
  f_separable : result bool;
  f_data : list (string * nat)
}.

Inductive cell :=
| Rxn (i : nat) | Num (q : Q) | Count (n : nat) | Elems (l : list nat) | Flag (b : bool) | Datum (v : option nat).

(* A dict of lists, in insertion order. *)
Definition frame := list (string * list cell).
Fixpoint put (k : string) (d : frame) : frame :=          (* d[k] = [] *)
  match d with
  | [] => [(k, [])]
  | (k', v) :: d' => if String.eqb k k' then (k', []) :: d' else (k', v) :: put k d'
  end.
Fixpoint append (k : string) (c : cell) (d : frame) : result frame :=   (* d[k].append(c) *)
  match d with
  | [] => Err KeyError
  | (k', v) :: d' => if String.eqb k k' then Ok ((k', v ++ [c]) :: d') else bind (append k c d') (fun d'' => Ok ((k', v) :: d''))
  end.
Fixpoint get_datum (k : string) (d : list (string * nat)) : option nat :=
  match d with [] => None | (k', v) :: d' => if String.eqb k k' then Some v else get_datum k d' end.

(* max(l); ValueError for an empty sequence *)
Definition maxQ (l : list Q) : result Q :=
  match l with [] => Err ValueError | x :: l' => Ok (fold_left (fun m y => if Qlt_bool m y then y else m) l' x) end.
Definition maxN (l : list nat) : result nat :=
  match l with [] => Err ValueError | x :: l' => Ok (fold_left (fun m y => if Nat.ltb m y then y else m) l' x) end.

(* e.data.get("e_above_hull", 0.0) or 0.0 *)
Definition hull_or_zero (e : fentry) : Q := match f_hull e with Some q => q | None => 0%Q end.

(* reaction_set.py:612-626 _get_added_elems, as the sorted list of elements *)
Fixpoint insert_el (e : nat) (l : list nat) : list nat :=
  match l with [] => [e] | x :: l' => if Nat.leb e x then e :: l else x :: insert_el e l' end.
Definition added_elems (r : frxn) (target : list nat) : list nat :=
  fold_right insert_el [] (filter (fun e => negb (memb Nat.eqb e target)) (nodup Nat.eq_dec (f_system r))).

Section Table.
Variable evaluate : frxn -> result Q.            (* cost_function.evaluate *)
(* the elements of the target composition, if one is given *)
Variable target : option (list nat).
Variable calculate_uncertainties calculate_separable : bool.

(* reaction_set.py:215-234: attributes and switches from the first reaction *)
Definition first_look (rxns : list frxn) : result (list string * bool * bool) :=
  match rxns with
  | [] => Ok ([], false, false)
  | r :: _ =>
      bind (index (f_entries r) 0) (fun e =>
      Ok (map fst (f_data r), match f_hull e with Some _ => true | None => false end, f_origin e))
  end.

(* reaction_set.py:238-239; list.remove takes away the first occurrence *)
Fixpoint remove_first (k : string) (l : list string) : list string :=
  match l with [] => [] | x :: l' => if String.eqb x k then l' else x :: remove_first k l' end.

(* reaction_set.py:211, 226-231, 240-249: the columns in their order *)
Definition built_in (hulls theoretical : bool) : list string :=
  ["rxn"; "energy"]
  ++ (if hulls then ["max_e_hull_reactants"; "max_e_hull_products"] else [])
  ++ (if theoretical then ["num_theoretical_reactants"; "num_theoretical_products"] else [])
  ++ (if calculate_uncertainties then ["dE"] else [])
  ++ (match target with Some _ => "added_elems" :: (if calculate_separable then ["separable"] else []) | None => [] end)
  ++ ["max_num_precursor_elems"].
Definition columns (hulls theoretical : bool) (attrs : list string) : frame :=
  fold_left (fun d k => put k d) (built_in hulls theoretical ++ attrs ++ ["cost"]) [].

(* reaction_set.py:251-278: what is appended for one reaction, in order *)
Definition row (hulls theoretical : bool) (attrs : list string) (r : frxn) : list (string * result cell) :=
  [("rxn", Ok (Rxn (f_id r))); ("energy", bind (f_energy r) (fun q => Ok (Num q)))]
  ++ (if calculate_uncertainties then [("dE", bind (f_uncertainty r) (fun q => Ok (Num q)))] else [])
  ++ (match target with
      | Some t => ("added_elems", Ok (Elems (added_elems r t)))
                  :: (if calculate_separable then [("separable", bind (f_separable r) (fun b => Ok (Flag b)))] else [])
      | None => []
      end)
  ++ (if hulls then [("max_e_hull_reactants", bind (maxQ (map hull_or_zero (f_reactants r))) (fun q => Ok (Num q)));
                     ("max_e_hull_products", bind (maxQ (map hull_or_zero (f_products r))) (fun q => Ok (Num q)))] else [])
  ++ (if theoretical then [("num_theoretical_reactants", Ok (Count (length (filter (fun e => negb (f_experimental e)) (f_reactants r)))));
                           ("num_theoretical_products", Ok (Count (length (filter (fun e => negb (f_experimental e)) (f_products r)))))] else [])
  ++ [("max_num_precursor_elems", bind (maxN (f_precursors r)) (fun n => Ok (Count n)))]
  ++ map (fun a => (a, Ok (Datum (get_datum a (f_data r))))) attrs
  ++ [("cost", bind (evaluate r) (fun q => Ok (Num q)))].

Fixpoint append_row (cells : list (string * result cell)) (d : frame) : result frame :=
  match cells with
  | [] => Ok d
  | (k, c) :: rest => bind c (fun v => bind (append k v d) (append_row rest))
  end.
Fixpoint append_rows (rows : list (list (string * result cell))) (d : frame) : result frame :=
  match rows with [] => Ok d | cells :: rest => bind (append_row cells d) (append_rows rest) end.

(* pandas: DataFrame(dict of lists) needs equal lengths; [argsort] is the order used by
   sort_values (quicksort: ties in any order); reset_index drops the old numbers *)
Variable argsort : list Q -> list nat.
Definition same_lengths (d : frame) : bool :=
  match d with [] => true | (_, c) :: d' => forallb (fun kc => Nat.eqb (length (snd kc)) (length c)) d' end.
Definition as_num (c : cell) : result Q := match c with Num q => Ok q | _ => Err TypeError end.
Fixpoint column (k : string) (d : frame) : result (list cell) :=
  match d with [] => Err KeyError | (k', v) :: d' => if String.eqb k k' then Ok v else column k d' end.
Definition sorted_frame (d : frame) : result frame :=
  if same_lengths d then
    bind (column "cost" d) (fun c => bind (mapM as_num c) (fun costs =>
    mapM (fun kc => bind (mapM (index (snd kc)) (argsort costs)) (fun v => Ok (fst kc, v))) d))
  else Err ValueError.

(* reaction_set.py:189-280 to_dataframe of a set whose reactions are [rxns]. The
   lru_cache around it is not modelled. *)
Definition to_dataframe (rxns : list frxn) : result frame :=
  bind (first_look rxns) (fun look =>
  let '(attrs, hulls, theoretical) := look in
  let attrs := remove_first "num_constraints" attrs in
  bind (append_rows (map (row hulls theoretical attrs) rxns) (columns hulls theoretical attrs)) sorted_frame).
End Table.

(* reaction_set.py:282-291 calculate_costs *)
Definition calculate_costs (evaluate : frxn -> result Q) (rxns : list frxn) : result (list Q) := mapM evaluate rxns.

(* reaction_set.py:549-570 compute_at_temperatures. [warm t e] is
   e.get_new_temperature(t); the reactions are listed once. *)
Definition compute_at_temperatures (arrange : list sentry -> list sentry) (warm : nat -> sentry -> sentry) (s : rset) (temps : list nat)
  : result (list (nat * rset)) :=
  bind (get_rxns s) (fun rs =>
  bind (mapM (fun t => bind (mapM (warm_rxn (temp_table (warm t) (r_entries s))) rs) (fun new =>
                       bind (from_rxns arrange new [] (r_open s) (r_chempot s)) (fun s' => Ok (t, s')))) temps)
       (fun l => Ok (dict_of l))).
