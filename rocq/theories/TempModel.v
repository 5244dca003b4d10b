(* Model of get_new_temperature of computed and open reactions as it is called. *)
From Verif Require Import Prelude NumQ ReactionModel.
Open Scope nat_scope.

(* computed.py:91-101 and open.py:116-126. [warm e] is e.get_new_temperature(T), which
   raises AttributeError for entries without a temperature and ValueError outside the
   range; a table maps compositions to entries. *)
Definition entries_at (warm : entry -> result entry) (table : option (list (nat * entry))) (es : list entry) : result (list entry) :=
  match table with
  | None => mapM warm es
  | Some d => new_entries (fun e => dict_get (e_comp e) d) es
  end.

(* computed.py:81-108; the argument entries_at_temp may be left out ([None]) and is
   then None *)
Definition computed_get_new_temperature (C : chem) (warm : entry -> result entry) (arg : option (option (list (nat * entry)))) (r : crxn) : result crxn :=
  bind (entries_at warm (match arg with Some t => t | None => None end) (c_entries r)) (fun es =>
  Ok (computed_init C es (coeffs (c_base r)) (num_errors (c_base r)))).

(* open.py:107-133; the argument has no default *)
Definition open_get_new_temperature (C : chem) (warm : entry -> result entry) (arg : option (option (list (nat * entry)))) (r : orxn) : result orxn :=
  match arg with
  | None => Err TypeError
  | Some table =>
      bind (entries_at warm table (c_entries (o_base r))) (fun es =>
      Ok (open_init C es (coeffs (c_base (o_base r))) (chempots r) (num_errors (c_base (o_base r)))))
  end.

(* The table the docstring (computed.py:88-89) describes, for the entries of a set:
   {e.composition: e.get_new_temperature(T) for e in entries} *)
Definition table_at (warm : entry -> result entry) (es : list entry) : result (list (nat * entry)) :=
  bind (mapM warm es) (fun ws => Ok (dict_of (combine (map e_comp es) ws))).
