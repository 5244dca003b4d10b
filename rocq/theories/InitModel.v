(* Model of _get_initialized_entries (enumerators/basic.py). *)
From Verif Require Import Prelude NumQ UtilsModel ReactionModel EnumModel EntrySetModel.
Open Scope nat_scope.

Section Init.
(* Formulas as the user writes them are numbers; the reduced formula of a composition is
   the text [reduced t]. *)
Variable reduced : nat -> nat.                  (* Composition(t).reduced_formula *)
Variable formula : nat -> nat.                  (* reduced formula of an entry *)
Variable epa : nat -> Q.
Variable interp : nat -> result nat.            (* get_interpolated_entry(text) *)
Variable stabilized : nat -> result nat.        (* get_stabilized_entry(entry) *)
Variable stable : list nat -> result (list nat). (* filter_by_stability(e_above_hull=0.0) *)

(* entries/utils.py:99-120 initialize_entry *)
Definition init_entry (stabilize : bool) (members : list nat) (t : nat) : result nat :=
  bind (match get_min_entry formula epa members (reduced t) with Err KeyError => interp t | r => r end) (fun e =>
  if stabilize then stabilized e else Ok e).

(* basic.py:332-333 initialize_entries_list *)
Definition init_list (stabilize : bool) (members texts : list nat) : result (list nat) :=
  bind (mapM (init_entry stabilize members) texts) (fun l => Ok (set_update l [])).

(* basic.py:346-354: the copy of the set gets the entry instead of the ground state of
   its formula *)
Definition put_entry (new : list nat) (e : nat) : list nat :=
  if mem e new then new
  else set_add e (match get_min_entry formula epa new (formula e) with Ok old => set_discard old new | Err _ => new end).

(* basic.py:329-366 _get_initialized_entries; the numbering by build_indices is left
   out. enumerators/base.py:34-35: no precursors is the empty list. *)
Definition initialized (stabilize : bool) (members precursors targets open_phases : list nat)
  : result (list nat * list nat * list nat * list nat) :=
  bind (init_list stabilize members precursors) (fun pre =>
  bind (init_list stabilize members targets) (fun tar =>
  let new := fold_left put_entry (set_update tar pre) members in
  bind (if stabilize then stable new else Ok new) (fun new =>
  Ok (new, pre, tar, filter (fun e => mem (formula e) open_phases) new)))).
End Init.
