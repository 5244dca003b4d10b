(* Model of GibbsEntrySet.from_computed_entries. *)
From Verif Require Import Prelude UtilsModel ReactionModel EnumModel RunModel EntrySetModel.
Open Scope nat_scope.

(* Entries made from the same source are equal. *)
Definition made_eqb (a b : made) : bool :=
  match a, b with
  | FromNist f, FromNist g => Nat.eqb f g
  | FromFreed f, FromFreed g => Nat.eqb f g
  | FromPd e, FromPd e' => Nat.eqb e e'
  | _, _ => false
  end.
Definition made_update (new old : list made) : list made :=
  fold_left (fun acc x => if memb made_eqb x acc then acc else acc ++ [x]) new old.

Section Build.
Variable elems : nat -> list nat.
Variable formula : nat -> nat.
Variable is_el : nat -> bool.
Variable is_ref : list nat -> nat -> bool.       (* entry in el_refs of the diagram of these entries *)
Variables nist freed : source.
Variables use_nist use_freed ignore_solids : bool.
Variable build : nat -> result unit.
Definition one_pd (entries : list nat) : result (list made) :=
  from_pd formula is_el (is_ref entries) nist freed use_nist use_freed ignore_solids build entries.

(* entries/entry_set.py:538-553 *)
Fixpoint each_pd (pds : list (list nat)) (acc : list made) : result (list made) :=
  match pds with
  | [] => Ok acc
  | pd :: rest => bind (one_pd pd) (fun l => each_pd rest (made_update l acc))
  end.

(* entries/entry_set.py:472-555 from_computed_entries; the second component is the
   attribute calculate_e_above_hulls of the set that is returned. Building a diagram is
   assumed not to raise. *)
Definition from_computed (entries : list nat) (calc : bool) : result (list made * bool) :=
  if length (chem_sys elems entries) <=? 9
  then bind (one_pd entries) (fun l => Ok (made_update l [], calc))
  else bind (each_pd (map snd (expand_pd elems entries)) []) (fun l => Ok (l, false)).
End Build.
