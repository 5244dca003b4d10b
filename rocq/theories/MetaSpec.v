(* What the first two jobs should start from and report. *)
From Coq Require Import String Ascii Sorted.
From Verif Require Import Prelude EntryDbModel EntryDbSpec MetaModel.
Open Scope list_scope.
Open Scope nat_scope.

(* The entries of the materials that are not deprecated and made of these elements. *)
Definition available_in (materials : list material) (els : list string) (x : nat) : Prop :=
  exists m, In m materials /\ m_deprecated m = false /\ incl (m_elements m) els /\ In x (m_entries m).

(* l lists the members of a set once. *)
Definition enumerates (l : list string) (P : string -> Prop) : Prop := NoDup l /\ forall x, In x l <-> P x.
Definition increasing (l : list string) : Prop := StronglySorted (fun a b => String.leb a b = true) l.

(* The properties to ask for: if any were given, "theoretical" is among them, added at the end if it was missing. *)
Definition asks_for (given asked : option (list string)) : Prop :=
  match given, asked with
  | None, None => True
  | Some l, Some l' => (In "theoretical"%string l /\ l' = l) \/ (~ In "theoretical"%string l /\ l' = l ++ ["theoretical"%string])
  | _, _ => False
  end.
