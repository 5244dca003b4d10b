(* Model of the property metastable_domains of thermo/chempot_diagram.py. *)
From Verif Require Import Prelude NumQ ReactionModel EntrySetModel CpdModel.
Open Scope list_scope.
Open Scope nat_scope.

Section Domains.
Context {P : Type}.
Variable domains : nat -> option (list P).
Variable ground : list nat -> nat -> result nat.
Variable stabilized : list nat -> nat -> bool -> result nat.
Variable domain_in : list nat -> nat -> option (list P).

(* chempot_diagram.py:138-147: the dictionary comprehension over the formulas of
   self._min_entries; the diagram afterwards, and the dictionary *)
Fixpoint meta_loop (fs : list nat) (acc : list (nat * list P)) (c : @cpd P) : @cpd P * result (list (nat * list P)) :=
  match fs with
  | [] => (c, Ok acc)
  | f :: rest =>
      match domains f with
      | Some _ => meta_loop rest acc c
      | None =>
          let (c', r) := metastable ground stabilized domain_in f c in
          match r with
          | Err e => (c', Err e)
          | Ok d => meta_loop rest (dict_set f d acc) c'
          end
      end
  end.
Definition metastable_domains (fs : list nat) (c : @cpd P) : @cpd P * result (list (nat * list P)) := meta_loop fs [] c.
End Domains.
