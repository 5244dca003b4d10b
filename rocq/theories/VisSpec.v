(* Vocabulary for C141. *)
From Coq Require Import String Sorted.
From Verif Require Import Prelude.
Open Scope list_scope.
Open Scope nat_scope.

(* The order lists each of the given symbols, in a way that depends only on the set. *)
Definition orders (order : list string -> list string) : Prop :=
  (forall l s, In s (order l) <-> In s l) /\ (forall l l', (forall s, In s l <-> In s l') -> order l = order l').
(* The element is in one of the entries. *)
Definition made_of {E} (elems : E -> list string) (es : list E) (s : string) : Prop := exists e, In e es /\ In s (elems e).
(* The same elements. *)
Definition same_system {E} (elems : E -> list string) (es es' : list E) : Prop := forall s, made_of elems es s <-> made_of elems es' s.
(* The palette: different places have different colours. *)
Definition distinct_colors {C} (cmap : nat -> nat -> C) : Prop := forall n i j, i < n -> j < n -> cmap n i = cmap n j -> i = j.
(* The different texts in increasing order. *)
Definition alphabet (names u : list string) : Prop :=
  (forall s, In s u <-> In s names) /\ NoDup u /\ StronglySorted (fun a b => String.leb a b = true) u.
