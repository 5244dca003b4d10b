(* Vocabulary for the properties of the utility functions. *)
From Verif Require Import Prelude.

(* s is obtained from l by deleting items (order preserved). *)
Inductive subseq {A} : list A -> list A -> Prop :=
| subseq_nil : subseq [] []
| subseq_skip x s l : subseq s l -> subseq s (x :: l)
| subseq_take x s l : subseq s l -> subseq (x :: s) (x :: l).

(* Sizes never decrease along the list. *)
Definition sizes_ascending {A} (ll : list (list A)) : Prop :=
  forall i j s t, i <= j -> nth_error ll i = Some s -> nth_error ll j = Some t ->
    length s <= length t.

(* What ray.wait guarantees with num_returns=1 on a non-empty list: exactly one
   finished reference is split off, the others stay pending. *)
Definition valid_schedule {Ref} (wait : nat -> list Ref -> list Ref * list Ref) : Prop :=
  forall k refs, refs <> [] ->
    exists d rest, wait k refs = ([d], rest) /\ Permutation refs (d :: rest).
