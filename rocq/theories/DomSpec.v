(* Vocabulary for C132. *)
From Verif Require Import Prelude NumQ ReactionModel EntrySetModel CpdModel.
Open Scope list_scope.
Open Scope nat_scope.

Section Domains.
Context {P : Type}.
Variable ground : list nat -> nat -> result nat.
Variable stabilized : list nat -> nat -> bool -> result nat.
Variable domain_in : list nat -> nat -> option (list P).

(* A diagram that has just been made from these entries. *)
Definition fresh (S : list nat) : @cpd P := {| c_set := S; c_cache := [] |}.
(* The domain of a formula is p, when it is the first one that is asked for. *)
Definition has_domain (S : list nat) (f : nat) (p : list P) : Prop := snd (metastable ground stabilized domain_in f (fresh S)) = Ok p.
(* Asking for the domain of a formula first raises e. *)
Definition no_domain (S : list nat) (f : nat) (e : err) : Prop := snd (metastable ground stabilized domain_in f (fresh S)) = Err e.
(* Diagrams from which domains have been asked before. *)
Inductive asked (S : list nat) : @cpd P -> Prop :=
| asked_none : asked S (fresh S)
| asked_one : forall f c c' p, asked S c -> metastable ground stabilized domain_in f c = (c', Ok p) -> asked S c'.
(* A stabilised entry is a new entry. *)
Definition new_entries (S : list nat) : Prop := forall f e b x, ground S f = Ok e -> stabilized S e b = Ok x -> ~ In x S.
End Domains.
