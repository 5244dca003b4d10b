(* Vocabulary for C131. *)
From Coq Require Import String.
From Verif Require Import Prelude NumQ RxnSetModel RxnSetSpec FrameModel FetchModel.
Open Scope nat_scope.
Open Scope list_scope.

(* The stored job answers the question. *)
Definition answers (target : nat) (open_elem : option nat) (chempot : Q) (fw : option nat) (t : task) : Prop :=
  t_target t = Some target /\ t_open t = open_elem /\ (exists q, t_chempot t = Some q /\ (q == chempot)%Q)
  /\ (fw = None \/ t_fw t = fw).
(* The latest one of them. *)
Definition latest (target : nat) (open_elem : option nat) (chempot : Q) (fw : option nat) (tasks : list task) (t : task) : Prop :=
  In t tasks /\ answers target open_elem chempot fw t
  /\ forall t', In t' tasks -> answers target open_elem chempot fw t' -> (t_time t' <= t_time t)%Z.
(* Entries with the same id are the same. *)
Definition ids_distinct (s : rset) : Prop := forall x y, In x (r_entries s) -> In y (r_entries s) -> uid x = uid y -> x = y.
(* Row i of a table shows the reaction. *)
Definition shows (d : frame) (i : nat) (r : nat) : Prop := exists col, In ("rxn"%string, col) d /\ nth_error col i = Some (Rxn r).
(* The rows with the given numbers, in order. *)
Definition chosen_rows {A} (l : list nat) (col new : list A) : Prop := Forall2 (fun i c => nth_error col i = Some c) l new.
(* A table with n rows: each column once, all of the same length, reactions in "rxn". *)
Definition table_of (n : nat) (d : frame) : Prop :=
  NoDup (map fst d) /\ (forall k col, In (k, col) d -> length col = n) /\ (exists ids, In ("rxn"%string, map Rxn ids) d).
(* Increasing numbers. *)
Definition increasing (l : list nat) : Prop := forall i j a b, i < j -> nth_error l i = Some a -> nth_error l j = Some b -> a < b.
