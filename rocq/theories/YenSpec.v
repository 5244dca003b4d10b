(* Vocabulary for paths in a graph given by its list of edges. *)
From Verif Require Import Prelude NumQ.
From Coq Require Export Sorted Permutation.
Open Scope nat_scope.

Section Paths.
Context {E : Type}.
Variable weight : E -> Q.
Notation edges := (list (nat * nat * E)).

(* A walk with its nodes and what its edges cost; of several parallel edges any one
   may be taken. *)
Inductive walk (es : edges) : nat -> nat -> list nat -> Q -> Prop :=
| walk_end t c : (c == 0)%Q -> walk es t t [t] c
| walk_step i j t e p c d : In (i, j, e) es -> walk es j t p c -> (d == weight e + c)%Q -> walk es i t (i :: p) d.

Definition cheapest_walk (es : edges) (s t : nat) (p : list nat) : Prop :=
  exists c, walk es s t p c /\ forall p' c', walk es s t p' c' -> (c <= c')%Q.

Definition non_negative (es : edges) : Prop := forall e, In e es -> (0 <= weight (snd e))%Q.

(* A shortest path routine: finds a cheapest walk without repeated nodes, or nothing
   when there is no walk. *)
Definition shortest (sp : edges -> nat -> nat -> option (list nat)) : Prop :=
  forall es u t, non_negative es -> u <> t ->
    match sp es u t with
    | Some p => NoDup p /\ cheapest_walk es u t p
    | None => forall p c, ~ walk es u t p c
    end.

(* No two edges join the same nodes in the same direction. *)
Definition no_parallel (es : edges) : Prop := NoDup (map fst es).

(* A node has the same position on all walks from s to t it is on. *)
Definition levelled (es : edges) (s t : nat) : Prop :=
  forall p c q d i j x, walk es s t p c -> walk es s t q d -> nth_error p i = Some x -> nth_error q j = Some x -> i = j.

(* paths are the k cheapest walks without repeated nodes, in order of their cost. *)
Definition k_cheapest (es : edges) (s t k : nat) (paths : list (list nat)) : Prop :=
  exists costs, Forall2 (fun p c => NoDup p /\ walk es s t p c) paths costs /\ NoDup paths /\ length paths <= k
  /\ StronglySorted Qle costs
  /\ (forall q d, NoDup q -> walk es s t q d -> ~ In q paths -> length paths = k /\ Forall (fun c => (c <= d)%Q) costs).
End Paths.

(* The order of the queue: lower costs first, then in the order of a dictionary. *)
Definition dictionary (a b : list nat) : Prop :=
  (exists y b', b = a ++ y :: b') \/ exists p x a' y b', a = p ++ x :: a' /\ b = p ++ y :: b' /\ x < y.
Definition sooner (x y : Q * list nat) : Prop := (fst x < fst y)%Q \/ (fst x == fst y)%Q /\ dictionary (snd x) (snd y).
