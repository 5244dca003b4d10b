(* In how many independent ways phases can react. *)
From Verif Require Import Prelude NumQ SumQ ReactionModel.
Open Scope nat_scope.

(* These amounts of the phases l, whose formulas are given by form, cancel in every element. *)
Definition cancels (C : chem) (form : nat -> nat) (l : list nat) (w : nat -> Q) : Prop :=
  forall el, (sumQ (fun i => amt C (form i) el * w i) l == 0)%Q.

(* t1 w1 + t2 w2 + ... *)
Definition blend (ts : list Q) (ws : list (nat -> Q)) (i : nat) : Q := sumQ (fun tw => fst tw * snd tw i)%Q (combine ts ws).

(* There are d ways to react such that every other one is a combination of them, and none of
   them is a combination of the rest. *)
Definition independent_ways (C : chem) (form : nat -> nat) (l : list nat) (d : nat) : Prop :=
  exists ws, length ws = d /\ Forall (cancels C form l) ws
  /\ (forall w, cancels C form l w -> exists ts, length ts = d /\ forall i, In i l -> (w i == blend ts ws i)%Q)
  /\ forall ts, length ts = d -> (forall i, In i l -> (blend ts ws i == 0)%Q) -> Forall (fun t => t == 0)%Q ts.

(* Any two ways to react are the same up to a factor. *)
Definition one_way (C : chem) (form : nat -> nat) (l : list nat) : Prop :=
  forall v w, cancels C form l v -> cancels C form l w -> (exists i, In i l /\ ~ (v i == 0)%Q) -> exists t, forall i, In i l -> (w i == t * v i)%Q.
