(* What is asked of balancing a reaction. *)
From Verif Require Import Prelude NumQ SumQ ReactionModel ReactionSpec.
Open Scope nat_scope.

(* How far x is from conserving the elements els and from giving the species c the coefficient
   1 (products) or -1 (reactants). *)
Definition sq (q : Q) : Q := (q * q)%Q.
Definition misfit (C : chem) (els cs : list nat) (nr : nat) (c : list nat) (x : list Q) : Q :=
  (sumQ (fun e => sq (net C (combine cs x) e)) els + sumQ (fun i => sq (nth i x 0 - (if nr <=? i then 1 else -1))) c)%Q.
Definition lists_elements (C : chem) (cs els : list nat) : Prop := NoDup els /\ forall e, In e els <-> exists c, In c cs /\ In e (elems C c).
(* x is a least squares solution; it is the shortest one. *)
Definition best_fit (C : chem) (cs : list nat) (nr : nat) (c : list nat) (x : list Q) : Prop :=
  length x = length cs /\ exists els, lists_elements C cs els
  /\ forall y, length y = length cs -> (misfit C els cs nr c x <= misfit C els cs nr c y)%Q.
Definition square_sum (x : list Q) : Q := sumQ sq x.
Definition shortest_fit (C : chem) (cs : list nat) (nr : nat) (c : list nat) (x : list Q) : Prop :=
  best_fit C cs nr c x /\ forall y, best_fit C cs nr c y -> (square_sum x <= square_sum y)%Q.

(* v conserves the elements, with the first nr species on one side and the others on the
   other; no other combination does, and no species is left out. *)
Definition conserves (C : chem) (cs : list nat) (v : list Q) : Prop := length v = length cs /\ forall e, (net C (combine cs v) e == 0)%Q.
Definition multiple (t : Q) (v w : list Q) : Prop := Forall2 (fun a b => b == t * a)%Q v w.
Definition only_combination (C : chem) (cs : list nat) (v : list Q) : Prop :=
  conserves C cs v /\ (forall k, In k v -> ~ (k == 0)%Q) /\ forall w, conserves C cs w -> exists t, multiple t v w.
Definition sides (nr : nat) (v : list Q) : Prop :=
  forall i k, nth_error v i = Some k -> (i < nr -> (k < 0)%Q) /\ (nr <= i -> (0 < k)%Q).

(* The phases r turn into the phases p, and the reaction is determined by them. *)
Definition determined (C : chem) (formula : nat -> nat) (r p : list nat) : Prop :=
  NoDup (map formula (r ++ p)) /\ exists v, only_combination C (map formula (r ++ p)) v /\ sides (length r) v.
