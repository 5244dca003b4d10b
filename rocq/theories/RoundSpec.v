(* What rounding does to a number. *)
From Verif Require Import Prelude NumQ SumQ ReactionModel ReactionSpec.
Open Scope nat_scope.

(* The result of an operation is off by at most half a unit in the last of 53 places. *)
Definition rounds (fl : Q -> Q) : Prop := forall x, (Qabs (fl x - x) <= (1 # 9007199254740992) * Qabs x)%Q.
(* Rounding looks only at the value, and not at its sign. *)
Definition even_handed (fl : Q -> Q) : Prop := (forall x y, x == y -> fl x == fl y)%Q /\ forall x, (fl (- x) == - fl x)%Q.
