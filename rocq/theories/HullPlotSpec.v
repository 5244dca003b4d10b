(* What the plot of a hull should show. *)
From Verif Require Import Prelude NumQ HullSpec.
Open Scope nat_scope.

(* a and b are neighbours on the chain. *)
Definition neighbours (chain : list nat) (a b : nat) : Prop :=
  exists l1 l2, chain = l1 ++ a :: b :: l2.

(* The edges of the convex hull of the points, reported in either orientation: those
   of the lower hull, the vertical ones with every point on one side, and those of the
   upper hull, which have every point on or below them. *)
Record polygon (cs : list (Q * Q)) (chain : list nat) (edges : list (nat * nat)) : Prop := {
  pg_lower : forall a b, neighbours chain a b -> In (a, b) edges \/ In (b, a) edges;
  pg_edge : forall a b, In (a, b) edges ->
    neighbours chain a b \/ neighbours chain b a
    \/ exists p q, nth_error cs a = Some p /\ nth_error cs b = Some q
       /\ (((fst p == fst q)%Q
            /\ ((forall c, In c cs -> fst p <= fst c)%Q \/ (forall c, In c cs -> fst c <= fst p)%Q))
           \/ (~ (fst p == fst q)%Q /\ forall c, In c cs -> (snd c <= line_through p q (fst c))%Q))
}.

(* Mixing ratios are between zero and one. *)
Definition ratios (cs : list (Q * Q)) : Prop := forall c, In c cs -> (0 <= fst c <= 1)%Q.

(* Neither of the two reactants decomposes on its own. *)
Definition no_decomposition (cs : list (Q * Q)) : Prop :=
  forall c, In c cs -> (fst c == 0 \/ fst c == 1)%Q -> (0 <= snd c)%Q.

(* Some reaction releases energy. *)
Definition downhill (cs : list (Q * Q)) : Prop := exists c, In c cs /\ (snd c < 0)%Q.

(* A segment joins the points of two neighbours on the chain, in either orientation. *)
Definition lower_edge (cs : list (Q * Q)) (chain : list nat) (s : (Q * Q) * (Q * Q)) : Prop :=
  exists a b p q, neighbours chain a b /\ nth_error cs a = Some p /\ nth_error cs b = Some q
  /\ (s = (p, q) \/ s = (q, p)).
