(* Adding up with rounding. *)
From Verif Require Import Prelude NumQ SumQ.
Open Scope nat_scope.

(* The exact sum of products, and the sum of their sizes. *)
Definition exact_dot (xs ms : list Q) : Q := sumQ (fun p => fst p * snd p)%Q (combine xs ms).
Definition size_dot (xs ms : list Q) : Q := sumQ (fun p => Qabs (fst p * snd p))%Q (combine xs ms).
(* The error of a sum of up to 20 products is at most 24 half units in the last of 53 places of the sum of sizes. *)
Definition sums_well (dot : list Q -> list Q -> Q) : Prop :=
  forall xs ms, length xs <= 20 -> (Qabs (dot xs ms - exact_dot xs ms) <= (24 # 9007199254740992) * size_dot xs ms)%Q.

(* s is what comes out when the products of the pairs are rounded and then added in some order, with rounding after every
   addition. *)
Inductive added_up (fl : Q -> Q) : list (Q * Q) -> Q -> Prop :=
| add_none : added_up fl [] 0%Q
| add_one x m : added_up fl [(x, m)] (fl (x * m)%Q)
| add_two l l' a b : l <> [] -> l' <> [] -> added_up fl l a -> added_up fl l' b -> added_up fl (l ++ l') (fl (a + b)%Q)
| add_other l l' a : Permutation l l' -> added_up fl l a -> added_up fl l' a.

(* Number by number, the lists differ by at most d. *)
Definition within (d : Q) (l l' : list Q) : Prop := Forall2 (fun a b => (Qabs (a - b) <= d)%Q) l l'.
