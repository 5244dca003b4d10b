(* Pareto optimality, stated without reference to the loop. *)
From Verif Require Import Prelude NumQ.

(* p is at least as good as q in every column, when small values are good. *)
Definition le_all (p q : list Q) : Prop := Forall2 Qle p q.

(* Point number j beats point number i: at least as good everywhere, and either
   strictly better somewhere or an earlier copy. [better] is the column-wise
   comparison in force. *)
Definition beats (better : list Q -> list Q -> Prop) (pts : list (list Q)) (j i : nat) : Prop :=
  exists p q, nth_error pts j = Some p /\ nth_error pts i = Some q
    /\ better p q /\ (~ better q p \/ j < i).

(* Point i is on the front. *)
Definition on_front (better : list Q -> list Q -> Prop) (pts : list (list Q)) (i : nat) : Prop :=
  i < length pts /\ ~ exists j, beats better pts j i.

(* All points have the same number of columns. *)
Definition same_dim (pts : list (list Q)) : Prop :=
  exists d, Forall (fun p => length p = d) pts.

(* p is at least as good as q in every column, when large values are good. *)
Definition ge_all (p q : list Q) : Prop := Forall2 (fun a b => b <= a)%Q p q.

(* First column small, the other columns large. *)
Definition first_le_rest_ge (p q : list Q) : Prop :=
  match p, q with
  | [], [] => True
  | a :: p', b :: q' => (a <= b)%Q /\ ge_all p' q'
  | _, _ => False
  end.

(* [out] consists of the rows of [df] at the positions satisfying P, in order. *)
Definition rows_at {Row} (P : nat -> Prop) (df out : list Row) : Prop :=
  exists idxs, (forall i, In i idxs <-> P i /\ i < length df)
    /\ (forall a b i j, a < b -> nth_error idxs a = Some i -> nth_error idxs b = Some j -> i < j)
    /\ map (nth_error df) idxs = map Some out.
