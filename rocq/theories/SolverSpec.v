(* Vocabulary for the properties of the pathway solver. *)
From Coq Require Export Sorted.
From Verif Require Import Prelude NumQ RxnSetModel PathModel PathSpec.
Open Scope nat_scope.

(* Every phase of the net reaction occurs in one of the rows. *)
Definition covers (net : list Q) (rows : list (list Q)) : Prop :=
  forall j, ~ (nth j net 0 == 0)%Q -> exists row, In row rows /\ ~ (nth j row 0 == 0)%Q.

(* A combination of at most [max] of [n] reactions: increasing positions. *)
Definition combination (n max : nat) (c : list nat) : Prop :=
  1 <= length c <= max /\ StronglySorted lt c /\ Forall (fun i => i < n) c.

Definition pick {A} (d : A) (l : list A) (c : list nat) : list A := map (fun i => nth i l d) c.

(* The multiplicities are positive and the weighted rows add up to the net reaction,
   within the tolerances of the solver. *)
Definition balances (net : list Q) (rows : list (list Q)) (ms : list Q) : Prop :=
  length ms = length rows /\ Forall (fun m => (1 # 1000000 <= m)%Q) ms
  /\ forall j, j < length net -> (Qabs (weighted ms rows j - nth j net 0) <= (1 # 100000000) + (1 # 100000) * Qabs (nth j net 0))%Q.

(* What is known of set(l): members of l, and for every member of l an equal one. *)
Definition set_members {R} (req : R -> R -> bool) (rhash : R -> nat) (uniq : list (path R) -> list (path R)) : Prop :=
  forall l, (forall p, In p (uniq l) -> In p l)
  /\ forall p, In p l -> exists q, In q (uniq l) /\ (q = p \/ hash_key rhash q = hash_key rhash p /\ path_eq req q p = Ok true).

(* The rows are linearly independent. *)
Definition independent (n : nat) (rows : list (list Q)) : Prop :=
  forall ms, length ms = length rows -> (forall j, j < n -> (weighted ms rows j == 0)%Q) -> Forall (fun m => (m == 0)%Q) ms.

(* The pseudo-inverse of independent rows gives the exact solution if there is one. *)
Definition solves (pinv : list (list Q) -> list Q -> list Q) (rows : list (list Q)) (net : list Q) : Prop :=
  independent (length net) rows ->
  forall ms, length ms = length rows -> (forall j, j < length net -> (weighted ms rows j == nth j net 0)%Q) ->
  Forall2 Qeq (pinv rows net) ms.

(* The reactions the solver may use: among the cleaned ones, and not the net reaction. *)
Definition pool {R} (req : R -> R -> bool) (clean : list R) (net : R) (rxns : list (R * Q)) : list (R * Q) :=
  filter (fun rc => existsb (req (fst rc)) clean && negb (req (fst rc) net)) rxns.

(* Positions and values of the coefficients that are not negligible. *)
Definition large (row : list Q) : list (nat * Q) :=
  filter (fun ic => negb (Qle_bool (Qabs (snd ic)) (1 # 100000000))) (combine (seq 0 (length row)) row).

(* The row of a rebuilt reaction: negligible coefficients may be missing. *)
Definition trimmed (row row' : list Q) : Prop := Forall2 (fun a b => b = a \/ (Qabs a <= 1 # 100000000)%Q /\ b = 0%Q) row row'.

(* No reaction of the list equals an earlier one. *)
Definition fresh {R} (req : R -> R -> bool) (l : list (R * Q)) : Prop := forall l1 s l2 t l3, l = l1 ++ s :: l2 ++ t :: l3 -> req (fst t) (fst s) = false.

(* The reactions of the enumerators whose results are kept. *)
Definition kept_sets (open_elem : option nat) (use_basic use_minimize : bool) (b bo m : list srxn) : list srxn :=
  (if use_basic then b ++ (match open_elem with Some _ => bo | None => [] end) else []) ++ (if use_minimize then m else []).
