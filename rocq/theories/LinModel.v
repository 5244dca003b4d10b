(* Model of the linear algebra behind BasicReaction._balance_coeffs of reactions/basic.py:
   the matrix with the constraints, numpy.linalg.pinv applied to the right hand side and
   numpy.linalg.matrix_rank, in exact arithmetic. Instead of singular values the projections
   of Gram and Schmidt are used: the pseudo-inverse solution is the least squares solution of
   least norm, however it is computed. ReactionModel leaves both as arguments. *)
From Verif Require Import Prelude NumQ UtilsModel ReactionModel.
Open Scope nat_scope.

Definition vec := list Q.
Fixpoint dot (u v : vec) : Q :=
  match u, v with a :: u', b :: v' => (a * b + dot u' v')%Q | _, _ => 0%Q end.
Fixpoint add (u v : vec) : vec :=
  match u, v with a :: u', b :: v' => Qred (a + b) :: add u' v' | _, _ => [] end.
Definition scale (k : Q) (u : vec) : vec := map (fun a => k * a)%Q u.
Definition sub (u v : vec) : vec := add u (scale (-1) v).
(* x1 v1 + x2 v2 + ... in dimension m *)
Fixpoint lincomb (m : nat) (xs : list Q) (vs : list vec) : vec :=
  match xs, vs with
  | x :: xs', v :: vs' => add (scale x v) (lincomb m xs' vs')
  | _, _ => repeat 0%Q m
  end.

(* The coefficients of the orthogonal projection of b onto the span of vs. *)
Fixpoint project (m : nat) (vs : list vec) (b : vec) : list Q :=
  match vs with
  | [] => []
  | v :: vs' =>
      let v' := sub v (lincomb m (project m vs' v) vs') in
      let d := dot v' v' in
      let t := if Qeq_bool d 0 then 0%Q else Qred (dot b v' / d) in
      t :: project m vs' (sub b (scale t v))
  end.
(* The number of vectors that are no combination of the later ones. *)
Fixpoint span_rank (m : nat) (vs : list vec) : nat :=
  match vs with
  | [] => 0
  | v :: vs' =>
      let v' := sub v (lincomb m (project m vs' v) vs') in
      (if Qeq_bool (dot v' v') 0 then 0 else 1) + span_rank m vs'
  end.

(* A row of the matrix with its entry on the right hand side; the columns; np.matmul(pinv(M), b) *)
Definition column (sys : list (vec * Q)) (j : nat) : vec := map (fun q => nth j (fst q) 0%Q) sys.
Definition columns (sys : list (vec * Q)) (n : nat) : list vec := map (column sys) (seq 0 n).
Definition pinv_solution (sys : list (vec * Q)) (n : nat) : vec :=
  let x := project (length sys) (columns sys n) (map snd sys) in
  lincomb n (project n (map fst sys) x) (map fst sys).

Section Matrix.
Variable C : chem.
(* basic.py:374-377 comp_matrix, one row per element; their order has no effect *)
Definition all_elems (cs : list nat) : list nat := nodup Nat.eq_dec (flat_map (elems C) cs).
Definition element_rows (cs : list nat) : list (vec * Q) :=
  map (fun e => (map (fun c => amt C c e) cs, 0%Q)) (all_elems cs).
(* basic.py:399-405: the constraints, 1 for products and -1 for reactants *)
Definition unit_row (n i : nat) : vec := map (fun j => if Nat.eqb j i then 1%Q else 0%Q) (seq 0 n).
Definition constraint_rows (n nr : nat) (c : list nat) : list (vec * Q) :=
  let b := if forallb (fun i => Nat.leb nr i) c then 1%Q else (-1)%Q in
  map (fun i => (unit_row n i, b)) c.
(* basic.py:408 *)
Definition exact_solve (rs ps : list nat) (c : list nat) : list Q :=
  let cs := rs ++ ps in
  pinv_solution (element_rows cs ++ constraint_rows (length cs) (length rs) c) (length cs).
(* basic.py:379 *)
Definition exact_rank (rs ps : list nat) : nat :=
  let sys := element_rows (rs ++ ps) in span_rank (length sys) (columns sys (length (rs ++ ps))).
(* basic.py:83-114 with these *)
Definition exact_balance (rs ps : list nat) : result brxn :=
  basic_balance C rs ps (exact_solve rs ps) (exact_rank rs ps).
(* enumerators/basic.py:316-320: the same for the entries numbered r and p *)
Variable ent : nat -> entry.
Definition formula (i : nat) : nat := red C (e_comp (ent i)).
Definition entry_solve (r p c : list nat) : list Q := exact_solve (map formula r) (map formula p) c.
Definition entry_rank (r p : list nat) : nat := exact_rank (map formula r) (map formula p).
End Matrix.
