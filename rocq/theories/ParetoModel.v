(* Model of costs/pareto.py. *)
From Verif Require Import Prelude NumQ.

Notation point := (list Q).

(* arr[mask] for a boolean mask of the same length. *)
Fixpoint select {A} (mask : list bool) (l : list A) : list A :=
  match mask, l with
  | b :: mask', x :: l' => if b then x :: select mask' l' else select mask' l'
  | _, _ => []
  end.

(* np.any(row < pivot), one row of np.any(costs < costs[i], axis=1)
   (costs/pareto.py:58). *)
Fixpoint any_lt (row pivot : point) : bool :=
  match row, pivot with
  | a :: row', b :: pivot' => Qlt_bool a b || any_lt row' pivot'
  | _, _ => false
  end.

(* mask[i] = True (costs/pareto.py:59). *)
Fixpoint set_true (i : nat) (mask : list bool) : list bool :=
  match mask, i with
  | [], _ => []
  | _ :: m, 0 => true :: m
  | b :: m, S i' => b :: set_true i' m
  end.

(* np.sum(mask) of a boolean array. *)
Definition count_true (mask : list bool) : nat := length (filter (fun b => b) mask).

(* costs/pareto.py:57-62, the while loop. *)
Fixpoint pareto_loop (fuel : nat) (is_efficient : list nat) (costs : list point)
    (next_point_index : nat) : result (list nat) :=
  match nth_error costs next_point_index with
  | None => Ok is_efficient            (* next_point_index >= len(costs) *)
  | Some pivot =>
      match fuel with
      | 0 => Err OutOfFuel
      | S fuel' =>
          let mask := set_true next_point_index (map (fun row => any_lt row pivot) costs) in
          pareto_loop fuel' (select mask is_efficient) (select mask costs)
            (count_true (firstn next_point_index mask) + 1)
      end
  end.

(* costs/pareto.py:41-68 is_pareto_efficient(costs, return_mask=False).
   Simplification: costs are exact numbers (no NaN); every row has the same length. *)
Definition is_pareto_efficient_indices (costs : list point) : result (list nat) :=
  pareto_loop (length costs) (seq 0 (length costs)) costs 0.

(* costs/pareto.py:63-66 is_pareto_efficient(costs, return_mask=True). *)
Definition is_pareto_efficient_mask (costs : list point) : result (list bool) :=
  match is_pareto_efficient_indices costs with
  | Err e => Err e
  | Ok is_efficient =>
      Ok (fold_left (fun m i => set_true i m) is_efficient (repeat false (length costs)))
  end.

(* pts[:, 1:] = pts[:, 1:] * -1 on one row (costs/pareto.py:36). *)
Definition negate_tail (p : point) : point :=
  match p with
  | [] => []
  | a :: rest => a :: map (fun x => x * (-1 # 1))%Q rest
  end.

(* costs/pareto.py:13-38 get_pareto_front. A data frame is a list of rows; [get]
   reads the metric columns of a row, in the order of [metrics]. *)
Definition get_pareto_front {Row} (get : Row -> point) (maximize : bool) (df : list Row)
  : result (list Row) :=
  let pts := map get df in
  let pts := if maximize then map negate_tail pts else pts in
  match is_pareto_efficient_mask pts with
  | Err e => Err e
  | Ok mask => Ok (select mask df)
  end.
