(* Model of np.linalg.pinv(comp_matrices[i]).T @ net_coeffs of pathways/solver.py:444-445 in
   exact arithmetic: the shortest least squares solution of the transposed system. SolverModel
   leaves it as an argument. *)
From Verif Require Import Prelude NumQ SolverModel LinModel.
Open Scope nat_scope.

Definition path_system (M : matrix) (net : list Q) : list (list Q * Q) :=
  map (fun j => (map (fun row => nth j row 0%Q) M, nth j net 0%Q)) (seq 0 (length net)).
Definition path_pinv (M : matrix) (net : list Q) : list Q := pinv_solution (path_system M net) (length M).
