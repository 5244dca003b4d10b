(* Model of the test whether reactions add up to the net reaction (pathways/solver.py:434-455), with rounding. As in
   RoundModel [fl] is applied to the result of every operation on floats. *)
From Verif Require Import Prelude NumQ SolverModel.
Open Scope nat_scope.

Section Rounded.
Variable fl : Q -> Q.
(* One entry of comp_matrices[i].T @ multiplicities: numpy leaves open in which order it adds. *)
Variable dot : list Q -> list Q -> Q.
(* np.linalg.pinv(M).T @ net_coeffs with whatever error it has *)
Variable pinv : matrix -> list Q -> list Q.

(* solver.py:434-455 for one matrix, as [balance_one] *)
Definition rounded_balance (net : list Q) (M : matrix) : option (matrix * list Q) :=
  if touches (net_filter net) M then
    let ms := pinv M net in
    if existsb (fun m => Qlt_bool m (fl (1 # 1000000))) ms then None
    else if forallb (fun j => Qle_bool (Qabs (fl (dot (map (fun row => nth j row 0%Q) M) ms - nth j net 0)))
                                       (fl (fl (1 # 100000000) + fl (fl (1 # 100000) * Qabs (nth j net 0%Q)))))%Q (seq 0 (length net))
    then Some (M, ms) else None
  else None.
End Rounded.
