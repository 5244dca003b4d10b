(* Model of the plot of the interface reaction hull (reactions/hull.py:77-93, 549-578). *)
From Verif Require Import Prelude NumQ HullModel.
Open Scope nat_scope.

(* hull.py:566: self.coords[self.hull.simplices]. The simplices of a planar hull are
   its edges, pairs of indices into coords; they are an input as they come from scipy.
   Fancy indexing fails on an index out of range. *)
Fixpoint segments (cs : list coord) (simplices : list (nat * nat)) : result (list (coord * coord)) :=
  match simplices with
  | [] => Ok []
  | (a, b) :: rest =>
      match nth_error cs a, nth_error cs b with
      | Some p, Some q => bind (segments cs rest) (fun l => Ok ((p, q) :: l))
      | _, _ => Err IndexError
      end
  end.

(* hull.py:568: (coords[:, :, 1] <= 0).all(axis=1). *)
Definition not_above (s : coord * coord) : bool :=
  Qle_bool (snd (fst s)) 0 && Qle_bool (snd (snd s)) 0.

(* hull.py:569 and 571: (coords[:, :, 1] == 0).all(axis=1). *)
Definition flat (s : coord * coord) : bool :=
  Qeq_bool (snd (fst s)) 0 && Qeq_bool (snd (snd s)) 0.

(* hull.py:565-578 _get_lines. Not modelled: the colour of the lines. *)
Definition get_lines (cs : list coord) (simplices : list (nat * nat)) : result (list (coord * coord)) :=
  bind (segments cs simplices) (fun coords =>
  let coords := filter not_above coords in
  let coords := filter (fun s => negb (flat s)) coords in
  Ok (filter (fun c => negb (flat c)) coords)).

(* Python's min(self.coords[:, 1]); an empty array raises ValueError. *)
Definition min_y (cs : list coord) : result Q :=
  match cs with
  | [] => Err ValueError
  | c :: rest => Ok (fold_left (fun m d => if Qlt_bool (snd d) m then snd d else m) rest (snd c))
  end.

Record figure := {
  f_lines : list (coord * coord);          (* the drawn lines *)
  f_points : list (coord * nat);           (* the scattered points with the reaction shown on hovering *)
  f_range : Q * Q                          (* the range of the energy axis *)
}.

(* hull.py:549-563 _get_scatter: every point, named by the reaction with the same
   index (reactions are represented by their index, see HullModel). Not modelled:
   sizes and labels. *)
Definition get_scatter (cs : list coord) : list (coord * nat) := combine cs (seq 0 (length cs)).

(* hull.py:77-93 plot. Not modelled: hover template and titles. *)
Definition plot (h : hull) (simplices : list (nat * nat)) (y_max : Q) : result figure :=
  let pts := get_scatter (coords h) in
  bind (get_lines (coords h) simplices) (fun lines =>
  bind (min_y (coords h)) (fun m =>
  Ok {| f_lines := lines; f_points := pts; f_range := (m - (1 # 100), y_max)%Q |})).
