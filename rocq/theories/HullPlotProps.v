(* C140: theorems about the plot of the interface reaction hull. *)
From Verif Require Import Prelude NumQ HullModel HullSpec HullPlotModel HullPlotSpec HullPlotProofs HullPlotCheck.
Open Scope nat_scope.

(* --- C140 --- *)
(* If no reactant decomposes on its own and some reaction is downhill, the lines drawn
   are exactly the edges of the lower hull. Missing: reactants that decompose, see the
   refutation. *)
Theorem C140_lines_are_lower_hull_partial : forall h chain edges,
  correct_hull (coords h) (qhull h) chain -> polygon (coords h) chain edges -> ratios (coords h) ->
  forall y_max, no_decomposition (coords h) -> downhill (coords h) ->
  exists f, plot h edges y_max = Ok f
  /\ forall s, (In s (f_lines f) \/ In (snd s, fst s) (f_lines f)) <-> lower_edge (coords h) chain s.
Proof. exact plot_stable. Qed.
Print Assumptions C140_lines_are_lower_hull_partial.

(* In general every lower edge that does not lie at zero is drawn, anything else that
   is drawn is a vertical line at a reactant with a negative energy, every point is
   shown with its own reaction, and the lowest point is in view. *)
Theorem C140_figure_partial : forall h chain edges,
  correct_hull (coords h) (qhull h) chain -> polygon (coords h) chain edges -> ratios (coords h) ->
  forall y_max, exists f, plot h edges y_max = Ok f
  /\ (forall a b p q, neighbours chain a b -> nth_error (coords h) a = Some p -> nth_error (coords h) b = Some q ->
        ~ (snd p == 0 /\ snd q == 0)%Q -> In (p, q) (f_lines f) \/ In (q, p) (f_lines f))
  /\ (forall p q, In (p, q) (f_lines f) -> lower_edge (coords h) chain (p, q)
        \/ (In p (coords h) /\ In q (coords h) /\ (fst p == fst q)%Q /\ (fst p == 0 \/ fst p == 1)%Q
            /\ (snd p < 0 \/ snd q < 0)%Q))
  /\ (forall i p, nth_error (f_points f) i = Some p <-> exists c, nth_error (coords h) i = Some c /\ p = (c, i))
  /\ (forall c, In c (coords h) -> fst (f_range f) + (1 # 100) <= snd c)%Q
  /\ (exists c, In c (coords h) /\ snd c == fst (f_range f) + (1 # 100))%Q
  /\ snd (f_range f) = y_max.
Proof. exact plot_general. Qed.
Print Assumptions C140_figure_partial.

Example C140_demo :
  correct_hull (coords bowl) (qhull bowl) bowl_chain /\ polygon (coords bowl) bowl_chain bowl_edges
  /\ ratios (coords bowl) /\ no_decomposition (coords bowl) /\ downhill (coords bowl)
  /\ exists f, plot bowl bowl_edges (1 # 5) = Ok f
     /\ f_lines f = [((0, 0), (1 # 3, - 1 # 4)); ((1 # 2, - 3 # 10), (1 # 3, - 1 # 4)); ((1 # 2, - 3 # 10), (1, 0))]%Q.
Proof.
  split; [exact bowl_correct|]. split; [exact bowl_polygon|]. split; [exact bowl_ratios|].
  split; [exact bowl_no_decomposition|]. split; [exact bowl_downhill|].
  eexists. split; vm_compute; reflexivity.
Qed.

(* The code draws a line that is no edge of the lower hull when a reactant decomposes. *)
Theorem C140_lines_refuted : exists h chain edges y_max f s,
  correct_hull (coords h) (qhull h) chain /\ polygon (coords h) chain edges /\ ratios (coords h)
  /\ plot h edges y_max = Ok f /\ In s (f_lines f) /\ ~ lower_edge (coords h) chain s.
Proof.
  exists falling, falling_chain, falling_edges, (1 # 5)%Q. eexists. exists ((0, 0), (0, - 1 # 10))%Q.
  split; [exact falling_correct|]. split; [exact falling_polygon|]. split; [exact falling_ratios|].
  split; [vm_compute; reflexivity|]. split; [left; reflexivity|exact falling_not_lower].
Qed.
Print Assumptions C140_lines_refuted.
