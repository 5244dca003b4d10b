(* C112 and C113: the interface reaction hull from its reactions, and their scores. *)
From Verif Require Import Prelude NumQ SumQ UtilsModel ReactionModel ReactionSpec HullModel HullSpec IrhModel IrhSpec IrhProofs IrhCheck.
From Verif Require RxnSetCheck.
Open Scope nat_scope.

(* --- C112 --- *)
(* Every reaction at its mixing ratio and energy per atom, the two reactants by themselves at
   (0, 0) and (1, 0), sorted by mixing ratio. *)
Theorem C112_build : forall C, wf_chem C -> forall round12, rounds12 round12 -> forall argsort, sorts argsort ->
  forall convex_hull lsq rank, (forall c, lsq [c] [c] [1] = [-1; 1]%Q) ->
  forall comp1 comp2 rs,
  (forall r, In r rs -> proper C r /\ (0 < takes C r (red C comp1) + takes C r (red C comp2))%Q) ->
  red C comp1 <> red C comp2 -> elems C (red C comp1) <> [] -> elems C (red C comp2) <> [] ->
  (exists r, In r rs /\ consumes r (red C comp1)) -> (exists r, In r rs /\ consumes r (red C comp2)) ->
  exists pts e1 e2 R cs, Forall2 (point_of C (red C comp1) (red C comp2)) rs pts
  /\ nothing_happens C (red C comp1) e1 /\ nothing_happens C (red C comp2) e2
  /\ length R = length cs
  /\ Permutation (combine R cs) (combine rs pts ++ [(e1, (0, 0)%Q); (e2, (1, 0)%Q)])
  /\ sorted_by_x cs
  /\ build C round12 argsort convex_hull lsq rank comp1 comp2 rs = bind (convex_hull cs) (fun vs =>
     Ok {| i_c1 := red C comp1; i_c2 := red C comp2; i_reactions := R; i_hull := {| coords := cs; qhull := vs |} |}).
Proof. exact build_spec. Qed.
Print Assumptions C112_build.

(* Stable are the reactions on the lower hull, unstable the others. *)
Theorem C112_stable : forall C round12 argsort convex_hull lsq rank comp1 comp2 rs,
  red C comp1 <> red C comp2 -> forall h,
  build C round12 argsort convex_hull lsq rank comp1 comp2 rs = Ok h ->
  Permutation (stable_reactions h ++ unstable_reactions h) (i_reactions h)
  /\ forall chain, correct_hull (coords (i_hull h)) (qhull (i_hull h)) chain ->
     forall r, In r (stable_reactions h) <-> exists i, In i chain /\ nth_error (i_reactions h) i = Some r.
Proof. exact stable_spec. Qed.
Print Assumptions C112_stable.

(* Without two different reactants that are both consumed there is no hull. *)
Theorem C112_fails : forall C round12 argsort convex_hull lsq rank comp1 comp2 rs,
  (forall r, In r rs -> proper C r) ->
  red C comp1 = red C comp2 \/ (forall r, In r rs -> ~ consumes r (red C comp1)) \/ (forall r, In r rs -> ~ consumes r (red C comp2)) ->
  build C round12 argsort convex_hull lsq rank comp1 comp2 rs = Err ValueError.
Proof. exact build_fails. Qed.
Print Assumptions C112_fails.

(* Nor with a reaction that consumes neither. *)
Theorem C112_foreign : forall C, wf_chem C -> forall round12 argsort convex_hull lsq rank comp1 comp2 rs r,
  In r rs -> proper C r -> (exists c, 0 < takes C r c)%Q -> ~ consumes r (red C comp1) -> ~ consumes r (red C comp2) ->
  forall h, build C round12 argsort convex_hull lsq rank comp1 comp2 rs <> Ok h.
Proof. exact build_foreign. Qed.
Print Assumptions C112_foreign.

Example C112_demo : wf_chem ab /\ rounds12 round12 /\ sorts RxnSetCheck.argsort
  /\ (forall r, In r [a_ab; a_a2b] -> proper ab r /\ (0 < takes ab r 0 + takes ab r 1)%Q)
  /\ (exists r, In r [a_ab; a_a2b] /\ consumes r 0) /\ (exists r, In r [a_ab; a_a2b] /\ consumes r 1)
  /\ ab_hull = Ok ab_built /\ map fst (coords (i_hull ab_built)) = [0; 333333333333 # 1000000000000; 500000000000 # 1000000000000; 1]%Q
  /\ correct_hull (coords (i_hull ab_built)) (qhull (i_hull ab_built)) [0; 1; 2; 3]
  /\ stable_reactions ab_built = i_reactions ab_built.
Proof.
  split; [exact ab_wf|]. split; [exact round12_rounds|]. split; [exact argsort_sorts|]. split; [apply ab_hyps|]. split; [apply ab_hyps|].
  split; [apply ab_hyps|]. split; [apply ab_demo|]. split; [apply ab_demo|]. split; [exact ab_correct|apply ab_demo].
Qed.

Example C112_fails_demo : (forall r, In r [a_ab; a_a2b] -> proper ab r) /\ (forall r, In r [a_ab; a_a2b] -> ~ consumes r 4)
  /\ proper ab a_ab /\ (0 < takes ab a_ab 0)%Q /\ ~ consumes a_ab 3 /\ ~ consumes a_ab 4.
Proof. exact bad_demo. Qed.

(* --- C113 --- *)
(* The primary competition is the energy of the reaction over the lowest energy at any other
   mixing ratio, where nothing happening counts with energy 0. The energy above the hull is that
   over the lower envelope. The score with e_hull is the secondary competition plus it.
   Missing: competitors at the same mixing ratio (see below). *)
Theorem C113_scores_partial : forall C, wf_chem C -> forall round12, rounds12 round12 -> forall argsort, sorts argsort ->
  forall convex_hull lsq rank, (forall c, lsq [c] [c] [1] = [-1; 1]%Q) ->
  forall comp1 comp2 rs,
  (forall r, In r rs -> proper C r /\ (0 < takes C r (red C comp1) + takes C r (red C comp2))%Q) ->
  red C comp1 <> red C comp2 -> elems C (red C comp1) <> [] -> elems C (red C comp2) <> [] ->
  (exists r, In r rs /\ consumes r (red C comp1)) -> (exists r, In r rs /\ consumes r (red C comp2)) ->
  forall req h, build C round12 argsort convex_hull lsq rank comp1 comp2 rs = Ok h ->
  exists pts, Forall2 (point_of C (red C comp1) (red C comp2)) rs pts
  /\ forall r p, In (r, p) (combine rs pts) ->
     (exists s m, primary C round12 h r = Ok s /\ (s == snd p - m)%Q /\ (m <= 0)%Q
        /\ ((m == 0)%Q \/ exists r' p', In (r', p') (combine rs pts) /\ ~ (fst p' == fst p)%Q /\ m = snd p')
        /\ forall r' p', In (r', p') (combine rs pts) -> ~ (fst p' == fst p)%Q -> (m <= snd p')%Q)
     /\ forall chain, correct_hull (coords (i_hull h)) (qhull (i_hull h)) chain ->
        exact_coordinate (coords (i_hull h)) chain (fst p) -> req r r = true ->
        (forall r' p', In (r', p') (combine (i_reactions h) (coords (i_hull h))) -> req r' r = true -> p' = p) ->
        exists d e, above_hull req h r = Ok d /\ envelope (coords (i_hull h)) (fst p) e /\ (d == snd p - e)%Q /\ (0 <= d)%Q
        /\ forall normalize recursive s, secondary C round12 req h r normalize false recursive = Ok s ->
           exists s', secondary C round12 req h r normalize true recursive = Ok s' /\ (s' == s + d)%Q.
Proof. exact scores. Qed.
Print Assumptions C113_scores_partial.

(* With an open reactant all reactions have one mixing ratio, so the best competitor is missed. *)
Theorem C113_open_refuted : exists C comp1 comp2 r r' h c v v', wf_chem C /\ proper C r /\ proper C r'
  /\ build C round12 RxnSetCheck.argsort (fun _ => Ok [1; 2; 3]) one_one one comp1 comp2 [r; r'] = Ok h
  /\ consumes r (red C comp1) /\ consumes r (red C comp2) /\ consumes r' (red C comp1) /\ consumes r' (red C comp2)
  /\ ~ (forall x, In x (map fst (product_coeffs (base_of r'))) -> In x (map fst (product_coeffs (base_of r))))
  /\ energy_per_atom C r = Ok v /\ energy_per_atom C r' = Ok v' /\ (v' < v)%Q
  /\ primary C round12 h r = Ok c /\ (c < 0)%Q.
Proof. exact open_missed. Qed.
Print Assumptions C113_open_refuted.

Example C113_demo : ab_hull = Ok ab_built /\ correct_hull (coords (i_hull ab_built)) (qhull (i_hull ab_built)) [0; 1; 2; 3]
  /\ (forall r p, In (r, p) (combine (i_reactions ab_built) (coords (i_hull ab_built))) ->
      exact_coordinate (coords (i_hull ab_built)) [0; 1; 2; 3] (fst p)
      /\ forall r' p', In (r', p') (combine (i_reactions ab_built) (coords (i_hull ab_built))) -> same_comps r' r = true -> p' = p)
  /\ (exists c, primary ab round12 ab_built a_ab = Ok c /\ (c == 1 # 15)%Q)
  /\ (exists c, primary ab round12 ab_built a_a2b = Ok c /\ (c == - (1 # 15))%Q)
  /\ exists c, above_hull same_comps ab_built a_a2b = Ok c /\ (c == 0)%Q.
Proof.
  split; [apply ab_demo|]. split; [exact ab_correct|]. split; [|apply ab_demo].
  intros r p H. split; [exact (ab_exact r p H)|]. intros r' p' H' E. exact (ab_single r r' p p' H H' E).
Qed.
