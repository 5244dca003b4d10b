(* C143: theorems about the calculators of competition. *)
From Verif Require Import Prelude NumQ UtilsModel ReactionModel ReactionSpec HullModel HullSpec AreaModel AreaSpec AreaCheck IrhModel IrhSpec IrhCheck CompSpec
  CalcModel CalcSpec CalcProofs CalcCheck.
From Verif Require RxnSetCheck.
Open Scope nat_scope.

(* --- C143 --- *)
(* The three measures of secondary competition look at the same two stretches of the hull, left
   and right of the reaction: the mean of what is released on the ways along them, the greatest
   single release on each, and the area under them. For the other two calculators see C113.
   Missing: reactions at the mixing ratio of a reactant (refuted below), ratios within the
   tolerance of another vertex. *)
Theorem C143_measures_partial : forall C, wf_chem C -> forall round12, rounds12 round12 -> forall argsort, sorts argsort ->
  forall convex_hull lsq rank, (forall c, lsq [c] [c] [1] = [-1; 1]%Q) -> forall comp1 comp2 rs,
  (forall r, In r rs -> proper C r /\ (0 < takes C r (red C comp1) + takes C r (red C comp2))%Q) ->
  red C comp1 <> red C comp2 -> ReactionModel.elems C (red C comp1) <> [] -> ReactionModel.elems C (red C comp2) <> [] ->
  (exists r, In r rs /\ consumes r (red C comp1)) -> (exists r, In r rs /\ consumes r (red C comp2)) ->
  forall req volume, measures volume -> forall h, build C round12 argsort convex_hull lsq rank comp1 comp2 rs = Ok h ->
  exists pts, Forall2 (point_of C (red C comp1) (red C comp2)) rs pts
  /\ forall r p, In (r, p) (combine rs pts) -> (0 < fst p < 1)%Q ->
     forall chain, correct_hull (coords (i_hull h)) (qhull (i_hull h)) chain -> exact_coordinate (coords (i_hull h)) chain 0 ->
     exact_coordinate (coords (i_hull h)) chain (fst p) -> exact_coordinate (coords (i_hull h)) chain 1 ->
     exists L R s m a, follows_hull (coords (i_hull h)) chain 0 (fst p) L /\ follows_hull (coords (i_hull h)) chain (fst p) 1 R
     /\ compete C round12 req volume (Of Secondary) h r = Ok s /\ (exists vl vr, mean_release L vl /\ mean_release R vr /\ (s == - (vl + vr))%Q)
     /\ compete C round12 req volume (Of SecondaryMax) h r = Ok m /\ (exists ml mr, greatest_release L ml /\ greatest_release R mr /\ (m == ml + mr)%Q)
     /\ compete C round12 req volume Area h r = Ok a /\ (a == polygon_area L + polygon_area R)%Q.
Proof. exact measured. Qed.
Print Assumptions C143_measures_partial.

(* The other two: the energy over the best competitor at another mixing ratio, and the mean release plus the energy above the
   lower envelope. Missing: as for C113. *)
Theorem C143_others_partial : forall C, wf_chem C -> forall round12, rounds12 round12 -> forall argsort, sorts argsort ->
  forall convex_hull lsq rank, (forall c, lsq [c] [c] [1] = [-1; 1]%Q) -> forall comp1 comp2 rs,
  (forall r, In r rs -> proper C r /\ (0 < takes C r (red C comp1) + takes C r (red C comp2))%Q) ->
  red C comp1 <> red C comp2 -> ReactionModel.elems C (red C comp1) <> [] -> ReactionModel.elems C (red C comp2) <> [] ->
  (exists r, In r rs /\ consumes r (red C comp1)) -> (exists r, In r rs /\ consumes r (red C comp2)) ->
  forall req volume h, build C round12 argsort convex_hull lsq rank comp1 comp2 rs = Ok h ->
  exists pts, Forall2 (point_of C (red C comp1) (red C comp2)) rs pts
  /\ forall r p, In (r, p) (combine rs pts) ->
     (exists s m, compete C round12 req volume (Of Primary) h r = Ok s /\ (s == snd p - m)%Q /\ (m <= 0)%Q
        /\ ((m == 0)%Q \/ exists r' p', In (r', p') (combine rs pts) /\ ~ (fst p' == fst p)%Q /\ m = snd p')
        /\ forall r' p', In (r', p') (combine rs pts) -> ~ (fst p' == fst p)%Q -> (m <= snd p')%Q)
     /\ forall chain s, correct_hull (coords (i_hull h)) (qhull (i_hull h)) chain ->
        exact_coordinate (coords (i_hull h)) chain (fst p) -> req r r = true ->
        (forall r' p', In (r', p') (combine (i_reactions h) (coords (i_hull h))) -> req r' r = true -> p' = p) ->
        compete C round12 req volume (Of Secondary) h r = Ok s ->
        exists s' e, compete C round12 req volume (Of SecondaryWithEhull) h r = Ok s' /\ envelope (coords (i_hull h)) (fst p) e /\ (s' == s + (snd p - e))%Q.
Proof. exact others. Qed.
Print Assumptions C143_others_partial.

(* The values of several reactions come in the order of the reactions. *)
Theorem C143_many : forall C round12 req volume k h vs l,
  calculate_many C round12 req volume k h l = Ok vs <-> Forall2 (fun r v => compete C round12 req volume k h r = Ok v) l vs.
Proof. exact many. Qed.
Print Assumptions C143_many.

(* A reactant that falls apart lies at its own mixing ratio. Four calculators give it a value,
   the area raises. *)
Theorem C143_area_refuted : exists C comp1 comp2 rs h chain r, wf_chem C /\ (forall r, In r rs -> proper C r /\ (0 < takes C r (red C comp1) + takes C r (red C comp2))%Q)
  /\ build C round12 RxnSetCheck.argsort (fun _ => Ok [0; 1; 2; 3]) one_one one comp1 comp2 rs = Ok h /\ In r rs
  /\ correct_hull (coords (i_hull h)) (qhull (i_hull h)) chain
  /\ forall volume, measures volume ->
     (forall k, exists v, compete C round12 same_comps volume (Of k) h r = Ok v) /\ exists e, compete C round12 same_comps volume Area h r = Err e.
Proof. exact area_raises. Qed.
Print Assumptions C143_area_refuted.

Example C143_demo : wf_chem ab /\ rounds12 round12 /\ sorts RxnSetCheck.argsort /\ measures exact_volume
  /\ (forall r, In r [a_ab; a_a2b] -> proper ab r /\ (0 < takes ab r 0 + takes ab r 1)%Q)
  /\ (exists r, In r [a_ab; a_a2b] /\ consumes r 0) /\ (exists r, In r [a_ab; a_a2b] /\ consumes r 1)
  /\ ab_hull = Ok ab_built /\ correct_hull (coords (i_hull ab_built)) (qhull (i_hull ab_built)) [0; 1; 2; 3]
  /\ exact_coordinate (coords (i_hull ab_built)) [0; 1; 2; 3] 0 /\ exact_coordinate (coords (i_hull ab_built)) [0; 1; 2; 3] 1
  /\ (forall r p, In (r, p) (combine (i_reactions ab_built) (coords (i_hull ab_built))) -> exact_coordinate (coords (i_hull ab_built)) [0; 1; 2; 3] (fst p))
  /\ (exists s, ab_compete (Of Secondary) a_ab = Ok s /\ (0 < s - (4 # 15) < 1 # 1000000000)%Q)
  /\ (exists s, ab_compete (Of SecondaryMax) a_a2b = Ok s /\ (0 < s - (1 # 10) < 1 # 1000000000)%Q)
  /\ (exists s, ab_compete Area a_a2b = Ok s /\ (0 < s - (1 # 30) < 1 # 1000000000)%Q).
Proof.
  split; [exact ab_wf|]. split; [exact round12_rounds|]. split; [exact argsort_sorts|]. split; [exact exact_measures|].
  split; [apply ab_hyps|]. split; [apply ab_hyps|]. split; [apply ab_hyps|]. split; [apply ab_demo|]. split; [exact ab_correct|].
  split; [apply ab_ends|]. split; [apply ab_ends|]. split; [exact ab_exact|exact ab_measures].
Qed.

(* With them: the primary competition of the two reactions, and the score with the energy above the hull. *)
Example C143_others_demo : (forall r p, In (r, p) (combine (i_reactions ab_built) (coords (i_hull ab_built))) ->
    same_comps r r = true /\ forall r' p', In (r', p') (combine (i_reactions ab_built) (coords (i_hull ab_built))) -> same_comps r' r = true -> p' = p)
  /\ (exists s, ab_compete (Of Primary) a_ab = Ok s /\ (s == 1 # 15)%Q)
  /\ exists s s', ab_compete (Of Secondary) a_ab = Ok s /\ ab_compete (Of SecondaryWithEhull) a_ab = Ok s' /\ (s' == s)%Q.
Proof.
  split; [|split; [eexists; split; [vm_compute; reflexivity|reflexivity]|eexists; eexists; split; [vm_compute; reflexivity|]; split; [vm_compute; reflexivity|reflexivity]]].
  intros r p H. split; [|intros r' p' H' E; exact (ab_single r r' p p' H H' E)].
  cbn in H. repeat (destruct H as [H|H]; [injection H as <- _; reflexivity|]). destruct H.
Qed.
