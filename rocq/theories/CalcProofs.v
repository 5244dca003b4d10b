(* The measures of the calculators on a built hull. *)
From Coq Require Import Lqa Sorted.
From Verif Require Import Prelude NumQ SumQ ListFacts UtilsModel ReactionModel ReactionSpec HullModel HullSpec HullChainProofs HullEnergyProofs HullSignProofs
  AreaModel AreaSpec AreaProofs IrhModel IrhSpec IrhProofs CompSpec CompProofs CalcModel CalcSpec.
From Verif Require RxnSetBaseProofs.
Open Scope nat_scope.

Section Sides.
Variable volume : list coord -> result Q.
Hypothesis Hvol : measures volume.
Variable h : hull.
Variable chain : list nat.
Hypothesis Hok : correct_hull (coords h) (qhull h) chain.

Lemma points_greatest u w l : (0 <= u)%Q -> (u < w)%Q -> (w <= 1)%Q -> exact_coordinate (coords h) chain u -> exact_coordinate (coords h) chain w ->
  get_coords_in_range h u w = Ok l -> 2 <= length l ->
  exists m a, get_max_decomposition_energy h u w = Ok m /\ greatest_release l (- m) /\ get_decomposition_area volume h u w = Ok a /\ (a == polygon_area l)%Q.
Proof.
  intros Hu Huw Hw Eu Ew Hl Hlen. destruct (range_spec h chain Hok u w Hu (Qlt_le_weak _ _ Huw) Hw Eu Ew) as (yu & yw & H1 & H2 & H3 & H4 & H5 & H6 & H7).
  destruct (range_props h chain Hok u w yu yw) as [Hhd Hconv]; try assumption; [lra|]. rewrite Hl in H7. injection H7 as E. rewrite <- E in Hhd, Hconv.
  destruct (convex_signs _ Hconv) as (e & m & _ & Hm & _ & Hm0). unfold get_max_decomposition_energy, get_decomposition_area. rewrite Hl. cbn [bind].
  destruct (max_energy_spec l m Hm) as (Hex & Hle & Hall).
  assert (G : greatest_release l (- m)).
  { split; [|split; [lra|]].
    - destruct Hex as [->|(i & j & k & p & q & r & Hi & Hp & Hq & Hr & ->)]; [left; reflexivity|]. right. exists i, j, k, p, q, r.
      repeat (split; [assumption|]). reflexivity.
    - intros i j k p q r Hi Hp Hq Hr. pose proof (Hall i j k p q r Hi Hp Hq Hr). lra. }
  destruct (Nat.eqb_spec (length l) 2) as [E2|E2].
  - exists m, 0%Q. split; [exact Hm|]. split; [exact G|]. split; [reflexivity|]. destruct l as [|c [|c' [|? ?]]]; try discriminate. reflexivity.
  - destruct (proj1 Hvol l) as (ar & Har & Ear); [lia|assumption|assumption|]. exists m, ar. split; [exact Hm|]. split; [exact G|]. split; [exact Har|exact Ear].
Qed.
End Sides.

Section Calc.
Variable C : chem.
Hypothesis W : wf_chem C.
Variable round12 : Q -> Q.
Hypothesis R12 : rounds12 round12.
Variable argsort : list Q -> list nat.
Hypothesis Hsort : sorts argsort.
Variable convex_hull : list coord -> result (list nat).
Variable lsq : list nat -> list nat -> list nat -> list Q.
Variable rank : list nat -> list nat -> nat.
Hypothesis Hlsq : forall c, lsq [c] [c] [1] = [-1; 1]%Q.
Variables comp1 comp2 : nat.
Variable rs : list rxn.
Hypothesis Hrs : forall r, In r rs -> proper C r /\ (0 < takes C r (red C comp1) + takes C r (red C comp2))%Q.
Hypothesis Hne : red C comp1 <> red C comp2.
Hypothesis Hel1 : ReactionModel.elems C (red C comp1) <> [].
Hypothesis Hel2 : ReactionModel.elems C (red C comp2) <> [].
Hypothesis Hc1 : exists r, In r rs /\ consumes r (red C comp1).
Hypothesis Hc2 : exists r, In r rs /\ consumes r (red C comp2).
Variable req : rxn -> rxn -> bool.
Variable volume : list coord -> result Q.
Hypothesis Hvol : measures volume.

Theorem measured h : build C round12 argsort convex_hull lsq rank comp1 comp2 rs = Ok h ->
  exists pts, Forall2 (point_of C (red C comp1) (red C comp2)) rs pts
  /\ forall r p, In (r, p) (combine rs pts) -> (0 < fst p < 1)%Q ->
     forall chain, correct_hull (coords (i_hull h)) (qhull (i_hull h)) chain -> exact_coordinate (coords (i_hull h)) chain 0 ->
     exact_coordinate (coords (i_hull h)) chain (fst p) -> exact_coordinate (coords (i_hull h)) chain 1 ->
     exists L R s m a, follows_hull (coords (i_hull h)) chain 0 (fst p) L /\ follows_hull (coords (i_hull h)) chain (fst p) 1 R
     /\ compete C round12 req volume (Of Secondary) h r = Ok s /\ (exists vl vr, mean_release L vl /\ mean_release R vr /\ (s == - (vl + vr))%Q)
     /\ compete C round12 req volume (Of SecondaryMax) h r = Ok m /\ (exists ml mr, greatest_release L ml /\ greatest_release R mr /\ (m == ml + mr)%Q)
     /\ compete C round12 req volume Area h r = Ok a /\ (a == polygon_area L + polygon_area R)%Q.
Proof.
  intros Hb. destruct (build_exact C W round12 R12 argsort Hsort convex_hull lsq rank Hlsq comp1 comp2 rs Hrs Hne Hel1 Hel2 Hc1 Hc2)
    as (pts & e1 & e2 & R & cs & F & N1 & N2 & Hlen & Hperm & Hsorted & E). rewrite E in Hb.
  destruct (convex_hull cs) as [vs|err]; [|discriminate]. cbn [bind] in Hb. injection Hb as <-. cbn [i_hull i_reactions coords qhull].
  exists pts. split; [eapply Forall2_impl; [|exact F]; intros r p [Hp _]; exact Hp|].
  intros r p Hin Hx chain Hch E0 Ex E1. destruct (Forall2_combine _ _ _ _ _ F Hin) as [_ Ec].
  set (g := {| coords := cs; qhull := vs |}) in *.
  destruct (side_points g chain Hch 0 (fst p) ltac:(lra) (proj1 Hx) ltac:(lra) E0 Ex) as (L & FL & CL & LL).
  destruct (side_points g chain Hch (fst p) 1 ltac:(lra) (proj2 Hx) ltac:(lra) Ex E1) as (R' & FR & CR & LR).
  destruct (sides_mean g (fst p) L R' CL CR LL LR) as (s & vl & vr & Hs & ML & MR & Es).
  destruct (points_greatest volume Hvol g chain Hch 0 (fst p) L ltac:(lra) (proj1 Hx) ltac:(lra) E0 Ex CL LL) as (ml & al & Gl & GL & Al & AL).
  destruct (points_greatest volume Hvol g chain Hch (fst p) 1 R' ltac:(lra) (proj2 Hx) ltac:(lra) Ex E1 CR LR) as (mr & ar & Gr & GR & Ar & AR).
  exists L, R', s, (-1 * (ml + mr))%Q, (al + ar)%Q. split; [exact FL|]. split; [exact FR|].
  unfold compete, calculate, secondary, secondary_max, secondary_area. cbn [i_c1 i_c2 i_hull]. rewrite Ec. cbn [bind].
  split; [rewrite Hs; reflexivity|]. split; [exists vl, vr; split; [exact ML|split; [exact MR|exact Es]]|].
  split; [unfold get_secondary_competition_max_energy; rewrite Gl, Gr; reflexivity|].
  split; [exists (- ml)%Q, (- mr)%Q; split; [exact GL|split; [exact GR|ring]]|].
  split; [unfold get_secondary_competition_area; rewrite Al, Ar; reflexivity|]. rewrite AL, AR. reflexivity.
Qed.

Theorem others h : build C round12 argsort convex_hull lsq rank comp1 comp2 rs = Ok h ->
  exists pts, Forall2 (point_of C (red C comp1) (red C comp2)) rs pts
  /\ forall r p, In (r, p) (combine rs pts) ->
     (exists s m, compete C round12 req volume (Of Primary) h r = Ok s /\ (s == snd p - m)%Q /\ (m <= 0)%Q
        /\ ((m == 0)%Q \/ exists r' p', In (r', p') (combine rs pts) /\ ~ (fst p' == fst p)%Q /\ m = snd p')
        /\ forall r' p', In (r', p') (combine rs pts) -> ~ (fst p' == fst p)%Q -> (m <= snd p')%Q)
     /\ forall chain s, correct_hull (coords (i_hull h)) (qhull (i_hull h)) chain ->
        exact_coordinate (coords (i_hull h)) chain (fst p) -> req r r = true ->
        (forall r' p', In (r', p') (combine (i_reactions h) (coords (i_hull h))) -> req r' r = true -> p' = p) ->
        compete C round12 req volume (Of Secondary) h r = Ok s ->
        exists s' e, compete C round12 req volume (Of SecondaryWithEhull) h r = Ok s' /\ envelope (coords (i_hull h)) (fst p) e /\ (s' == s + (snd p - e))%Q.
Proof.
  intros Hb. destruct (scores C W round12 R12 argsort Hsort convex_hull lsq rank Hlsq comp1 comp2 rs Hrs Hne Hel1 Hel2 Hc1 Hc2 req h Hb) as (pts & F & G).
  exists pts. split; [exact F|]. intros r p Hin. destruct (G r p Hin) as [Hp Hd]. split; [exact Hp|].
  intros chain s Hch Ex Hr Hu Es. destruct (Hd chain Hch Ex Hr Hu) as (d & e & _ & He & Ed & _ & Hs). destruct (Hs true false s Es) as (s' & Es' & E).
  exists s', e. split; [exact Es'|]. split; [exact He|]. rewrite E, Ed. reflexivity.
Qed.

Theorem many k h vs l : calculate_many C round12 req volume k h l = Ok vs <-> Forall2 (fun r v => compete C round12 req volume k h r = Ok v) l vs.
Proof. apply RxnSetBaseProofs.mapM_Forall2. Qed.
End Calc.
