(* What is asked of the scores of the competition job. *)
From Verif Require Import Prelude NumQ SumQ ReactionModel ReactionSpec HullSpec UtilsSpec IrhSpec.
Open Scope nat_scope.

(* A closed reaction of proper compositions that uses something up. *)
Definition genuine (C : chem) (r : rxn) : Prop :=
  proper C r /\ (exists k, r = RComputed k) /\ (forall c k, In (c, k) (species (base_of r)) -> elems C c <> []) /\ exists c, consumes r c.
Definition produces (r : rxn) (c : nat) : Prop := exists k, In (c, k) (species (base_of r)) /\ (0 < k)%Q.
(* r' needs no other reactants than r. *)
Definition competes (r' r : rxn) : Prop := forall c, consumes r' c -> consumes r c.

(* One reactant: v is the lowest energy of the other reactions of this reactant, or 0. *)
Definition lowest_other (C : chem) (req : rxn -> rxn -> bool) (rs : list rxn) (r : rxn) (v : Q) : Prop :=
  (v = 0%Q \/ exists r', In r' rs /\ competes r' r /\ req r' r = false /\ energy_per_atom C r' = Ok v) /\ (v <= 0)%Q
  /\ forall r' e, In r' rs -> competes r' r -> req r' r = false -> energy_per_atom C r' = Ok e -> (v <= e)%Q.

(* Two reactants a and b: m is the lowest energy of the competing reactions at other mixing
   ratios, or 0. Ratios are told apart to twelve digits. *)
Definition lowest_elsewhere (C : chem) (rs : list rxn) (r : rxn) (a b : nat) (m : Q) : Prop :=
  ((m == 0)%Q \/ exists r', In r' rs /\ competes r' r /\ ~ (mixing_ratio C a b r' == mixing_ratio C a b r)%Q /\ energy_per_atom C r' = Ok m)
  /\ (m <= 0)%Q
  /\ forall r' e, In r' rs -> competes r' r -> (1 # 1000000000000 < Qabs (mixing_ratio C a b r' - mixing_ratio C a b r))%Q ->
     energy_per_atom C r' = Ok e -> (m <= e)%Q.

(* The points of the reactions that compete with r, and of the two reactants, by mixing ratio. *)
Definition phase_points (C : chem) (rs : list rxn) (r : rxn) (a b : nat) (cs : list (Q * Q)) : Prop :=
  exists others pts, subseq others rs /\ (forall r', In r' others <-> In r' rs /\ competes r' r)
  /\ Forall2 (point_of C a b) others pts /\ Permutation cs (pts ++ [(0, 0); (1, 0)]%Q) /\ sorted_by_x cs.

(* l follows the lower hull from u to w; a reactant that decomposes is put in front or behind. *)
Definition follows_hull (cs : list (Q * Q)) (chain : list nat) (u w : Q) (l : list (Q * Q)) : Prop :=
  exists yu yw front mid back, envelope cs u yu /\ envelope cs w yw /\ l = front ++ [(u, yu)] ++ mid ++ [(w, yw)] ++ back
  /\ front = (if isclose u 0 && negb (isclose yu 0) then [(0, 0)]%Q else [])
  /\ back = (if isclose w 1 && negb (isclose yw 0) then [(1, 0)]%Q else [])
  /\ (forall c, In c mid <-> (exists i, In i chain /\ nth_error cs i = Some c) /\ (u < fst c < w)%Q)
  /\ forall i j p q, i < j -> nth_error mid i = Some p -> nth_error mid j = Some q -> (fst p < fst q)%Q.
(* v is the mean energy of all ways to decompose along l. *)
Definition mean_release (l : list (Q * Q)) (v : Q) : Prop :=
  (exists ts, all_trees (length l - 2) ts) /\ forall ts, all_trees (length l - 2) ts ->
  (v * inject_Z (Z.of_nat (length ts)) == sum_energies (fun i => nth i l (0, 0)%Q) ts 0 (length l - 1))%Q.

(* The scores of a reaction of one reactant, up to the tolerance of isclose. *)
Definition single_scored (C : chem) (round4 : Q -> Q) (req : rxn -> rxn -> bool) (rs : list rxn) (r : rxn) (p s : Q) : Prop :=
  exists a, (forall c, consumes r c <-> c = a)
  /\ exists e v p0 s0, energy_per_atom C r = Ok e /\ lowest_other C req rs r v /\ p = round4 p0 /\ s = round4 s0
     /\ (e - v - (1 # 100000000) <= p0 <= e - v)%Q /\ (s0 == Qmax p0 0)%Q.
(* The scores of a reaction of two reactants: its energy over the best competitor, and what is
   released, on the mean, along the hull on both sides of it. *)
Definition pair_scored (C : chem) (convex_hull : list (Q * Q) -> result (list nat)) (rs : list rxn) (r : rxn) (p s : Q) : Prop :=
  exists a b, a <> b /\ (forall c, consumes r c <-> c = a \/ c = b)
  /\ (exists e m, energy_per_atom C r = Ok e /\ lowest_elsewhere C rs r a b m /\ (p == e - m)%Q)
  /\ exists cs vs x, phase_points C rs r a b cs /\ convex_hull cs = Ok vs
     /\ (Qabs (x - mixing_ratio C a b r) <= 1 # 2000000000000)%Q /\ (0 <= x <= 1)%Q
     /\ forall chain, correct_hull cs vs chain -> exact_coordinate cs chain 0 -> exact_coordinate cs chain x -> exact_coordinate cs chain 1 -> (0 < x < 1)%Q ->
        exists L R vl vr, follows_hull cs chain 0 x L /\ follows_hull cs chain x 1 R /\ mean_release L vl /\ mean_release R vr /\ (s == - (vl + vr))%Q.

(* What keeps a reaction from being scored: three reactants, or two and a library that does not
   give the hull of the points (or that leaves points too close for isclose). *)
Definition three_reactants (r : rxn) : Prop :=
  exists a b c, (a <> b /\ a <> c /\ b <> c) /\ consumes r a /\ consumes r b /\ consumes r c.
Definition pair_unscored (C : chem) (convex_hull : list (Q * Q) -> result (list nat)) (rs : list rxn) (r : rxn) : Prop :=
  exists a b, a <> b /\ (forall c, consumes r c <-> c = a \/ c = b)
  /\ exists cs x, phase_points C rs r a b cs /\ (Qabs (x - mixing_ratio C a b r) <= 1 # 2000000000000)%Q /\ (0 <= x <= 1)%Q
     /\ forall vs chain, convex_hull cs = Ok vs -> correct_hull cs vs chain -> exact_coordinate cs chain 0 -> exact_coordinate cs chain x ->
        exact_coordinate cs chain 1 -> (0 < x < 1)%Q -> False.
