(* What the tables of the experimental entries give. *)
From Coq Require Import String Lqa Qround.
From Verif Require Import Prelude NumQ ListFacts UtilsModel ReactionModel ReactionSpec ParetoProofs GibbsModel GibbsSpec GibbsProofs GibbsEntryProofs ExpTableModel ExpTableSpec.
Open Scope list_scope.
Open Scope nat_scope.

Lemma pairs_by_index {A} (P : A -> A -> Prop) l : (forall i j a b, i < j -> nth_error l i = Some a -> nth_error l j = Some b -> P a b) -> ForallOrdPairs P l.
Proof.
  induction l as [|a l IH]; intros H; constructor.
  - apply Forall_forall. intros b I. apply In_nth_error in I as (j & E). apply (H 0 (S j) a b); [lia|reflexivity|exact E].
  - apply IH. intros i j b c L Hi Hj. apply (H (S i) (S j)); [lia|exact Hi|exact Hj].
Qed.

(* --- the rows of one formula --- *)
Section Rows.
Variable vs : list Z.
Notation d := (rows_of vs).
Notation n := (Z.of_nat (length vs)).
Definition val (k : Z) : Q := (nth (Z.to_nat (k - 3)) vs 0%Z # 1000000)%Q.
Notation x k := (inject_Z (100 * k)).

Lemma rows_nth i : nth_error d i = option_map (fun z => (inject_Z (100 * (3 + Z.of_nat i)), (z # 1000000)%Q)) (nth_error vs i).
Proof.
  assert (G : forall l s i, nth_error (combine (map (fun i => inject_Z (100 * (3 + Z.of_nat i))) (seq s (length l))) (map (fun z : Z => (z # 1000000)%Q) l)) i
    = option_map (fun z => (inject_Z (100 * (3 + Z.of_nat (s + i))), (z # 1000000)%Q)) (nth_error l i)).
  { induction l as [|z l IH]; intros s [|j]; cbn [length seq map combine nth_error option_map]; try reflexivity; [rewrite Nat.add_0_r; reflexivity|]. rewrite IH. destruct (nth_error l j); cbn [option_map]; [|reflexivity].
    replace (S s + j) with (s + S j) by lia. reflexivity. }
  exact (G vs 0 i).
Qed.
Lemma rows_in p : In p d <-> exists k, (3 <= k < 3 + n)%Z /\ p = (x k, val k).
Proof.
  split.
  - intros I. apply In_nth_error in I as (i & E). rewrite rows_nth in E. destruct (nth_error vs i) as [z|] eqn:Ez; [|discriminate]. injection E as <-.
    assert (L : i < length vs) by (apply nth_error_Some; congruence). exists (3 + Z.of_nat i)%Z. split; [lia|]. unfold val. replace (Z.to_nat (3 + Z.of_nat i - 3)) with i by lia. rewrite (nth_error_nth _ _ _ Ez). reflexivity.
  - intros (k & K & ->). apply (nth_error_In _ (Z.to_nat (k - 3))). rewrite rows_nth. destruct (nth_error vs (Z.to_nat (k - 3))) as [z|] eqn:Ez; [|apply nth_error_None in Ez; lia].
    unfold val. rewrite (nth_error_nth _ _ _ Ez). cbn [option_map]. do 4 f_equal. lia.
Qed.
Lemma row_lt j k : (j < k)%Z -> (x j < x k)%Q.
Proof. intros H. rewrite <- Zlt_Qlt. lia. Qed.
Lemma row_lt_inv j k : (x j < x k)%Q -> (j < k)%Z.
Proof. rewrite <- Zlt_Qlt. lia. Qed.
Lemma rows_distinct : distinct_abscissae d.
Proof.
  apply pairs_by_index. intros i j a b L Hi Hj. rewrite rows_nth in Hi, Hj. destruct (nth_error vs i); [|discriminate]. destruct (nth_error vs j); [|discriminate]. injection Hi as <-. injection Hj as <-. cbn [fst].
  pose proof (row_lt (3 + Z.of_nat i) (3 + Z.of_nat j) ltac:(lia)) as R. intros Eq. rewrite Eq in R. exact (Qlt_irrefl _ R).
Qed.

Lemma next_row k : (x (k + 1) == x k + 100)%Q.
Proof. replace (100 * (k + 1))%Z with (100 * k + 100)%Z by ring. rewrite inject_Z_plus. reflexivity. Qed.
(* The point t is so far between two rows. *)
Definition cell (k : Z) (s t b : Q) : Prop :=
  (3 <= k)%Z /\ (k + 1 < 3 + n)%Z /\ (0 <= s <= 1)%Q /\ (t == x k + 100 * s)%Q /\ (b == val k + (val (k + 1) - val k) * s)%Q.
Lemma last_eq : last_row vs = x (3 + n - 1).
Proof. unfold last_row. f_equal. ring. Qed.

Variable C : chem.
Variable refs : nat -> option (list (Q * Q)).
Variable deprecated : nat -> bool.
Notation init := (exp_init C refs deprecated).

Lemma rows_value c t adjs : deprecated (red C c) = false -> refs (red C c) = Some d -> vs <> [] -> (300 <= pyval t <= last_row vs)%Q ->
  exists e, init c t adjs = Ok e /\ (length vs = 1 /\ (pyval t == 300)%Q /\ (xe_base e == val 3)%Q \/ exists k s, cell k s (pyval t) (xe_base e)).
Proof.
  intros D R Ne (T1 & T2). rewrite last_eq in T2. assert (Ln : (1 <= n)%Z) by (destruct vs; [contradiction|cbn [length]; lia]).
  destruct (off_grid t) eqn:O.
  - apply off_grid_iff in O. set (k := Qfloor (pyval t / 100)). assert (Hl := Qfloor_le (pyval t / 100)). assert (Hu := Qlt_floor (pyval t / 100)). fold k in Hl, Hu.
    assert (E100 : (pyval t == 100 * (pyval t / 100))%Q) by field.
    assert (A : (x k <= pyval t)%Q) by (rewrite inject_Z_mult; change (inject_Z 100) with 100%Q; lra).
    assert (B : (pyval t < x (k + 1))%Q) by (rewrite inject_Z_mult; change (inject_Z 100) with 100%Q; rewrite E100; apply Qmult_lt_l; [reflexivity|exact Hu]).
    assert (A' : (x k < pyval t)%Q).
    { destruct (Qlt_le_dec (x k) (pyval t)) as [H|H]; [exact H|]. exfalso. apply O. exists k. lra. }
    assert (K1 : (3 <= k)%Z). { destruct (Z.le_gt_cases 3 k) as [H|H]; [exact H|]. exfalso. assert (H3 : (k + 1 <= 3)%Z) by lia. assert (Q3 : (x (k + 1) <= x 3)%Q) by (rewrite <- Zle_Qle; lia). change (x 3) with 300%Q in Q3. lra. }
    assert (K2 : (k + 1 < 3 + n)%Z). { assert (H : (k < 3 + n - 1)%Z) by (apply row_lt_inv; lra). lia. }
    destruct (exp_between C refs deprecated c (x k) (val k) (x (k + 1)) (val (k + 1)) d t adjs D R rows_distinct) as (e & E & V & _).
    + apply rows_in. exists k. split; [lia|reflexivity].
    + apply rows_in. exists (k + 1)%Z. split; [lia|reflexivity].
    + apply row_lt. lia.
    + intros p I. apply rows_in in I as (j & _ & ->). cbn [fst]. rewrite <- !Zle_Qle. lia.
    + exact A.
    + lra.
    + exact O.
    + exists e. split; [exact E|]. right. exists k, ((pyval t - x k) / 100)%Q. rewrite next_row in B. assert (Es : (pyval t == x k + 100 * ((pyval t - x k) / 100))%Q) by field.
      set (s := ((pyval t - x k) / 100)%Q) in *. split; [exact K1|]. split; [exact K2|]. split; [split; lra|]. split; [exact Es|]. rewrite V. unfold on_line. rewrite next_row, Es. field. intros Z0. assert (Z1 : (x k + 100 - x k == 100)%Q) by ring. rewrite Z1 in Z0. discriminate Z0.
  - apply off_grid_false in O as (k & Ek).
    assert (K1 : (3 <= k)%Z). { destruct (Z.le_gt_cases 3 k) as [H|H]; [exact H|]. exfalso. pose proof (row_lt k 3 H) as L. change (x 3) with 300%Q in L. lra. }
    assert (K2 : (k < 3 + n)%Z). { destruct (Z.lt_ge_cases k (3 + n)) as [H|H]; [exact H|]. exfalso. pose proof (row_lt (3 + n - 1) k ltac:(lia)) as L. lra. }
    assert (Ik : In (x k, val k) d) by (apply rows_in; exists k; split; [lia|reflexivity]).
    assert (I3 : In (x 3, val 3) d) by (apply rows_in; exists 3%Z; split; [lia|reflexivity]).
    assert (Ex : exists e, init c t adjs = Ok e).
    { unfold exp_init. assert (V : validate refs deprecated (red C c) t = Ok tt).
      { unfold validate. rewrite D, R. destruct d as [|a l] eqn:Ed; [destruct Ik|].
        assert (B1 : forallb (fun kv => Qlt_bool (pyval t) (fst kv)) (a :: l) = false).
        { apply not_true_is_false. intros F. rewrite forallb_forall in F. specialize (F _ Ik). cbn [fst] in F. apply Qlt_bool_iff in F. lra. }
        assert (B2 : forallb (fun kv => Qlt_bool (fst kv) (pyval t)) (a :: l) = false).
        { apply not_true_is_false. intros F. rewrite forallb_forall in F. specialize (F _ Ik). cbn [fst] in F. apply Qlt_bool_iff in F. lra. }
        rewrite B1, B2. reflexivity. }
      rewrite V. cbn [bind]. unfold get_energy. rewrite D, R, (proj2 (off_grid_false t) (ex_intro _ k Ek)).
      destruct (find (fun kv => Qeq_bool (pyval t) (fst kv)) d) as [kv|] eqn:F; [cbn [bind]; eexists; reflexivity|]. exfalso. pose proof (find_none _ _ F _ Ik) as N. cbn [fst] in N. apply Qeq_bool_neq in N. contradiction. }
    destruct Ex as (e & E). exists e. split; [exact E|]. assert (V : xe_base e = val k) by exact (exp_tabulated C refs deprecated c k (val k) d adjs e D R rows_distinct t Ek Ik E).
    destruct (Z.eq_dec n 1) as [H1|H1].
    + left. assert (k = 3%Z) as -> by lia. split; [lia|]. split; [rewrite Ek; reflexivity|rewrite V; reflexivity].
    + right. destruct (Z.lt_ge_cases (k + 1) (3 + n)) as [H|H].
      * exists k, 0%Q. split; [exact K1|]. split; [exact H|]. split; [split; lra|]. split; [rewrite Ek; ring|rewrite V; ring].
      * exists (k - 1)%Z, 1%Q. split; [lia|]. split; [lia|]. split; [split; lra|]. replace (k - 1 + 1)%Z with k by lia. split; [|rewrite V; ring]. rewrite Ek. pose proof (next_row (k - 1)) as N. replace (k - 1 + 1)%Z with k in N by lia. rewrite N. ring.
Qed.

Lemma rows_outside c t adjs : deprecated (red C c) = false -> refs (red C c) = Some d -> ~ (300 <= pyval t <= last_row vs)%Q -> init c t adjs = Err ValueError.
Proof.
  intros D R N. apply exp_outside; [exact D|]. intros d' Ed. assert (d' = d) as -> by congruence. rewrite last_eq in N.
  destruct (Qlt_le_dec (pyval t) 300) as [H|H]; [left|right]; intros p I; apply rows_in in I as (k & K & ->); cbn [fst].
  - assert (L : (x 3 <= x k)%Q) by (rewrite <- Zle_Qle; lia). change (x 3) with 300%Q in L. lra.
  - assert (L : (x k <= x (3 + n - 1))%Q) by (rewrite <- Zle_Qle; lia). destruct (Qlt_le_dec (x k) (pyval t)) as [G|G]; [exact G|]. exfalso. apply N. split; lra.
Qed.

(* --- how far the energy moves --- *)
Variable B : Q.
Hypothesis steps : forall k, (3 <= k)%Z -> (k + 1 < 3 + n)%Z -> (- B <= val (k + 1) - val k <= B)%Q.

Lemma grid_moves m : forall j, (3 <= j)%Z -> (j + Z.of_nat m < 3 + n)%Z -> (- (B * inject_Z (Z.of_nat m)) <= val (j + Z.of_nat m) - val j <= B * inject_Z (Z.of_nat m))%Q.
Proof.
  induction m as [|m IH]; intros j H1 H2.
  - replace (j + Z.of_nat 0)%Z with j by lia. change (inject_Z (Z.of_nat 0)) with 0%Q. split; lra.
  - specialize (IH j H1 ltac:(lia)). pose proof (steps (j + Z.of_nat m) ltac:(lia) ltac:(lia)) as St. replace (j + Z.of_nat m + 1)%Z with (j + Z.of_nat (S m))%Z in St by lia.
    replace (inject_Z (Z.of_nat (S m))) with (inject_Z (Z.of_nat m + 1)) by (f_equal; lia). rewrite inject_Z_plus. change (inject_Z 1) with 1%Q. split; lra.
Qed.
Lemma between_moves k s t b k' s' t' b' : cell k s t b -> cell k' s' t' b' -> (t <= t')%Q -> (- (B * ((t' - t) / 100)) <= b' - b <= B * ((t' - t) / 100))%Q.
Proof.
  intros (K1 & K2 & (S1 & S2) & T & E) (K1' & K2' & (S1' & S2') & T' & E') L.
  pose proof (steps k K1 K2) as (P1 & P2). pose proof (steps k' K1' K2') as (P1' & P2'). assert (Bp : (0 <= B)%Q) by lra.
  destruct (Z.lt_trichotomy k k') as [H|[H|H]].
  - pose proof (grid_moves (Z.to_nat (k' - (k + 1))) (k + 1) ltac:(lia) ltac:(lia)) as (G1 & G2). rewrite Z2Nat.id in G1, G2 by lia. replace (k + 1 + (k' - (k + 1)))%Z with k' in G1, G2 by lia.
    assert (Ed : ((t' - t) / 100 == inject_Z (k' - (k + 1)) + s' + (1 - s))%Q).
    { rewrite T, T'. assert (X : (x k' == x k + 100 + 100 * inject_Z (k' - (k + 1)))%Q). { replace (100 * k')%Z with (100 * k + 100 + 100 * (k' - (k + 1)))%Z by ring. rewrite !inject_Z_plus, !inject_Z_mult. change (inject_Z 100) with 100%Q. reflexivity. }
      rewrite X. field. }
    rewrite Ed, E, E'. clear Ed E E' T T' L. set (u := inject_Z (k' - (k + 1))) in *. set (D1 := (val (k + 1) - val k)%Q) in *. set (D2 := (val (k' + 1) - val k')%Q) in *. set (D3 := (val k' - val (k + 1))%Q) in *.
    assert (X : (val k' + D2 * s' - (val k + D1 * s) == D3 + D2 * s' + D1 * (1 - s))%Q) by (unfold D1, D3; ring). rewrite X.
    assert (A1 : (- (B * s') <= D2 * s' <= B * s')%Q) by (split; nra). assert (A2 : (- (B * (1 - s)) <= D1 * (1 - s) <= B * (1 - s))%Q) by (split; nra).
    split; lra.
  - subst k'. assert (Ed : ((t' - t) / 100 == s' - s)%Q) by (rewrite T, T'; field). assert (Ls : (s <= s')%Q) by lra. rewrite Ed, E, E'. set (D1 := (val (k + 1) - val k)%Q) in *.
    assert (X : (val k + D1 * s' - (val k + D1 * s) == D1 * (s' - s))%Q) by ring. rewrite X. split; nra.
  - assert (Hx : (x (k' + 1) <= x k)%Q) by (rewrite <- Zle_Qle; lia). rewrite next_row in Hx. assert (Z0 : (s == 0)%Q) by lra. assert (Z1 : (s' == 1)%Q) by lra.
    assert (Hk : k = (k' + 1)%Z). { assert (Hx2 : (x k <= x (k' + 1))%Q) by (rewrite next_row; lra). rewrite <- Zle_Qle in Hx2. lia. }
    subst k. assert (Et : ((t' - t) / 100 == 0)%Q). { rewrite T, T', Z0, Z1, next_row. field. } rewrite Et, E, E', Z0, Z1. split; lra.
Qed.
Lemma entries_move c t t' adjs adjs' e e' : deprecated (red C c) = false -> refs (red C c) = Some d -> init c t adjs = Ok e -> init c t' adjs' = Ok e' ->
  (Qabs (xe_base e' - xe_base e) <= B * (Qabs (pyval t' - pyval t) / 100))%Q.
Proof.
  intros D R He He'. assert (Ne : vs <> []).
  { intros E0. unfold exp_init, validate in He. rewrite D, R in He. unfold rows_of in He. rewrite E0 in He. discriminate He. }
  assert (In1 : (300 <= pyval t <= last_row vs)%Q).
  { destruct (Qlt_le_dec (pyval t) 300) as [H|H]; [rewrite (rows_outside c t adjs D R) in He by lra; discriminate|]. destruct (Qlt_le_dec (last_row vs) (pyval t)) as [G|G]; [rewrite (rows_outside c t adjs D R) in He by lra; discriminate|]. split; assumption. }
  assert (In2 : (300 <= pyval t' <= last_row vs)%Q).
  { destruct (Qlt_le_dec (pyval t') 300) as [H|H]; [rewrite (rows_outside c t' adjs' D R) in He' by lra; discriminate|]. destruct (Qlt_le_dec (last_row vs) (pyval t')) as [G|G]; [rewrite (rows_outside c t' adjs' D R) in He' by lra; discriminate|]. split; assumption. }
  destruct (rows_value c t adjs D R Ne In1) as (e0 & E0 & V). assert (e0 = e) as -> by congruence. destruct (rows_value c t' adjs' D R Ne In2) as (e1 & E1 & V'). assert (e1 = e') as -> by congruence.
  destruct V as [(L1 & T & V)|(k & s & V)], V' as [(L1' & T' & V')|(k' & s' & V')].
  - rewrite V, V', T, T'. assert (Z0 : (300 - 300 == 0)%Q) by reflexivity. rewrite Z0. assert (Z1 : (val 3 - val 3 == 0)%Q) by ring. rewrite Z1. cbn [Qabs Z.abs]. change (Qabs 0) with 0%Q. assert (Z2 : (B * (0 / 100) == 0)%Q) by field. rewrite Z2. apply Qle_refl.
  - exfalso. destruct V' as (K1 & K2 & _). lia.
  - exfalso. destruct V as (K1 & K2 & _). lia.
  - destruct (Qlt_le_dec (pyval t') (pyval t)) as [H|H].
    + pose proof (between_moves _ _ _ _ _ _ _ _ V' V ltac:(lra)) as (M1 & M2). rewrite (Qabs_neg (pyval t' - pyval t)) by lra. assert (Es : (- (pyval t' - pyval t) / 100 == (pyval t - pyval t') / 100)%Q) by field. rewrite Es. apply Qabs_Qle_condition. split; lra.
    + pose proof (between_moves _ _ _ _ _ _ _ _ V V' H) as (M1 & M2). rewrite (Qabs_pos (pyval t' - pyval t)) by lra. apply Qabs_Qle_condition. split; lra.
Qed.
End Rows.

(* --- two tables side by side --- *)
Lemma both_near vs vs' B (near : forall k, (3 <= k)%Z -> (k < 3 + Z.of_nat (length vs))%Z -> (k < 3 + Z.of_nat (length vs'))%Z -> (- B <= val vs k - val vs' k <= B)%Q)
  C C' refs refs' dep dep' c c' t adjs adjs' e e' :
  dep (red C c) = false -> refs (red C c) = Some (rows_of vs) -> exp_init C refs dep c t adjs = Ok e ->
  dep' (red C' c') = false -> refs' (red C' c') = Some (rows_of vs') -> exp_init C' refs' dep' c' t adjs' = Ok e' ->
  (Qabs (xe_base e - xe_base e') <= B)%Q.
Proof.
  intros D R He D' R' He'.
  assert (G : forall C refs dep c adjs e vs, dep (red C c) = false -> refs (red C c) = Some (rows_of vs) -> exp_init C refs dep c t adjs = Ok e ->
    exists k s, (3 <= k < 3 + Z.of_nat (length vs))%Z /\ (0 <= s <= 1)%Q /\ (pyval t == inject_Z (100 * k) + 100 * s)%Q /\ ((k + 1 < 3 + Z.of_nat (length vs))%Z /\ (xe_base e == val vs k + (val vs (k + 1) - val vs k) * s)%Q \/ (s == 0)%Q /\ (xe_base e == val vs k)%Q)).
  { clear. intros C refs dep c adjs e vs D R He. assert (Ne : vs <> []).
    { intros E0. unfold exp_init, validate in He. rewrite D, R in He. unfold rows_of in He. rewrite E0 in He. discriminate He. }
    assert (I : (300 <= pyval t <= last_row vs)%Q).
    { destruct (Qlt_le_dec (pyval t) 300) as [H|H]; [rewrite (rows_outside vs C refs dep c t adjs D R) in He by lra; discriminate|]. destruct (Qlt_le_dec (last_row vs) (pyval t)) as [G|G]; [rewrite (rows_outside vs C refs dep c t adjs D R) in He by lra; discriminate|]. split; assumption. }
    destruct (rows_value vs C refs dep c t adjs D R Ne I) as (e0 & E0 & V). assert (e0 = e) as -> by congruence. destruct V as [(L1 & T & V)|(k & s & K1 & K2 & S & T & V)].
    - exists 3%Z, 0%Q. split; [lia|]. split; [split; lra|]. split; [rewrite T; reflexivity|]. right. split; [reflexivity|exact V].
    - exists k, s. split; [lia|]. split; [exact S|]. split; [exact T|]. left. split; [exact K2|exact V]. }
  destruct (G _ _ _ _ _ _ _ D R He) as (k & s & K & (S1 & S2) & T & V). destruct (G _ _ _ _ _ _ _ D' R' He') as (k' & s' & K' & (S1' & S2') & T' & V'). clear G.
  apply Qabs_Qle_condition.
  destruct (Z.lt_trichotomy k k') as [H|[H|H]].
  - assert (Hx : (inject_Z (100 * (k + 1)) <= inject_Z (100 * k'))%Q) by (rewrite <- Zle_Qle; lia). rewrite next_row in Hx. assert (Z1 : (s == 1)%Q) by lra. assert (Z0 : (s' == 0)%Q) by lra.
    assert (Hk : k' = (k + 1)%Z). { assert (Hy : (inject_Z (100 * k') <= inject_Z (100 * (k + 1)))%Q) by (rewrite next_row; lra). rewrite <- Zle_Qle in Hy. lia. } subst k'.
    destruct V as [(K2 & V)|(Z2 & _)]; [|exfalso; lra]. rewrite Z1 in V. assert (W : (xe_base e' == val vs' (k + 1))%Q) by (destruct V' as [(_ & V')|(_ & V')]; rewrite V'; [rewrite Z0; ring|reflexivity]).
    pose proof (near (k + 1)%Z ltac:(lia) K2 ltac:(lia)) as N. split; lra.
  - subst k'. assert (Es : (s == s')%Q) by lra. pose proof (near k ltac:(lia) ltac:(lia) ltac:(lia)) as (N1 & N2).
    destruct V as [(K2 & V)|(Z2 & V)], V' as [(K2' & V')|(Z2' & V')].
    + pose proof (near (k + 1)%Z ltac:(lia) ltac:(lia) ltac:(lia)) as (M1 & M2). rewrite V, V', <- Es.
      set (a := val vs k) in *. set (b := val vs (k + 1)) in *. set (a' := val vs' k) in *. set (b' := val vs' (k + 1)) in *.
      assert (X : (a + (b - a) * s - (a' + (b' - a') * s) == (a - a') * (1 - s) + (b - b') * s)%Q) by ring. rewrite X. split; nra.
    + rewrite V, V', Es, Z2'. split; lra.
    + rewrite V, V', <- Es, Z2. split; lra.
    + rewrite V, V'. split; lra.
  - assert (Hx : (inject_Z (100 * (k' + 1)) <= inject_Z (100 * k))%Q) by (rewrite <- Zle_Qle; lia). rewrite next_row in Hx. assert (Z1 : (s' == 1)%Q) by lra. assert (Z0 : (s == 0)%Q) by lra.
    assert (Hk : k = (k' + 1)%Z). { assert (Hy : (inject_Z (100 * k) <= inject_Z (100 * (k' + 1)))%Q) by (rewrite next_row; lra). rewrite <- Zle_Qle in Hy. lia. } subst k.
    destruct V' as [(K2' & V')|(Z2 & _)]; [|exfalso; lra]. rewrite Z1 in V'. assert (W : (xe_base e == val vs (k' + 1))%Q) by (destruct V as [(_ & V)|(_ & V)]; rewrite V; [rewrite Z0; ring|reflexivity]).
    pose proof (near (k' + 1)%Z ltac:(lia) ltac:(lia) K2') as N. split; lra.
Qed.
