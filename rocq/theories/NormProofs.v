From Coq Require Import Ascii String Qround Qpower Lqa Lia ZArith.
From Coq Require Qcanon.
From Verif Require Import Prelude NumQ ListFacts UtilsModel ReactionModel ReactionSpec ReactionBaseProofs ReactionBalanceProofs StrModel StrSpec StrNumProofs StrProofs StrTextProofs NormModel NormSpec.
Open Scope list_scope.
Open Scope nat_scope.

(* --- the remainder --- *)
Lemma mod_range a b : (0 < b)%Q -> (0 <= py_mod a b < b)%Q.
Proof.
  intros B. unfold py_mod. rewrite !Qred_correct. assert (F := Qfloor_le (a / b)). assert (G := Qlt_floor (a / b)).
  rewrite inject_Z_plus in G. set (k := inject_Z (Qfloor (a / b))) in *.
  assert (E : (a == b * (a / b))%Q) by (field; lra). set (x := (a / b)%Q) in *.
  assert (K1 : (b * k <= b * x)%Q) by (rewrite !(Qmult_comm b); apply Qmult_le_compat_r; lra).
  assert (K2 : (b * x < b * (k + inject_Z 1))%Q) by (rewrite !(Qmult_comm b); apply Qmult_lt_compat_r; [exact B|exact G]).
  change (inject_Z 1) with 1%Q in K2. split; lra.
Qed.
Lemma mod_half a b : (0 < b)%Q -> (b <= a)%Q -> (2 * py_mod a b < a)%Q.
Proof.
  intros B L. destruct (mod_range a b B) as [R0 R1].
  assert (F : (1 <= Qfloor (a / b))%Z).
  { change 1%Z with (Qfloor 1). apply Qfloor_resp_le. apply Qle_shift_div_l; lra. }
  assert (D : (py_mod a b == a - b * inject_Z (Qfloor (a / b)))%Q) by (unfold py_mod; apply Qred_correct).
  assert (K : (1 <= inject_Z (Qfloor (a / b)))%Q) by (change 1%Q with (inject_Z 1); rewrite <- Zle_Qle; exact F).
  assert (M : (b * 1 <= b * inject_Z (Qfloor (a / b)))%Q) by (rewrite !(Qmult_comm b); apply Qmult_le_compat_r; lra).
  lra.
Qed.
Lemma mod_units x y a b q : (0 < q)%Q -> (0 < y)%Z -> (a == inject_Z x * q)%Q -> (b == inject_Z y * q)%Q -> (py_mod a b == inject_Z (x mod y) * q)%Q.
Proof.
  intros Q Y A B. unfold py_mod. rewrite Qred_correct.
  assert (YQ : (0 < inject_Z y)%Q) by (change 0%Q with (inject_Z 0); rewrite <- Zlt_Qlt; exact Y).
  assert (F : Qfloor (a / b) = (x / y)%Z).
  { rewrite Zdiv_Qdiv. apply Qfloor_comp. rewrite A, B. field. split; lra. }
  rewrite F, A, B. rewrite Z.mod_eq by lia. unfold Z.sub. rewrite inject_Z_plus, inject_Z_opp, inject_Z_mult. ring.
Qed.

(* --- the loop ends --- *)
Lemma gcd_ends : forall k a b, (b <= GCD_TOL * inject_Z (2 ^ Z.of_nat k))%Q -> exists g, pair_gcd (S (2 * k)) a b = Ok g.
Proof.
  induction k as [|k IH]; intros a b H.
  - cbn [mult pair_gcd]. change (inject_Z (2 ^ Z.of_nat 0)) with 1%Q in H. rewrite Qmult_1_r in H.
    destruct (Qlt_bool GCD_TOL b) eqn:E; [apply Qlt_bool_iff' in E; exfalso; lra|]. eexists. reflexivity.
  - replace (S (2 * S k)) with (S (S (S (2 * k)))) by lia. remember (S (2 * k)) as f. cbn [pair_gcd].
    destruct (Qlt_bool GCD_TOL b) eqn:E; [|eexists; reflexivity]. apply Qlt_bool_iff' in E.
    assert (T : (0 < GCD_TOL)%Q) by reflexivity.
    destruct (Qlt_bool GCD_TOL (py_mod a b)) eqn:E2; [|eexists; reflexivity]. apply Qlt_bool_iff' in E2.
    destruct (mod_range a b) as [R0 R1]; [lra|]. subst f. apply IH.
    assert (M : (2 * py_mod b (py_mod a b) < b)%Q) by (apply mod_half; lra).
    rewrite Nat2Z.inj_succ, Z.pow_succ_r, inject_Z_mult in H by lia. change (inject_Z 2) with 2%Q in H. lra.
Qed.
Lemma fuel_enough a b : exists g, pair_gcd (gcd_fuel b) a b = Ok g.
Proof.
  apply gcd_ends. set (n := Qceiling (b / GCD_TOL)).
  assert (N : (b / GCD_TOL <= inject_Z n)%Q) by apply Qle_ceiling.
  assert (T : (0 < GCD_TOL)%Q) by reflexivity.
  assert (E : (b == GCD_TOL * (b / GCD_TOL))%Q) by (field; lra).
  rewrite Z2Nat.id by apply Z.log2_up_nonneg.
  assert (P : (n <= 2 ^ Z.log2_up n)%Z).
  { destruct (Z.le_gt_cases n 1) as [L|L].
    - rewrite Z.log2_up_eqn0 by lia. exact L.
    - apply Z.log2_up_spec. exact L. }
  rewrite Zle_Qle in P. rewrite E, !(Qmult_comm GCD_TOL). apply Qmult_le_compat_r; lra.
Qed.

(* --- what it returns --- *)
Lemma pair_above : forall f a b g, pair_gcd f a b = Ok g -> (GCD_TOL < b)%Q -> (GCD_TOL < g)%Q.
Proof.
  induction f as [|f IH]; intros a b g H B; [discriminate|]. cbn [pair_gcd] in H. rewrite (proj2 (Qlt_bool_iff' _ _) B) in H.
  destruct f as [|f]; [discriminate|]. destruct (Qlt_bool GCD_TOL (py_mod a b)) eqn:E.
  - apply (IH _ _ _ H). apply Qlt_bool_iff', E.
  - cbn [pair_gcd] in H. rewrite E in H. injection H as <-. exact B.
Qed.
Lemma pair_below a b g : pair_gcd (gcd_fuel b) a b = Ok g -> ~ (GCD_TOL < b)%Q -> g = a.
Proof.
  intros H B. unfold gcd_fuel in H. cbn [pair_gcd] in H. destruct (Qlt_bool GCD_TOL b) eqn:E; [apply Qlt_bool_iff' in E; contradiction|].
  injection H as <-. reflexivity.
Qed.
Lemma pair_units q : (GCD_TOL < q)%Q -> forall f x y a b g, (0 <= x)%Z -> (0 <= y)%Z -> (a == inject_Z x * q)%Q -> (b == inject_Z y * q)%Q ->
  pair_gcd f a b = Ok g -> (g == inject_Z (Z.gcd x y) * q)%Q.
Proof.
  intros QT. assert (T : (0 < GCD_TOL)%Q) by reflexivity. induction f as [|f IH]; intros x y a b g X Y A B H; [discriminate|].
  cbn [pair_gcd] in H. destruct (Qlt_bool GCD_TOL b) eqn:E.
  - apply Qlt_bool_iff' in E.
    assert (Y1 : (0 < y)%Z).
    { destruct (Z.eq_dec y 0) as [->|]; [|lia]. change (inject_Z 0) with 0%Q in B. exfalso. lra. }
    rewrite (IH y (x mod y)%Z b (py_mod a b) g); [|lia|apply Z.mod_pos_bound; lia|exact B|apply mod_units; [lra|exact Y1|exact A|exact B]|exact H].
    rewrite (Z.gcd_comm y), Z.gcd_mod by lia. rewrite Z.gcd_comm. reflexivity.
  - injection H as <-. assert (Y0 : y = 0%Z).
    { destruct (Z.eq_dec y 0) as [|N]; [assumption|]. exfalso. assert (Y1 : (1 <= y)%Z) by lia. rewrite Zle_Qle in Y1. change (inject_Z 1) with 1%Q in Y1.
      assert (K : (1 * q <= inject_Z y * q)%Q) by (apply Qmult_le_compat_r; lra).
      assert (L : (GCD_TOL < b)%Q) by lra. apply Qlt_bool_iff' in L. rewrite L in E. discriminate. }
    subst y. rewrite Z.gcd_0_r, Z.abs_eq by exact X. exact A.
Qed.
Lemma loop_total : forall l n, exists g, gcd_loop n l = Ok g.
Proof.
  induction l as [|i l IH]; intros n; [eexists; reflexivity|]. cbn [gcd_loop]. destruct (fuel_enough i n) as [g ->]. apply IH.
Qed.
Lemma loop_above : forall l n g, gcd_loop n l = Ok g -> (GCD_TOL < n)%Q \/ (exists i, In i l /\ (GCD_TOL < i)%Q) -> (GCD_TOL < g)%Q.
Proof.
  induction l as [|i l IH]; intros n g H A.
  - injection H as <-. destruct A as [A|(i & [] & _)]. exact A.
  - cbn [gcd_loop] in H. destruct (fuel_enough i n) as [h E]. rewrite E in H. cbn [bind] in H. apply (IH _ _ H).
    destruct (Qlt_le_dec GCD_TOL n) as [L|L].
    + left. exact (pair_above _ _ _ _ E L).
    + assert (NL : ~ (GCD_TOL < n)%Q) by lra. assert (h = i) as -> by exact (pair_below _ _ _ E NL).
      destruct A as [A|(j & [->|J] & A)]; [contradiction|left; exact A|right; exists j; split; assumption].
Qed.
Fixpoint zgcd (n : Z) (l : list Z) : Z := match l with [] => n | i :: l' => zgcd (Z.gcd i n) l' end.
Lemma zgcd_divides : forall l n d, (d | zgcd n l)%Z -> (d | n)%Z /\ forall z, In z l -> (d | z)%Z.
Proof.
  induction l as [|i l IH]; intros n d H; [split; [exact H|intros z []]|]. cbn [zgcd] in H. destruct (IH _ _ H) as [D L].
  split; [exact (Z.divide_trans _ _ _ D (Z.gcd_divide_r i n))|]. intros z [->|I]; [exact (Z.divide_trans _ _ _ D (Z.gcd_divide_l z n))|exact (L z I)].
Qed.
Lemma zgcd_nonneg : forall l n, (0 <= n)%Z -> (0 <= zgcd n l)%Z.
Proof. induction l as [|i l IH]; intros n N; [exact N|]. cbn [zgcd]. apply IH, Z.gcd_nonneg. Qed.
Lemma loop_units q : (GCD_TOL < q)%Q -> forall l zs, Forall2 (fun a z => (0 <= z)%Z /\ (a == inject_Z z * q)%Q) l zs -> forall n m g, (0 <= m)%Z -> (n == inject_Z m * q)%Q ->
  gcd_loop n l = Ok g -> (g == inject_Z (zgcd m zs) * q)%Q.
Proof.
  intros QT l zs F. induction F as [|i z l zs [Z0 A] F IH]; intros n m g M N H.
  - injection H as <-. exact N.
  - cbn [gcd_loop] in H. destruct (fuel_enough i n) as [h E]. rewrite E in H. cbn [bind] in H. cbn [zgcd].
    apply (IH h); [apply Z.gcd_nonneg| |exact H]. exact (pair_units q QT _ _ _ _ _ _ Z0 M A N E).
Qed.

(* --- reactions --- *)
Section Norm.
Variable C : chem.
Variable name : nat -> text.
Lemma amts_eq r : map (fun ck => (name (fst ck), (snd ck * fac C (fst ck))%Q)) (combine (comps r) (coeffs r)) = map (fun ca => (name (fst ca), snd ca)) (amounts C r).
Proof. unfold amounts. rewrite map_map. reflexivity. Qed.
Definition norm_text (f : Q) (l : list (nat * Q)) : text := str_from_formulas (map (fun ca => (Qred (snd ca * f), name (fst ca))) l).
Lemma norm_unfold r : normalized_repr_and_factor C name r =
  bind (gcd_float (map (fun ca => Qabs (snd ca)) (amounts C r))) (fun g => if Qeq_bool g 0 then Err ZeroDivisionError else Ok (norm_text (1 / g) (amounts C r), (1 / g)%Q)).
Proof. unfold normalized_repr_and_factor, norm_text. cbv zeta. rewrite amts_eq, map_map. cbn [fst snd]. destruct (gcd_float _) as [g|]; [|reflexivity]. cbn [bind]. rewrite map_map. reflexivity. Qed.

Lemma norm_total r : (exists ca, In ca (amounts C r) /\ (1 # 100000000 < Qabs (snd ca))%Q) -> exists t f, normalized_repr_and_factor C name r = Ok (t, f) /\ (0 < f)%Q.
Proof.
  intros (ca & I & A). rewrite norm_unfold. assert (J : In (Qabs (snd ca)) (map (fun ca => Qabs (snd ca)) (amounts C r))) by (apply in_map_iff; exists ca; split; [reflexivity|exact I]).
  destruct (map (fun ca => Qabs (snd ca)) (amounts C r)) as [|n l] eqn:E; [destruct J|]. unfold gcd_float.
  destruct (loop_total (n :: l) n) as [g G]. rewrite G. cbn [bind].
  assert (P : (GCD_TOL < g)%Q) by (apply (loop_above _ _ _ G); right; exists (Qabs (snd ca)); split; [exact J|exact A]).
  assert (T : (0 < GCD_TOL)%Q) by reflexivity. destruct (Qeq_bool g 0) eqn:Z; [apply Qeq_bool_iff in Z; exfalso; lra|].
  do 2 eexists. split; [reflexivity|]. apply Qlt_shift_div_l; lra.
Qed.
Lemma norm_nothing r : (amounts C r = [] -> normalized_repr_and_factor C name r = Err IndexError)
  /\ (amounts C r <> [] -> (forall ca, In ca (amounts C r) -> (snd ca == 0)%Q) -> normalized_repr_and_factor C name r = Err ZeroDivisionError).
Proof.
  rewrite norm_unfold. split; [intros ->; reflexivity|]. intros N Z.
  assert (A : forall a, In a (map (fun ca => Qabs (snd ca)) (amounts C r)) -> (a == 0)%Q) by (intros a I; apply in_map_iff in I as (ca & <- & I); rewrite (Z ca I); reflexivity).
  destruct (map (fun ca => Qabs (snd ca)) (amounts C r)) as [|n l] eqn:E; [destruct (amounts C r); [contradiction|discriminate]|]. unfold gcd_float.
  assert (L : forall l n, (n == 0)%Q -> (forall a, In a l -> (a == 0)%Q) -> exists g, gcd_loop n l = Ok g /\ (g == 0)%Q).
  { clear. induction l as [|i l IH]; intros n N A; [exists n; split; [reflexivity|exact N]|]. cbn [gcd_loop]. destruct (fuel_enough i n) as [h H]. rewrite H. cbn [bind].
    assert (NL : ~ (GCD_TOL < n)%Q) by (rewrite N; discriminate). assert (h = i) as -> by exact (pair_below _ _ _ H NL). apply IH; [apply A; left; reflexivity|intros a I; apply A; right; exact I]. }
  destruct (L (n :: l) n (A n (or_introl eq_refl)) A) as (g & G & G0). rewrite G. cbn [bind]. apply Qeq_bool_iff in G0. rewrite G0. reflexivity.
Qed.

Lemma norm_units r q zs : in_units C r q zs -> lowest zs -> (1 # 100000000 < q)%Q ->
  exists f, normalized_repr_and_factor C name r = Ok (norm_text f (amounts C r), f) /\ (f * q == 1)%Q.
Proof.
  intros U W QT. change (1 # 100000000)%Q with GCD_TOL in QT. assert (T : (0 < GCD_TOL)%Q) by reflexivity. rewrite norm_unfold.
  assert (F : Forall2 (fun a z => (0 <= z)%Z /\ (a == inject_Z z * q)%Q) (map (fun ca => Qabs (snd ca)) (amounts C r)) (map Z.abs zs)).
  { clear -U QT T. induction U as [|ca z l zs H U IH]; [constructor|]. cbn [map]. constructor; [|exact IH]. split; [apply Z.abs_nonneg|].
    rewrite H, Qabs_Qmult, (Qabs_pos q) by lra. reflexivity. }
  assert (WN : forall n l zs', zs' = n :: l -> map Z.abs zs = zs' -> zgcd n zs' = 1%Z).
  { intros n l zs' -> E. assert (N : (0 <= n)%Z) by (assert (I : In n (map Z.abs zs)) by (rewrite E; left; reflexivity); apply in_map_iff in I as (x & <- & _); apply Z.abs_nonneg).
    assert (G0 := zgcd_nonneg (n :: l) n N).
    assert (DV : forall d, (d | zgcd n (n :: l))%Z -> forall z, In z zs -> (d | z)%Z).
    { intros d D z I. apply zgcd_divides in D as [_ D]. apply Z.divide_abs_r. apply D. rewrite <- E. apply in_map, I. }
    destruct (Z.eq_dec (zgcd n (n :: l)) 0) as [Z0|NZ].
    - exfalso. assert (X : 2%Z = 1%Z); [|discriminate]. apply W; [lia|]. apply DV. rewrite Z0. apply Z.divide_0_r.
    - apply W; [lia|]. apply DV, Z.divide_refl. }
  inversion F as [E1 E2|a z l zs' HA F' E1 E2].
  - exfalso. assert (X : 2%Z = 1%Z); [|discriminate]. apply W; [lia|]. intros z I. destruct zs; [destruct I|discriminate].
  - unfold gcd_float. rewrite E1. destruct (loop_total (map (fun ca => Qabs (snd ca)) (amounts C r)) a) as [g G].
    rewrite G. cbn [bind]. assert (GE : (g == q)%Q).
    { destruct HA as [Z0 HA]. rewrite (loop_units q QT _ _ F a z g Z0 HA G). rewrite (WN z zs'); [|symmetry; exact E2|reflexivity]. change (inject_Z 1) with 1%Q. ring. }
    destruct (Qeq_bool g 0) eqn:Z; [apply Qeq_bool_iff in Z; exfalso; lra|]. exists (1 / g)%Q. split; [reflexivity|]. rewrite GE. field. lra.
Qed.
Lemma norm_terms f q l zs : Forall2 (fun ca z => (snd ca == inject_Z z * q)%Q) l zs -> (f * q == 1)%Q ->
  map (fun ca : nat * Q => (Qred (snd ca * f), name (fst ca))) l = map (fun cz => (inject_Z (snd cz), name (fst cz))) (combine (map fst l) zs).
Proof.
  intros F E. induction F as [|ca z l zs H F IH]; [reflexivity|]. cbn [map combine]. rewrite IH. f_equal. cbn [fst snd]. f_equal.
  assert (X : Qred (snd ca * f) = Qred (inject_Z z)) by (apply Qred_complete; rewrite H; setoid_replace (inject_Z z * q * f)%Q with (inject_Z z * (f * q))%Q by ring; rewrite E; ring).
  rewrite X. apply Qcanon.Qred_identity. apply Z.gcd_1_r.
Qed.

(* --- the text --- *)
Lemma terms_text (l : list (nat * Z)) : (forall cz, In cz l -> (Z.abs (snd cz) < 10000)%Z) ->
  exists ls rs a b, str_from_formulas (map (fun cz => (inject_Z (snd cz), name (fst cz))) l) = a ++ list_ascii_of_string " -> " ++ b
  /\ sep_by (list_ascii_of_string " + ") ls a /\ sep_by (list_ascii_of_string " + ") rs b
  /\ Forall2 (fun cz t => counted (- snd cz) (name (fst cz)) t) (filter (fun cz => snd cz <? 0)%Z l) ls
  /\ Forall2 (fun cz t => counted (snd cz) (name (fst cz)) t) (filter (fun cz => 0 <? snd cz)%Z l) rs.
Proof.
  intros H.
  assert (HQ : forall z, (Z.abs z < 10000)%Z -> (Qabs (inject_Z z) < 99995 # 10)%Q).
  { intros z Z. apply Qle_lt_trans with (inject_Z 9999); [|reflexivity]. change (Qabs (inject_Z z)) with (inject_Z (Z.abs z)). rewrite <- Zle_Qle. lia. }
  assert (TW : forall z f, (0 < z)%Z -> (Z.abs z < 10000)%Z -> counted z f (term (amount_text (inject_Z z)) f)).
  { intros z f P Z. assert (W : written (inject_Z z) f (term (amount_text (inject_Z z)) f)).
    { assert (Z1 : (1 <= z)%Z) by lia. rewrite Zle_Qle in Z1. change (inject_Z 1) with 1%Q in Z1. apply term_written; [unfold TOL; lra|]. specialize (HQ z Z). rewrite Qabs_pos in HQ by lra. exact HQ. }
    destruct W as [W1 W2]. split.
    - intros ->. apply W1. reflexivity.
    - intros N. destruct W2 as (n & v & E & T & V & [_ X]).
      { apply Qle_trans with 1%Q; [discriminate|]. unfold Qminus. change (- (1))%Q with (inject_Z (-1)). rewrite <- inject_Z_plus. change (Qabs (inject_Z (z + -1))) with (inject_Z (Z.abs (z + -1))).
        change 1%Q with (inject_Z 1). rewrite <- Zle_Qle. lia. }
      exists n, v. split; [exact E|]. split; [exact T|]. split; [exact V|]. apply X. exists z, 0%Z. split; [exact Z|]. change (Qpower 10 0) with 1%Q. ring. }
  assert (LT : forall z, (Z.abs z < 10000)%Z -> Qlt_bool (inject_Z z) (- TOL) = (z <? 0)%Z).
  { intros z _. destruct (Z.ltb_spec z 0) as [L|L].
    - apply Qlt_bool_iff'. assert (L1 : (z <= -1)%Z) by lia. rewrite Zle_Qle in L1. change (inject_Z (-1)) with (- (1))%Q in L1. unfold TOL. lra.
    - destruct (Qlt_bool (inject_Z z) (- TOL)) eqn:E; [|reflexivity]. apply Qlt_bool_iff' in E. rewrite Zle_Qle in L. change (inject_Z 0) with 0%Q in L. unfold TOL in E. exfalso. lra. }
  assert (GT : forall z, (Z.abs z < 10000)%Z -> Qlt_bool TOL (inject_Z z) = (0 <? z)%Z).
  { intros z _. destruct (Z.ltb_spec 0 z) as [L|L].
    - apply Qlt_bool_iff'. assert (L1 : (1 <= z)%Z) by lia. rewrite Zle_Qle in L1. change (inject_Z 1) with 1%Q in L1. unfold TOL. lra.
    - destruct (Qlt_bool TOL (inject_Z z)) eqn:E; [|reflexivity]. apply Qlt_bool_iff' in E. rewrite Zle_Qle in L. change (inject_Z 0) with 0%Q in L. unfold TOL in E. exfalso. lra. }
  exists (map (fun cz => term (amount_text (inject_Z (- snd cz))) (name (fst cz))) (filter (fun cz => snd cz <? 0)%Z l)).
  exists (map (fun cz => term (amount_text (inject_Z (snd cz))) (name (fst cz))) (filter (fun cz => 0 <? snd cz)%Z l)).
  do 2 eexists. split; [|split; [apply join_sep|split; [apply join_sep|split]]].
  - unfold str_from_formulas. rewrite !map_map. cbn [fst snd]. f_equal; [|f_equal]; f_equal; apply somes_filter; intros cz I; specialize (H cz I).
    + rewrite left_term_eq by (apply HQ, H). rewrite LT by exact H. rewrite inject_Z_opp. reflexivity.
    + rewrite right_term_eq by (apply HQ, H). rewrite GT by exact H. reflexivity.
  - assert (HF : forall cz, In cz (filter (fun cz => snd cz <? 0)%Z l) -> (snd cz < 0)%Z /\ (Z.abs (snd cz) < 10000)%Z) by (intros cz I; apply filter_In in I as [I T]; split; [apply Z.ltb_lt, T|apply H, I]).
    induction (filter (fun cz => snd cz <? 0)%Z l) as [|cz l' IH]; [constructor|]. cbn [map]. constructor; [|apply IH; intros x X; apply HF; right; exact X].
    destruct (HF cz (or_introl eq_refl)). apply TW; [lia|rewrite Z.abs_opp; assumption].
  - assert (HF : forall cz, In cz (filter (fun cz => 0 <? snd cz)%Z l) -> (0 < snd cz)%Z /\ (Z.abs (snd cz) < 10000)%Z) by (intros cz I; apply filter_In in I as [I T]; split; [apply Z.ltb_lt, T|apply H, I]).
    induction (filter (fun cz => 0 <? snd cz)%Z l) as [|cz l' IH]; [constructor|]. cbn [map]. constructor; [|apply IH; intros x X; apply HF; right; exact X].
    destruct (HF cz (or_introl eq_refl)). apply TW; assumption.
Qed.
Lemma combine_prefix {A B D} (a : list A) (b : list B) (zs : list D) : length zs = length (combine a b) -> combine (map fst (combine a b)) zs = combine a zs.
Proof.
  revert b zs. induction a as [|x a IH]; intros [|y b] [|z zs] L; cbn in L; try discriminate L; try reflexivity. cbn [combine map fst]. rewrite IH by lia. reflexivity.
Qed.
Lemma amounts_with r (zs : list Z) q : in_units C r q zs -> combine (map fst (amounts C r)) zs = combine (comps r) zs.
Proof.
  intros U. apply Forall2_length in U. unfold amounts in *. rewrite map_map. cbn [fst]. rewrite map_length in U. rewrite <- (combine_prefix (comps r) (coeffs r) zs) by (symmetry; exact U). reflexivity.
Qed.
Theorem normal r q zs : in_units C r q zs -> lowest zs -> (1 # 100000000 < q)%Q -> (forall z, In z zs -> (Z.abs z < 10000)%Z) ->
  exists t f ls rs a b, normalized_repr_and_factor C name r = Ok (t, f) /\ (f * q == 1)%Q /\ t = a ++ list_ascii_of_string " -> " ++ b
  /\ sep_by (list_ascii_of_string " + ") ls a /\ sep_by (list_ascii_of_string " + ") rs b
  /\ Forall2 (fun cz t => counted (- snd cz) (name (fst cz)) t) (filter (fun cz => snd cz <? 0)%Z (combine (comps r) zs)) ls
  /\ Forall2 (fun cz t => counted (snd cz) (name (fst cz)) t) (filter (fun cz => 0 <? snd cz)%Z (combine (comps r) zs)) rs.
Proof.
  intros U W QT S. destruct (norm_units r q zs U W QT) as (f & E & F). unfold norm_text in E. rewrite (norm_terms f q _ _ U F), (amounts_with r zs q U) in E.
  destruct (terms_text (combine (comps r) zs)) as (ls & rs & a & b & T & R).
  { intros [c z] I. apply in_combine_r in I. apply S, I. }
  exists (str_from_formulas (map (fun cz => (inject_Z (snd cz), name (fst cz))) (combine (comps r) zs))), f, ls, rs, a, b.
  split; [exact E|]. split; [exact F|]. split; [exact T|]. exact R.
Qed.
Theorem same_normal r r' s q zs : in_units C r q zs -> lowest zs -> (1 # 100000000 < q)%Q -> multiple C s r r' -> (1 # 100000000 < s * q)%Q ->
  exists t f f', normalized_repr_and_factor C name r = Ok (t, f) /\ normalized_repr_and_factor C name r' = Ok (t, f') /\ (f == s * f')%Q.
Proof.
  intros U W QT M SQ. assert (T : (0 < 1 # 100000000)%Q) by reflexivity. assert (U' : in_units C r' (s * q) zs).
  { unfold in_units, multiple in *. clear -U M. revert zs U. induction M as [|ca ca' l l' [E1 E2] M IH]; intros zs U; inversion U; subst; constructor; [|apply IH; assumption].
    rewrite E2. match goal with H : (snd ca == _)%Q |- _ => rewrite H end. ring. }
  assert (K : map fst (amounts C r) = map fst (amounts C r')) by (clear -M; induction M as [|ca ca' l l' [E1 E2] M IH]; [reflexivity|cbn [map]; rewrite E1, IH; reflexivity]).
  destruct (norm_units r q zs U W QT) as (f & E & F). destruct (norm_units r' (s * q) zs U' W SQ) as (f' & E' & F').
  unfold norm_text in *. rewrite (norm_terms f q _ _ U F) in E. rewrite (norm_terms f' (s * q) _ _ U' F'), <- K in E'.
  do 3 eexists. split; [exact E|]. split; [exact E'|].
  assert (X : (q * f == q * (s * f'))%Q) by (rewrite (Qmult_comm q f), F, <- F'; ring). apply Qmult_inj_l in X; [exact X|lra].
Qed.
End Norm.

(* from_formulas *)
Lemma mapM_all {A B} (f : A -> result B) l ys : Forall2 (fun x y => f x = Ok y) l ys -> mapM f l = Ok ys.
Proof. induction 1 as [|x y l ys E F IH]; [reflexivity|]. cbn [mapM]. rewrite E, IH. reflexivity. Qed.
Lemma mapM_first {A B} (f : A -> result B) l x e l' ys : Forall2 (fun x y => f x = Ok y) l ys -> f x = Err e -> mapM f (l ++ x :: l') = Err e.
Proof. induction 1 as [|x' y l ys E F IH]; intros X; cbn [app mapM]; [rewrite X; reflexivity|]. rewrite E, IH by exact X. reflexivity. Qed.
Theorem formulas_balance C : wf_chem C -> forall parse lsq lrank, (forall rc pc c, length (lsq rc pc c) = length rc + length pc) -> forall rs ps r,
  from_formulas C parse lsq lrank rs ps = Ok r ->
  exists rc pc, Forall2 (fun t c => parse t = Ok c) rs rc /\ Forall2 (fun t c => parse t = Ok c) ps pc /\ comps r = rc ++ pc /\ length (coeffs r) = length (comps r)
  /\ (balanced r = true -> forall e, (Qabs (net C (species r) e) <= 1 # 100000000)%Q)
  /\ (balanced r = false -> forall k, In k (coeffs r) -> k = 0%Q).
Proof.
  intros W parse lsq lrank L rs ps r H. unfold from_formulas in H.
  destruct (mapM parse rs) as [rc|] eqn:R; [|discriminate]. cbn [bind] in H. destruct (mapM parse ps) as [pc|] eqn:P; [|discriminate]. cbn [bind] in H.
  assert (X : forall l ys, mapM parse l = Ok ys -> Forall2 (fun t c => parse t = Ok c) l ys).
  { clear. induction l as [|t l IH]; intros ys H; cbn [mapM] in H; [injection H as <-; constructor|]. destruct (parse t) as [c|] eqn:E; [|discriminate]. destruct (mapM parse l) as [cs|]; [|discriminate].
    injection H as <-. constructor; [exact E|]. apply IH. reflexivity. }
  destruct (balance_sound C W rc pc (lsq rc pc) (lrank rc pc) r (L rc pc) H) as (A & B & D & E).
  exists rc, pc. split; [apply X, R|]. split; [apply X, P|]. split; [exact A|]. split; [exact B|]. split; [intros T; apply (D T)|intros F; apply (E F)].
Qed.
Theorem formulas_unread C parse lsq lrank rs ps t e : parse t = Err e ->
  (forall l l' cs, rs = l ++ t :: l' -> Forall2 (fun t c => parse t = Ok c) l cs -> from_formulas C parse lsq lrank rs ps = Err e)
  /\ (forall l l' cs cs', ps = l ++ t :: l' -> Forall2 (fun t c => parse t = Ok c) rs cs -> Forall2 (fun t c => parse t = Ok c) l cs' -> from_formulas C parse lsq lrank rs ps = Err e).
Proof.
  intros T. unfold from_formulas. split.
  - intros l l' cs -> F. rewrite (mapM_first parse l t e l' cs F T). reflexivity.
  - intros l l' cs cs' -> F F'. rewrite (mapM_all _ _ _ F). cbn [bind]. rewrite (mapM_first parse l t e l' cs' F' T). reflexivity.
Qed.
Theorem repr_text C name r : (forall t f, normalized_repr_and_factor C name r = Ok (t, f) -> normalized_repr C name r = Ok t)
  /\ (forall e, normalized_repr_and_factor C name r = Err e -> normalized_repr C name r = Err e).
Proof. unfold normalized_repr. split; [intros t f ->; reflexivity|intros e ->; reflexivity]. Qed.
