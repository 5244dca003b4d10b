From Coq Require Import Ascii Qround Qpower Lqa Lia.
From Verif Require Import Prelude NumQ ListFacts ReactionModel ReactionBaseProofs StrModel.
Open Scope Q_scope.

Lemma half_pos : 0 < 1 # 2. Proof. reflexivity. Qed.
Lemma round_even_close x : x - (1 # 2) <= inject_Z (round_even x) <= x + (1 # 2).
Proof.
  unfold round_even. assert (A := Qfloor_le x). assert (B := Qlt_floor x). rewrite inject_Z_plus in B. change (inject_Z 1) with 1 in B.
  destruct (Qlt_bool (x - inject_Z (Qfloor x)) (1 # 2)) eqn:E1.
  - apply Qlt_bool_iff' in E1. split; lra.
  - apply Qlt_bool_false in E1. destruct (Qlt_bool (1 # 2) (x - inject_Z (Qfloor x))) eqn:E2.
    + apply Qlt_bool_iff' in E2. rewrite inject_Z_plus. change (inject_Z 1) with 1. split; lra.
    + apply Qlt_bool_false in E2. destruct (Z.even (Qfloor x)); [split; lra|]. rewrite inject_Z_plus. change (inject_Z 1) with 1. split; lra.
Qed.
Lemma inject_lt a b : inject_Z a < inject_Z b -> (a < b)%Z.
Proof. rewrite <- Zlt_Qlt. tauto. Qed.
Lemma round_even_upper x z : x < inject_Z z + (1 # 2) -> (round_even x <= z)%Z.
Proof.
  intros H. destruct (round_even_close x) as [_ B]. assert (round_even x < z + 1)%Z; [|lia].
  apply inject_lt. rewrite inject_Z_plus. change (inject_Z 1) with 1. lra.
Qed.
Lemma round_even_lower x z : inject_Z z <= x -> (z <= round_even x)%Z.
Proof.
  intros H. destruct (round_even_close x) as [B _]. assert (z < round_even x + 1)%Z; [|lia].
  apply inject_lt. rewrite inject_Z_plus. change (inject_Z 1) with 1. lra.
Qed.
Lemma round_even_int x z : x == inject_Z z -> round_even x = z.
Proof.
  intros H. assert (round_even x <= z)%Z by (apply round_even_upper; rewrite H; lra).
  assert (z <= round_even x)%Z by (apply round_even_lower; rewrite H; lra). lia.
Qed.

(* --- powers of ten --- *)
Lemma ten_pos x : 0 < Qpower 10 x.
Proof. apply Qpower_0_lt. reflexivity. Qed.
Lemma ten_plus x y : Qpower 10 (x + y) == Qpower 10 x * Qpower 10 y.
Proof. apply Qpower_plus. discriminate. Qed.
Lemma ten_Z n : (0 <= n)%Z -> Qpower 10 n == inject_Z (10 ^ n).
Proof. intros H. rewrite (Zpower_Qpower 10 n H). reflexivity. Qed.
Lemma ten_lt_inv x y : Qpower 10 x < Qpower 10 y -> (x < y)%Z.
Proof. intros H. exact (Qpower_lt_compat_l_inv 10 x y H eq_refl). Qed.
Lemma ten_le x y : (x <= y)%Z -> Qpower 10 x <= Qpower 10 y.
Proof. intros H. apply Qpower_le_compat_l; [exact H|discriminate]. Qed.

Lemma ndigits_loop_spec fuel : forall n, (0 < n < 2 ^ Z.of_nat fuel)%Z ->
  (1 <= ndigits_loop fuel n /\ 10 ^ (ndigits_loop fuel n - 1) <= n < 10 ^ ndigits_loop fuel n)%Z.
Proof.
  induction fuel as [|k IH]; intros n H; [cbn in H; lia|]. cbn [ndigits_loop]. destruct (Z.ltb_spec n 10) as [L|L].
  - cbn. lia.
  - rewrite Nat2Z.inj_succ, Z.pow_succ_r in H by lia. assert (D := Z.div_mod n 10 ltac:(lia)). assert (M := Z.mod_pos_bound n 10 ltac:(lia)).
    destruct (IH (n / 10)%Z) as (A & B & E); [lia|]. set (d := ndigits_loop k (n / 10)) in *. clearbody d.
    split; [lia|]. replace (1 + d - 1)%Z with d by lia. rewrite (Z.add_comm 1 d), Z.pow_add_r by lia. change (10 ^ 1)%Z with 10%Z.
    assert (10 ^ d = 10 * 10 ^ (d - 1))%Z by (rewrite <- Z.pow_succ_r by lia; f_equal; lia). split; lia.
Qed.
Lemma ndigits_spec n : (0 < n)%Z -> (1 <= ndigits n /\ 10 ^ (ndigits n - 1) <= n < 10 ^ ndigits n)%Z.
Proof.
  intros H. apply ndigits_loop_spec. split; [exact H|]. rewrite Nat2Z.inj_succ, Z2Nat.id by apply Z.log2_nonneg. apply Z.log2_spec. exact H.
Qed.

Lemma exponent_spec q : 0 < q -> Qpower 10 (exponent q) <= q /\ q < Qpower 10 (exponent q + 1).
Proof.
  intros H. assert (P : (0 < Qnum q)%Z) by (unfold Qlt in H; cbn in H; lia).
  destruct (ndigits_spec (Qnum q) P) as (A1 & A2 & A3). destruct (ndigits_spec (Zpos (Qden q)) eq_refl) as (B1 & B2 & B3).
  unfold exponent. set (a := ndigits (Qnum q)) in *. set (b := ndigits (Zpos (Qden q))) in *.
  assert (E : q * inject_Z (Zpos (Qden q)) == inject_Z (Qnum q)) by (unfold Qeq, inject_Z; cbn; lia).
  assert (D : 0 < inject_Z (Zpos (Qden q))) by reflexivity.
  set (n := inject_Z (Qnum q)) in *. set (d := inject_Z (Zpos (Qden q))) in *.
  assert (A2' : Qpower 10 (a - 1) <= n) by (rewrite ten_Z by lia; unfold n; rewrite <- Zle_Qle; exact A2).
  assert (A3' : n < Qpower 10 a) by (rewrite ten_Z by lia; unfold n; rewrite <- Zlt_Qlt; exact A3).
  assert (B2' : Qpower 10 (b - 1) <= d) by (rewrite ten_Z by lia; unfold d; rewrite <- Zle_Qle; exact B2).
  assert (B3' : d < Qpower 10 b) by (rewrite ten_Z by lia; unfold d; rewrite <- Zlt_Qlt; exact B3).
  clearbody n d a b.
  assert (U : q < Qpower 10 (a - b + 1)).
  { apply Qmult_lt_r with (Qpower 10 (b - 1)); [apply ten_pos|]. rewrite <- ten_plus. replace (a - b + 1 + (b - 1))%Z with a by lia.
    apply Qle_lt_trans with n; [|exact A3']. rewrite <- E. apply Qmult_le_l; assumption. }
  assert (L : Qpower 10 (a - b - 1) <= q).
  { apply Qmult_le_r with (Qpower 10 b); [apply ten_pos|]. rewrite <- ten_plus. replace (a - b - 1 + b)%Z with (a - 1)%Z by lia.
    apply Qle_trans with n; [exact A2'|]. rewrite <- E. apply Qmult_le_l; [assumption|]. apply Qlt_le_weak. exact B3'. }
  destruct (Qle_bool (Qpower 10 (a - b)) q) eqn:T.
  - apply Qle_bool_iff in T. split; assumption.
  - split; [exact L|]. replace (a - b - 1 + 1)%Z with (a - b)%Z by lia. apply Qnot_le_lt. intros G. apply Qle_bool_iff in G. congruence.
Qed.

(* --- four significant digits --- *)
Definition value (m x : Z) : Q := inject_Z m * Qpower 10 (x - 3).

Lemma scale_back q x : q * Qpower 10 (3 - x) * Qpower 10 (x - 3) == q.
Proof.
  rewrite <- Qmult_assoc, <- ten_plus. replace (3 - x + (x - 3))%Z with 0%Z by lia. change (Qpower 10 0) with 1. ring.
Qed.
Lemma four_spec q : 0 < q -> let (m, x) := four q in
  (1000 <= m <= 9999)%Z /\ Qabs (value m x - q) <= (1 # 2000) * q
  /\ (q < 99995 # 10 -> (x <= 3)%Z) /\ (1 # 1000000 < q -> (-6 <= x)%Z)
  /\ (forall n k, (0 < n < 10000)%Z -> q == inject_Z n * Qpower 10 k -> value m x == q).
Proof.
  intros H. destruct (exponent_spec q H) as [L U]. unfold four. set (x := exponent q) in *. clearbody x.
  set (s := q * Qpower 10 (3 - x)). assert (P := ten_pos (3 - x)).
  assert (SL : inject_Z 1000 <= s).
  { unfold s. apply Qle_trans with (Qpower 10 x * Qpower 10 (3 - x)); [|apply Qmult_le_r; assumption]. rewrite <- ten_plus.
    replace (x + (3 - x))%Z with 3%Z by lia. discriminate. }
  assert (SU : s < inject_Z 10000).
  { unfold s. apply Qlt_le_trans with (Qpower 10 (x + 1) * Qpower 10 (3 - x)); [apply Qmult_lt_r; assumption|]. rewrite <- ten_plus.
    replace (x + 1 + (3 - x))%Z with 4%Z by lia. discriminate. }
  assert (R := round_even_close s). assert (RL := round_even_lower s 1000 SL).
  assert (RU : (round_even s <= 10000)%Z) by (apply round_even_upper; lra).
  assert (PX := ten_pos (x - 3)).
  assert (V : forall m, s - (1 # 2) <= inject_Z m <= s + (1 # 2) -> Qabs (inject_Z m * Qpower 10 (x - 3) - q) <= (1 # 2000) * q).
  { intros m [M1 M2]. assert (Q0 : q == s * Qpower 10 (x - 3)) by (unfold s; rewrite scale_back; reflexivity).
    setoid_replace (inject_Z m * Qpower 10 (x - 3) - q) with ((inject_Z m - s) * Qpower 10 (x - 3)) by (rewrite Q0; ring).
    rewrite Qabs_Qmult, (Qabs_pos (Qpower 10 (x - 3))) by (apply Qlt_le_weak, PX).
    apply Qle_trans with ((1 # 2) * Qpower 10 (x - 3)).
    - apply Qmult_le_r; [exact PX|]. apply Qabs_Qle_condition. split; lra.
    - setoid_replace ((1 # 2000) * q) with (((1 # 2000) * s) * Qpower 10 (x - 3)) by (rewrite Q0; ring).
      apply Qmult_le_r; [exact PX|]. change (inject_Z 1000) with 1000 in SL. lra. }
  assert (S : forall n k, (0 < n < 10000)%Z -> q == inject_Z n * Qpower 10 k -> inject_Z (round_even s) == s).
  { intros n k N E. assert (K : (x < k + 4)%Z).
    { apply ten_lt_inv. apply Qle_lt_trans with q; [exact L|]. rewrite E, ten_plus. rewrite (Qmult_comm (Qpower 10 k)).
      apply Qmult_lt_r; [apply ten_pos|]. change (Qpower 10 4) with (inject_Z 10000). rewrite <- Zlt_Qlt. lia. }
    assert (Z0 : s == inject_Z (n * 10 ^ (k + (3 - x)))).
    { unfold s. rewrite E, <- Qmult_assoc, <- ten_plus, inject_Z_mult, <- ten_Z by lia. reflexivity. }
    rewrite (round_even_int s _ Z0). symmetry. exact Z0. }
  assert (X3 : q < 99995 # 10 -> (x <= 3)%Z).
  { intros G. assert (x < 4)%Z; [|lia]. apply ten_lt_inv. apply Qle_lt_trans with q; [exact L|]. apply Qlt_trans with (99995 # 10); [exact G|reflexivity]. }
  assert (X6 : 1 # 1000000 < q -> (-6 <= x)%Z).
  { intros G. assert (-6 < x + 1)%Z; [|lia]. apply ten_lt_inv. apply Qlt_trans with q; [exact G|exact U]. }
  destruct (Z.eqb_spec (round_even s) 10000) as [E|E].
  - assert (EV : value 1000 (x + 1) == inject_Z 10000 * Qpower 10 (x - 3)).
    { unfold value. replace (x + 1 - 3)%Z with (1 + (x - 3))%Z by lia. rewrite ten_plus. change (Qpower 10 1) with 10.
      change (inject_Z 1000) with 1000. change (inject_Z 10000) with 10000. ring. }
    split; [lia|]. split; [rewrite EV; apply V; rewrite <- E; exact R|]. split.
    { intros G. assert (x < 3)%Z; [|lia]. specialize (X3 G). destruct (Z.eq_dec x 3) as [->|N]; [|lia]. exfalso.
      assert (s == q) by (unfold s; change (Qpower 10 (3 - 3)) with 1; ring).
      assert (round_even s <= 9999)%Z; [|lia]. apply round_even_upper. change (inject_Z 9999) with 9999. lra. }
    split; [intros G; specialize (X6 G); lia|]. intros n k N G. rewrite EV, <- E, (S n k N G). unfold s. apply scale_back.
  - split; [lia|]. split; [apply V; exact R|]. split; [exact X3|]. split; [exact X6|].
    intros n k N G. unfold value. rewrite (S n k N G). unfold s. apply scale_back.
Qed.

(* --- reading back the digits --- *)
Open Scope Z_scope.
Lemma code_digit z : code (digit_char z) = (48 + Z.to_nat (z mod 10))%nat.
Proof. unfold code, digit_char. apply nat_ascii_embedding. assert (H := Z.mod_pos_bound z 10 eq_refl). lia. Qed.
Lemma digit_is_digit z : is_digit (digit_char z) = true.
Proof.
  unfold is_digit, between. rewrite code_digit. assert (H := Z.mod_pos_bound z 10 eq_refl). apply andb_true_intro. split; apply Nat.leb_le; lia.
Qed.
Lemma digit_is_num z : num_char (digit_char z) = true.
Proof. unfold num_char. rewrite digit_is_digit. reflexivity. Qed.
Lemma digit_has_value z : digit_value (digit_char z) = z mod 10.
Proof. unfold digit_value. rewrite code_digit. assert (H := Z.mod_pos_bound z 10 eq_refl). lia. Qed.
Lemma digit_is_zero z : is_char 48 (digit_char z) = (z mod 10 =? 0).
Proof.
  unfold is_char. rewrite code_digit. assert (H := Z.mod_pos_bound z 10 eq_refl).
  destruct (Z.eqb_spec (z mod 10) 0) as [->|N]; [reflexivity|]. apply Nat.eqb_neq. lia.
Qed.

(* A digit, known only by its value and by being zero or not. *)
Record digit (c : ascii) (v : Z) : Prop := {
  d_range : 0 <= v <= 9;
  d_digit : is_digit c = true;
  d_num : num_char c = true;
  d_value : digit_value c = v;
  d_zero : is_char 48 c = (v =? 0)
}.
Lemma digit_char_digit z : digit (digit_char z) (z mod 10).
Proof.
  assert (H := Z.mod_pos_bound z 10 eq_refl).
  constructor; [lia|apply digit_is_digit|apply digit_is_num|apply digit_has_value|apply digit_is_zero].
Qed.

Lemma exp5 : exponent_digits 5 = ["0"%char; "5"%char]. Proof. reflexivity. Qed.
Lemma exp6 : exponent_digits 6 = ["0"%char; "6"%char]. Proof. reflexivity. Qed.
Lemma render_value m a b c d va vb vc vd x : m = 1000 * va + 100 * vb + 10 * vc + vd -> digit a va -> digit b vb -> digit c vc -> digit d vd -> 1 <= va ->
  four_digits m = [a; b; c; d] -> -6 <= x <= 3 ->
  exists v, py_float (render m x) = Ok v /\ (v == value m x)%Q.
Proof.
  intros Em A B D F N1 E X. destruct A as [ra da na wa za], B as [rb db nb wb zb], D as [rc dc nc wc zc], F as [rd dd nd wd zd].
  assert (za' : is_char 48 a = false) by (rewrite za; apply Z.eqb_neq; lia). clear za.
  assert (X' : x = 3 \/ x = 2 \/ x = 1 \/ x = 0 \/ x = -1 \/ x = -2 \/ x = -3 \/ x = -4 \/ x = -5 \/ x = -6) by lia. clear X.
  unfold render. rewrite E. clear E.
  assert (K1 : num_char dot_char = true) by reflexivity. assert (K2 : num_char "0" = true) by reflexivity.
  assert (K3 : num_char "e" = false) by reflexivity. assert (K4 : is_char 45 "-" = true) by reflexivity.
  assert (K5 : is_digit "0" = true) by reflexivity. assert (K6 : is_digit dot_char = false) by reflexivity.
  assert (K7 : is_digit "5" = true) by reflexivity. assert (K8 : is_digit "6" = true) by reflexivity.
  assert (K9 : digits_value ["0"%char; "5"%char] = 5) by reflexivity. assert (K10 : digits_value ["0"%char; "6"%char] = 6) by reflexivity.
  destruct (Z.eqb_spec vd 0) as [Ed|Ed]; [destruct (Z.eqb_spec vc 0) as [Ec|Ec]; [destruct (Z.eqb_spec vb 0) as [Eb|Eb]|]|];
  repeat (destruct X' as [->|X']); try subst x;
  repeat match goal with |- context [Z.to_nat ?e] => let v := eval vm_compute in (Z.to_nat e) in change (Z.to_nat e) with v end;
  cbn -[is_char is_digit num_char digit_value digits_value Qpower inject_Z exponent_digits value]; rewrite ?exp5, ?exp6;
  unfold with_fraction, strip_zeros; repeat (progress (rewrite ?za', ?zb, ?zc, ?zd; cbn -[is_char is_digit num_char digit_value digits_value Qpower inject_Z value]));
  unfold py_float; repeat (progress (rewrite ?na, ?nb, ?nc, ?nd, ?K1, ?K2, ?K3, ?K4; cbn -[is_char is_digit num_char digit_value digits_value Qpower inject_Z value]));
  unfold mantissa; repeat (progress (rewrite ?da, ?db, ?dc, ?dd, ?K5, ?K6, ?K7, ?K8, ?K9, ?K10; cbn -[is_char is_digit num_char digit_value digits_value Qpower inject_Z value]));
  try (eexists; split; [reflexivity|]);
  unfold value, digits_value; cbn [fold_left]; rewrite ?wa, ?wb, ?wc, ?wd; clear - Em Ed Ec Eb || clear - Em Ed Ec || clear - Em Ed;
  repeat match goal with |- context [Qpower 10 ?e] => let v := eval vm_compute in (Qpower 10 e) in change (Qpower 10 e) with v end;
  change (digit_value "0") with 0; unfold Qeq, Qmult, inject_Z; cbn [Qnum Qden]; lia.
Qed.
Lemma render_float m x : 1000 <= m <= 9999 -> -6 <= x <= 3 -> exists v, py_float (render m x) = Ok v /\ (v == value m x)%Q.
Proof.
  intros M X. apply (render_value m (digit_char (m / 1000)) (digit_char (m / 100)) (digit_char (m / 10)) (digit_char m)
    (m / 1000 mod 10) (m / 100 mod 10) (m / 10 mod 10) (m mod 10)); try apply digit_char_digit; [| |reflexivity|exact X].
  - assert (m / 10 / 10 = m / 100) by (rewrite Z.div_div by lia; reflexivity). assert (m / 100 / 10 = m / 1000) by (rewrite Z.div_div by lia; reflexivity).
    assert (m / 1000 / 10 = 0) by (rewrite Z.div_div by lia; apply Z.div_small; lia).
    assert (A := Z.div_mod m 10 ltac:(lia)). assert (B := Z.div_mod (m / 10) 10 ltac:(lia)). assert (D := Z.div_mod (m / 100) 10 ltac:(lia)).
    assert (F := Z.div_mod (m / 1000) 10 ltac:(lia)). lia.
  - assert (1 <= m / 1000 < 10) by (split; [apply Z.div_le_lower_bound; lia|apply Z.div_lt_upper_bound; lia]). rewrite Z.mod_small; lia.
Qed.
