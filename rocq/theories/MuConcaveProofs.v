(* C126: the curvature of the tabulated elemental energies. *)
From Coq Require Import Lqa Qround.
From Verif Require Import Prelude NumQ ListFacts SumQ UtilsModel ReactionModel ReactionSpec ReactionBaseProofs GibbsModel GibbsSpec GibbsProofs GibbsMassProofs GibbsEntryProofs GibbsMoreProofs GibbsValueProofs EntrySetModel MuModel MuSpec MuProofs.
Open Scope nat_scope.

(* --- piecewise linear functions through the values v 3, ..., v 20 at 300, ..., 2000 --- *)
Section Lines.
Variable v : Z -> Q.
Definition piece (k : Z) (t : Q) : Q := on_line (inject_Z (100 * k)) (v k) (inject_Z (100 * (k + 1))) (v (k + 1)%Z) t.
Definition within (k : Z) (t : Q) : Prop := (3 <= k <= 19)%Z /\ (inject_Z (100 * k) <= t <= inject_Z (100 * (k + 1)))%Q.
Lemma piece_eq k t : (piece k t == v k + (v (k + 1)%Z - v k) * ((t - inject_Z (100 * k)) / 100))%Q.
Proof.
  unfold piece, on_line. replace (100 * (k + 1))%Z with (100 * k + 100)%Z by ring. rewrite inject_Z_plus.
  change (inject_Z 100) with 100%Q. field. intros H. assert (E : (inject_Z (100 * k) + 100 - inject_Z (100 * k) == 100)%Q) by ring. rewrite E in H. discriminate.
Qed.
Lemma next_row k : (inject_Z (100 * (k + 1)) == inject_Z (100 * k) + 100)%Q.
Proof. replace (100 * (k + 1))%Z with (100 * k + 100)%Z by ring. rewrite inject_Z_plus. reflexivity. Qed.
Lemma share k t : (inject_Z (100 * k) <= t <= inject_Z (100 * (k + 1)))%Q -> exists x, (0 <= x <= 1)%Q /\ (t == inject_Z (100 * k) + 100 * x)%Q /\ (piece k t == v k + (v (k + 1)%Z - v k) * x)%Q.
Proof.
  intros [A B]. rewrite next_row in B. exists ((t - inject_Z (100 * k)) / 100)%Q.
  assert (E : (t == inject_Z (100 * k) + 100 * ((t - inject_Z (100 * k)) / 100))%Q) by field. split; [|split; [exact E|apply piece_eq]].
  set (x := ((t - inject_Z (100 * k)) / 100)%Q) in *. split; lra.
Qed.

Hypothesis concave : forall j, (4 <= j <= 19)%Z -> (v (j + 1)%Z - v j <= v j - v (j - 1)%Z)%Q.
Definition line (k : Z) (t : Q) : Q := (v k + (v (k + 1)%Z - v k) * ((t - inject_Z (100 * k)) / 100))%Q.
Lemma line_right k n t : (3 <= k)%Z -> (k + Z.of_nat n <= 19)%Z -> (inject_Z (100 * (k + Z.of_nat n)) <= t)%Q -> (line (k + Z.of_nat n) t <= line k t)%Q.
Proof.
  intros H1. induction n as [|n IH]; intros H2 H3; [replace (k + Z.of_nat 0)%Z with k by lia; apply Qle_refl|].
  eapply Qle_trans; [|apply IH; [lia|]].
  - set (j := (k + Z.of_nat n)%Z) in *. replace (k + Z.of_nat (S n))%Z with (j + 1)%Z in * by lia. unfold line. rewrite next_row in *.
    assert (Cj := concave (j + 1)%Z ltac:(lia)). replace (j + 1 - 1)%Z with j in Cj by lia.
    assert (E1 : ((t - (inject_Z (100 * j) + 100)) / 100 == (t - inject_Z (100 * j)) / 100 - 1)%Q) by field. rewrite E1.
    assert (E2 : (t == inject_Z (100 * j) + 100 * ((t - inject_Z (100 * j)) / 100))%Q) by field. set (x := ((t - inject_Z (100 * j)) / 100)%Q) in *.
    assert (X : (1 <= x)%Q) by lra. nra.
  - eapply Qle_trans; [|exact H3]. rewrite <- Zle_Qle. lia.
Qed.
Lemma line_left k n t : (3 <= k)%Z -> (k + Z.of_nat n <= 19)%Z -> (t <= inject_Z (100 * (k + 1)))%Q -> (line k t <= line (k + Z.of_nat n) t)%Q.
Proof.
  intros H1. induction n as [|n IH]; intros H2 H3; [replace (k + Z.of_nat 0)%Z with k by lia; apply Qle_refl|].
  eapply Qle_trans; [apply IH; [lia|exact H3]|].
  set (j := (k + Z.of_nat n)%Z) in *. replace (k + Z.of_nat (S n))%Z with (j + 1)%Z in * by lia.
  assert (H3' : (t <= inject_Z (100 * (j + 1)))%Q) by (eapply Qle_trans; [exact H3|rewrite <- Zle_Qle; lia]).
  unfold line. rewrite next_row in *.
  assert (Cj := concave (j + 1)%Z ltac:(lia)). replace (j + 1 - 1)%Z with j in Cj by lia.
  assert (E1 : ((t - (inject_Z (100 * j) + 100)) / 100 == (t - inject_Z (100 * j)) / 100 - 1)%Q) by field. rewrite E1.
  assert (E2 : (t == inject_Z (100 * j) + 100 * ((t - inject_Z (100 * j)) / 100))%Q) by field. set (x := ((t - inject_Z (100 * j)) / 100)%Q) in *.
  assert (X : (x <= 1)%Q) by lra. nra.
Qed.
Lemma below_lines k j t : within k t -> (3 <= j <= 19)%Z -> (piece k t <= line j t)%Q.
Proof.
  intros [Hk [A B]] Hj. rewrite piece_eq. fold (line k t). destruct (Z_le_gt_dec j k) as [C|C].
  - assert (R := line_right j (Z.to_nat (k - j)) t ltac:(lia) ltac:(lia)). replace (j + Z.of_nat (Z.to_nat (k - j)))%Z with k in R by lia. apply R. exact A.
  - assert (R := line_left k (Z.to_nat (j - k)) t ltac:(lia) ltac:(lia)). replace (k + Z.of_nat (Z.to_nat (j - k)))%Z with j in R by lia. apply R. exact B.
Qed.
Lemma pieces_concave k1 k2 k3 t1 t2 t3 : within k1 t1 -> within k2 t2 -> within k3 t3 -> (t1 < t3)%Q -> (t1 <= t2 <= t3)%Q ->
  (on_line t1 (piece k1 t1) t3 (piece k3 t3) t2 <= piece k2 t2)%Q.
Proof.
  intros W1 W2 W3 L [L1 L2]. assert (A := below_lines k1 k2 t1 W1 (proj1 W2)). assert (B := below_lines k3 k2 t3 W3 (proj1 W2)).
  rewrite (piece_eq k2 t2). fold (line k2 t2).
  assert (N : ~ (t3 - t1 == 0)%Q) by lra.
  assert (E : (line k2 t2 == on_line t1 (line k2 t1) t3 (line k2 t3) t2)%Q) by (unfold on_line, line; field; exact N).
  rewrite E. unfold on_line.
  assert (P : (0 <= (t3 - t2) / (t3 - t1))%Q) by (apply Qle_shift_div_l; lra). assert (Q0 : (0 <= (t2 - t1) / (t3 - t1))%Q) by (apply Qle_shift_div_l; lra).
  set (p := ((t3 - t2) / (t3 - t1))%Q) in *. set (q := ((t2 - t1) / (t3 - t1))%Q) in *. nra.
Qed.
End Lines.

(* --- the numbers of the table --- *)
Definition bends (k : Z) (e : nat) : bool := Qle_bool (mu (100 * (k + 1)) e - mu (100 * k) e) (mu (100 * k) e - mu (100 * (k - 1)) e).
Lemma table_bends : forallb (fun n => forallb (fun e => Nat.eqb e 21 || Nat.eqb e 60 || Nat.eqb e 71 || bends (Z.of_nat n) e) (seq 0 83)) (seq 4 16) = true.
Proof. vm_compute. reflexivity. Qed.
Lemma mu_concave e : in_table e -> e <> 21 -> e <> 60 -> e <> 71 -> forall j, (4 <= j <= 19)%Z -> (mu (100 * (j + 1)) e - mu (100 * j) e <= mu (100 * j) e - mu (100 * (j - 1)) e)%Q.
Proof.
  intros He N1 N2 N3 j Hj. assert (A := table_bends). rewrite forallb_forall in A. specialize (A (Z.to_nat j)). rewrite forallb_forall in A. unfold in_table in He.
  assert (L := A ltac:(apply in_seq; lia) e ltac:(apply in_seq; lia)). rewrite Z2Nat.id in L by lia. rewrite !orb_true_iff, !Nat.eqb_eq in L.
  destruct L as [[[L|L]|L]|L]; try contradiction. apply Qle_bool_iff. exact L.
Qed.

(* --- sums over a composition --- *)
Lemma cell t : in_range t -> exists k, (3 <= k <= 19)%Z /\ (inject_Z (100 * k) <= pyval t <= inject_Z (100 * (k + 1)))%Q.
Proof.
  intros [A B]. assert (L := Qfloor_le (pyval t / 100)). assert (U := Qlt_floor (pyval t / 100)).
  assert (D : (pyval t == 100 * (pyval t / 100))%Q) by field. set (q := (pyval t / 100)%Q) in *.
  destruct (Z_le_gt_dec (Qfloor q) 19) as [C|C].
  - exists (Qfloor q). assert (F : (inject_Z 3 < inject_Z (Qfloor q + 1))%Q) by (change (inject_Z 3) with 3%Q; lra). rewrite <- Zlt_Qlt in F. split; [lia|].
    rewrite !inject_Z_mult. change (inject_Z 100) with 100%Q. split; lra.
  - exists 19%Z. split; [lia|]. assert (F : (inject_Z 20 <= inject_Z (Qfloor q))%Q) by (rewrite <- Zle_Qle; lia). change (inject_Z 20) with 20%Q in F.
    change (inject_Z (100 * 19)) with 1900%Q. change (inject_Z (100 * (19 + 1))) with 2000%Q. split; lra.
Qed.
Lemma elemental_piece k t e : elemental mu k t e = piece (fun j => mu (100 * j) e) k t.
Proof. reflexivity. Qed.

Lemma sum_le {A} (f g : A -> Q) l : (forall a, In a l -> (f a <= g a)%Q) -> (sumQ f l <= sumQ g l)%Q.
Proof.
  induction l as [|a l IH]; intros H; [apply Qle_refl|]. rewrite !sumQ_cons. assert (Ha := H a (or_introl eq_refl)).
  assert (R : (sumQ f l <= sumQ g l)%Q) by (apply IH; intros x I; apply H; right; exact I). lra.
Qed.

Section Sums.
Variable C : chem.
Hypothesis W : wf_chem C.
Variable c : nat.
Hypothesis known : forall e, In e (elems C c) -> in_table e.

Lemma sum_concave t1 t2 t3 s1 s2 s3 : ~ In 21 (elems C c) -> ~ In 60 (elems C c) -> ~ In 71 (elems C c) ->
  in_range t1 -> in_range t2 -> in_range t3 -> (pyval t1 < pyval t3)%Q -> (pyval t1 <= pyval t2 <= pyval t3)%Q ->
  sum_g_i mu_table (el_amts C c) t1 = Ok s1 -> sum_g_i mu_table (el_amts C c) t2 = Ok s2 -> sum_g_i mu_table (el_amts C c) t3 = Ok s3 ->
  (on_line (pyval t1) s1 (pyval t3) s3 (pyval t2) <= s2)%Q.
Proof.
  intros N1 N2 N3 R1 R2 R3 L M S1 S2 S3. assert (T := mu_tabulates _ known).
  destruct (cell t1 R1) as (k1 & H1 & B1). destruct (cell t2 R2) as (k2 & H2 & B2). destruct (cell t3 R3) as (k3 & H3 & B3).
  rewrite (sum_elemental C mu_table mu c t2 k2 s2 T R2 H2 B2 S2).
  assert (E1 := sum_elemental C mu_table mu c t1 k1 s1 T R1 H1 B1 S1). assert (E3 := sum_elemental C mu_table mu c t3 k3 s3 T R3 H3 B3 S3).
  assert (E : (on_line (pyval t1) s1 (pyval t3) s3 (pyval t2)
    == sumQ (fun e => amt C c e * on_line (pyval t1) (elemental mu k1 (pyval t1) e) (pyval t3) (elemental mu k3 (pyval t3) e) (pyval t2)) (elems C c))%Q).
  { rewrite line_sum by lra. unfold on_line at 1. rewrite E1, E3. reflexivity. }
  rewrite E. apply sum_le. intros e I. rewrite !elemental_piece.
  assert (A := wf_pos C W c e I). rewrite (Qmult_comm (amt C c e)), (Qmult_comm (amt C c e) (piece _ _ _)). apply Qmult_le_compat_r; [|apply Qlt_le_weak; exact A].
  apply pieces_concave; [|split; assumption ..|exact L|exact M].
  apply mu_concave; [apply known; exact I|intros ->; apply N1; exact I|intros ->; apply N2; exact I|intros ->; apply N3; exact I].
Qed.
End Sums.

(* one failing constructor stops the whole set *)
Lemma loop_fails formula is_el is_ref nist freed un uf ign build entries e x : In e entries -> build e = Err x -> is_el e = false ->
  (un = true -> src_has nist (formula e) = false) -> (uf = true -> src_has freed (formula e) = false) ->
  forall seen, ~ In (formula e) seen -> exists y, from_pd_loop formula is_el is_ref nist freed un uf ign build entries seen = Err y.
Proof.
  intros I B El Hn Hf. induction entries as [|a l IH]; intros seen Ns; [destruct I|]. cbn [from_pd_loop].
  destruct I as [->|I].
  - rewrite El. cbn [andb orb]. destruct (memb Nat.eqb (formula e) seen) eqn:M; [apply memb_iff in M; contradiction|].
    unfold wanted, check_experimental. destruct un, uf; try rewrite (Hn eq_refl); try rewrite (Hf eq_refl); cbn [bind]; rewrite B; exists x; reflexivity.
  - specialize (IH I). destruct ((is_el a && negb (is_ref a)) || memb Nat.eqb (formula a) seen) eqn:Sk; [apply IH; exact Ns|].
    destruct (wanted un nist ign (formula a)) as [n|y] eqn:Wn; cbn [bind]; [|exists y; reflexivity].
    destruct (wanted uf freed false (formula a)) as [r|y] eqn:Wf; cbn [bind]; [|exists y; reflexivity].
    destruct (if uf then r else n) eqn:New.
    + destruct (IH (seen ++ [formula a])) as (y & ->); [|exists y; reflexivity]. intros J. apply in_app_or in J as [J|[J|[]]]; [contradiction|].
      destruct uf.
      * subst r. unfold wanted, check_experimental in Wf. rewrite J, (Hf eq_refl) in Wf. discriminate.
      * subst n. destruct un; [|discriminate]. unfold wanted, check_experimental in Wn. rewrite J, (Hn eq_refl) in Wn. discriminate.
    + destruct (build a) as [u|y]; cbn [bind]; [|exists y; reflexivity]. destruct (IH seen Ns) as (y & ->). exists y. reflexivity.
Qed.
Theorem missing_stops_set : forall ln C mass default_id, wf_chem C -> forall formula is_el is_ref nist freed un uf ign comp dhf vol t adjs entries e x,
  (forall e, is_el e = is_element C (comp e)) -> in_range t -> (forall x, In x (elems C (comp e)) -> (0 < mass x)%Q) ->
  In e entries -> 2 <= length (elems C (comp e)) -> In x (elems C (comp e)) -> ~ in_table x ->
  (un = true -> src_has nist (formula e) = false) -> (uf = true -> src_has freed (formula e) = false) ->
  exists y, from_pd formula is_el is_ref nist freed un uf ign
    (fun e => bind (gibbs_init ln C mass mu_table default_id (comp e) (dhf e) (vol e) t (Some (adjs e)) None) (fun _ => Ok tt)) entries = Err y.
Proof.
  intros ln C mass default_id W formula is_el is_ref nist freed un uf ign comp dhf vol t adjs entries e x Eel R Pm I L Ix Hx Hn Hf.
  unfold from_pd. apply (loop_fails formula is_el is_ref nist freed un uf ign _ entries e KeyError); try assumption.
  - rewrite (mu_missing ln C mass default_id W _ _ _ _ _ _ L Pm R (ex_intro _ x (conj Ix Hx))). reflexivity.
  - rewrite Eel. unfold is_element. apply Nat.eqb_neq. lia.
  - intros [].
Qed.
