(* C78, C79 and the symmetry of the equality of experimental entries. *)
From Coq Require Import Lqa Qround.
From Verif Require Import Prelude NumQ ListFacts SumQ UtilsModel ReactionModel ReactionSpec ParetoProofs RxnSetBaseProofs GibbsModel GibbsSpec GibbsProofs GibbsMassProofs GibbsEntryProofs.
Open Scope nat_scope.

Lemma math_isclose_sym a b : math_isclose a b = math_isclose b a.
Proof.
  unfold math_isclose. assert (E : Qabs (a - b) == Qabs (b - a)) by (rewrite <- Qabs_opp; apply Qabs_wd; ring).
  destruct (Qle_bool (Qabs a) (Qabs b)) eqn:A, (Qle_bool (Qabs b) (Qabs a)) eqn:B.
  - apply Qle_bool_iff in A, B. assert (F : Qabs a == Qabs b) by (apply Qle_antisym; assumption).
    apply eq_true_iff_eq. rewrite !Qle_bool_iff. rewrite E, F. reflexivity.
  - apply eq_true_iff_eq. rewrite !Qle_bool_iff. rewrite E. reflexivity.
  - apply eq_true_iff_eq. rewrite !Qle_bool_iff. rewrite E. reflexivity.
  - exfalso. assert (T := Qlt_le_dec (Qabs a) (Qabs b)). destruct T as [T|T].
    + apply Qlt_le_weak in T. apply Qle_bool_iff in T. congruence.
    + apply Qle_bool_iff in T. congruence.
Qed.

Lemma math_isclose_refl a : math_isclose a a = true.
Proof.
  unfold math_isclose. apply Qle_bool_iff. setoid_replace (a - a)%Q with 0%Q by ring. change (Qabs 0) with 0%Q.
  destruct (Qle_bool (Qabs a) (Qabs a)); assert (H := Qabs_nonneg a); lra.
Qed.

Lemma exp_eq_sym ln C a b : exp_eq ln C a b = exp_eq ln C b a.
Proof.
  unfold exp_eq. rewrite (Nat.eqb_sym (red C (xe_comp a))), math_isclose_sym. f_equal. f_equal.
  apply eq_true_iff_eq. rewrite !Qeq_bool_iff. split; intros; symmetry; assumption.
Qed.

Lemma exp_eq_refl ln C a : exp_eq ln C a a = true.
Proof. unfold exp_eq. rewrite Nat.eqb_refl, math_isclose_refl. rewrite (proj2 (Qeq_bool_iff _ _) (Qeq_refl _)). reflexivity. Qed.

Lemma math_isclose_iff a b : math_isclose a b = true <-> within_billionth a b.
Proof.
  unfold math_isclose, within_billionth. rewrite Qle_bool_iff. destruct (Qle_bool (Qabs a) (Qabs b)) eqn:E.
  - apply Qle_bool_iff in E. split; [auto|]. intros [H|H]; [|exact H]. lra.
  - assert (L : (Qabs b <= Qabs a)%Q). { destruct (Qlt_le_dec (Qabs b) (Qabs a)) as [H|H]; [apply Qlt_le_weak; exact H|]. apply Qle_bool_iff in H. congruence. }
    split; [auto|]. intros [H|H]; [exact H|]. lra.
Qed.
Lemma within_billionth_wd a a' b b' : (a == a')%Q -> (b == b')%Q -> within_billionth a b -> within_billionth a' b'.
Proof. unfold within_billionth. intros A B. rewrite A, B. auto. Qed.
Lemma exp_eq_iff ln C a b x y : (0 < natoms C (xe_comp a))%Q -> (0 < natoms C (xe_comp b))%Q ->
  (x * natoms C (xe_comp a) == exp_energy ln a - xe_base a)%Q -> (y * natoms C (xe_comp b) == exp_energy ln b - xe_base b)%Q ->
  exp_eq ln C a b = true <-> red C (xe_comp a) = red C (xe_comp b) /\ (pyval (xe_temp a) == pyval (xe_temp b))%Q /\ within_billionth x y.
Proof.
  intros Na Nb Hx Hy. unfold exp_eq. rewrite !andb_true_iff, Nat.eqb_eq, Qeq_bool_iff, math_isclose_iff.
  assert (G : forall e z, (0 < natoms C (xe_comp e))%Q -> (z * natoms C (xe_comp e) == exp_energy ln e - xe_base e)%Q -> (exp_correction_per_atom ln C e == z)%Q).
  { intros e z N H. unfold exp_correction_per_atom. unfold exp_energy in H. setoid_replace (xe_base e + correction ln (xe_adjs e) - xe_base e)%Q with (correction ln (xe_adjs e)) in H by ring. rewrite <- H. field. lra. }
  pose proof (G a x Na Hx) as Ga. pose proof (G b y Nb Hy) as Gb. split.
  - intros ((A & B) & W). split; [exact A|]. split; [exact B|]. exact (within_billionth_wd _ _ _ _ Ga Gb W).
  - intros (A & B & W). split; [split; assumption|]. symmetry in Ga, Gb. exact (within_billionth_wd _ _ _ _ Ga Gb W).
Qed.

Section Extensive.
Variable ln : Q -> Q.
Variable C : chem.
Variable mass : nat -> Q.
Variable table : list (Z * list (nat * Q)).
Variable default_id : nat -> Q -> nat.
Notation init := (gibbs_init ln C mass table default_id).

Definition elem_energy (t : pynum) (e : nat) : result Q := if off_grid t then g_interpolated table e t else g_tabulated table e t.

Lemma sum_g_i_value items t s : sum_g_i table items t = Ok s ->
  forall f, (forall e v, elem_energy t e = Ok v -> f e = v) -> (s == weighted f items)%Q.
Proof.
  intros H f Hf. revert s H. induction items as [|[e a] l IH]; intros s H.
  - unfold sum_g_i in H. cbn in H. inversion H. reflexivity.
  - unfold sum_g_i in *. cbn [mapM fst snd] in H. fold (elem_energy t e) in H.
    destruct (elem_energy t e) as [v|x] eqn:E; cbn [bind] in H; [|discriminate].
    destruct (mapM _ l) as [r|x]; cbn [bind] in *; [|discriminate]. inversion H; subst s. specialize (IH _ eq_refl).
    change (Qsum ((a * v)%Q :: r)) with (a * v + Qsum r)%Q. rewrite IH. unfold weighted. rewrite sumQ_cons. cbn [fst snd]. rewrite (Hf _ _ E). reflexivity.
Qed.

Lemma weighted_el f c : (weighted f (el_amts C c) == sumQ (fun e => amt C c e * f e) (elems C c))%Q.
Proof. unfold weighted, el_amts. rewrite sumQ_map. reflexivity. Qed.

(* C79: without other corrections the Gibbs energy is proportional to the amounts. *)
Lemma gibbs_extensive c c' k dhf v t id id' e e' : wf_chem C -> (forall el, In el (elems C c) -> (0 < mass el)%Q) ->
  Permutation (elems C c) (elems C c') -> (0 < k)%Q -> (forall el, In el (elems C c) -> (amt C c' el == k * amt C c el)%Q) ->
  init c dhf v t None id = Ok e -> init c' dhf v t None id' = Ok e' -> (gibbs_energy ln C e' == k * gibbs_energy ln C e)%Q.
Proof.
  intros W Pm P Hk S H H'. apply init_energy in H as (w & A & V). apply init_energy in H' as (w' & A' & V').
  change (correction ln []) with 0%Q in V, V'. rewrite V, V'.
  assert (N : (natoms C c' == k * natoms C c)%Q).
  { unfold natoms. rewrite !Qsum_sumQ, !sumQ_map. rewrite <- (sumQ_perm _ _ _ P). rewrite <- sumQ_scale_l. apply sumQ_ext. exact S. }
  assert (Len : length (elems C c) = length (elems C c')) by (apply Permutation_length; exact P).
  unfold gibbs_adjustment, is_element in A, A'. rewrite <- Len in A'.
  destruct (Nat.eqb (length (elems C c)) 1) eqn:El.
  - inversion A. inversion A'. rewrite N. ring.
  - destruct (Nat.eq_dec (length (elems C c)) 0) as [Z|Z].
    { (* no elements *)
      destruct (elems C c) as [|x l] eqn:Ec; [|discriminate]. cbn in P. apply Permutation_nil in P.
      exfalso. assert (Er : elems C (red C c) = []) by (rewrite (wf_red_elems C W); exact Ec).
      unfold reduced_mass, el_amts in A. rewrite Er in A. cbn in A. discriminate. }
    apply Nat.eqb_neq in El. assert (L2 : 2 <= length (elems C c)) by lia.
    destruct (reduced_mass_invariant mass C c c' k W L2 Pm P Hk S) as (rm & rm' & E1 & E2 & E3). rewrite E1 in A. rewrite E2 in A'. cbn [bind] in A, A'.
    destruct (sum_g_i table (el_amts C c) t) as [s|x] eqn:G; cbn [bind] in A; [|discriminate].
    destruct (sum_g_i table (el_amts C c') t) as [s'|x] eqn:G'; cbn [bind] in A'; [|discriminate].
    inversion A. inversion A'.
    pose (f := fun e0 => match elem_energy t e0 with Ok v0 => v0 | Err _ => 0%Q end).
    assert (Hf : forall e0 v0, elem_energy t e0 = Ok v0 -> f e0 = v0) by (intros e0 v0 E0; unfold f; rewrite E0; reflexivity).
    apply sum_g_i_value with (f := f) in G; [|exact Hf]. apply sum_g_i_value with (f := f) in G'; [|exact Hf].
    rewrite weighted_el in G, G'. rewrite <- (sumQ_perm _ _ _ P) in G'.
    assert (SS : (s' == k * s)%Q).
    { rewrite G, G'. rewrite <- sumQ_scale_l. apply sumQ_ext. intros el I. rewrite (S el I). ring. }
    rewrite N, SS. unfold g_delta_sisso. rewrite E3. ring.
Qed.
End Extensive.
