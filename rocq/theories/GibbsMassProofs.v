From Coq Require Import Lqa.
From Verif Require Import Prelude NumQ ListFacts SumQ UtilsModel ReactionModel ReactionSpec GibbsModel GibbsSpec.
Open Scope nat_scope.

Lemma combinations_one {A} (l : list A) : combinations l 1 = map (fun x => [x]) l.
Proof. induction l as [|x l IH]; [reflexivity|]. cbn. rewrite IH. destruct l; reflexivity. Qed.

Lemma sumQ_lt {A} (f g : A -> Q) l : l <> [] -> (forall a, In a l -> (f a < g a)%Q) -> (sumQ f l < sumQ g l)%Q.
Proof.
  intros N H. destruct l as [|a l]; [contradiction|]. clear N. rewrite !sumQ_cons.
  assert (sumQ f l <= sumQ g l)%Q by (apply sumQ_le; intros b Hb; apply Qlt_le_weak, H; right; exact Hb).
  assert (f a < g a)%Q by (apply H; left; reflexivity). lra.
Qed.

Section Mass.
Variable mass : nat -> Q.
Notation pt x y := (pair_term mass [x; y]).
Notation psum l := (Qsum (map (pair_term mass) (combinations l 2))).

Lemma psum_cons x l : (psum (x :: l) == sumQ (fun y => pt x y) l + psum l)%Q.
Proof.
  cbn [combinations]. rewrite combinations_one, map_app, !Qsum_sumQ, sumQ_app, !sumQ_map. reflexivity.
Qed.

Lemma pt_sym x y : (pt x y == pt y x)%Q.
Proof. destruct x as [i ai], y as [j aj]. cbn. rewrite (Qplus_comm (mass j)), (Qplus_comm aj), (Qmult_comm (mass j)). reflexivity. Qed.

Lemma psum_double l : NoDup (map fst l) ->
  (sumQ (fun x => sumQ (fun y => if Nat.eqb (fst x) (fst y) then 0 else pt x y) l) l == 2 * psum l)%Q.
Proof.
  induction l as [|x l IH]; intros N; [reflexivity|]. cbn in N. inversion N as [|k r Nx Nl]; subst.
  rewrite psum_cons. rewrite sumQ_cons, sumQ_cons, Nat.eqb_refl.
  assert (E1 : (sumQ (fun y => if Nat.eqb (fst x) (fst y) then 0 else pt x y) l == sumQ (fun y => pt x y) l)%Q).
  { apply sumQ_ext. intros y Hy. destruct (Nat.eqb_spec (fst x) (fst y)) as [E|]; [|reflexivity]. exfalso. apply Nx. rewrite E. apply in_map. exact Hy. }
  assert (E2 : (sumQ (fun a => sumQ (fun y => if Nat.eqb (fst a) (fst y) then 0 else pt a y) (x :: l)) l
               == sumQ (fun y => pt x y) l + sumQ (fun a => sumQ (fun y => if Nat.eqb (fst a) (fst y) then 0 else pt a y) l) l)%Q).
  { rewrite <- sumQ_add. apply sumQ_ext. intros y Hy. rewrite sumQ_cons.
    destruct (Nat.eqb_spec (fst y) (fst x)) as [E|]; [exfalso; apply Nx; rewrite <- E; apply in_map; exact Hy|]. rewrite (pt_sym y x). reflexivity. }
  rewrite E1, E2, IH by assumption. ring.
Qed.

Lemma pt_pos x y : (0 < snd x)%Q -> (0 < snd y)%Q -> (0 < mass (fst x))%Q -> (0 < mass (fst y))%Q -> (0 < pt x y)%Q.
Proof.
  destruct x as [i ai], y as [j aj]. cbn. intros A B D E. apply Qlt_shift_div_l; [lra|]. rewrite Qmult_0_l. apply Qmult_lt_0_compat; [lra|]. apply Qmult_lt_0_compat; assumption.
Qed.

Lemma pt_below M x y : (0 < snd x)%Q -> (0 < snd y)%Q -> (0 < mass (fst x) <= M)%Q -> (0 < mass (fst y) <= M)%Q -> (pt x y < M * (snd x + snd y))%Q.
Proof.
  destruct x as [i ai], y as [j aj]. cbn. intros A B [D D'] [E E']. apply Qlt_shift_div_r; [lra|].
  assert (H : (mass i * mass j < M * (mass i + mass j))%Q) by nra.
  assert (S : (0 < ai + aj)%Q) by lra. set (s := (ai + aj)%Q) in *. clearbody s.
  setoid_replace (M * s * (mass i + mass j))%Q with (s * (M * (mass i + mass j)))%Q by ring.
  apply Qmult_lt_l; assumption.
Qed.

Definition good (l : list (nat * Q)) : Prop := forall x, In x l -> (0 < snd x)%Q /\ (0 < mass (fst x))%Q.

Lemma psum_nonneg l : good l -> (0 <= psum l)%Q /\ (2 <= length l -> (0 < psum l)%Q).
Proof.
  induction l as [|x l IH]; intros G; [split; [apply Qle_refl|cbn; lia]|].
  destruct IH as [H1 H2]; [intros y Hy; apply G; right; exact Hy|]. rewrite psum_cons.
  assert (P : forall y, In y l -> (0 < pt x y)%Q).
  { intros y Hy. destruct (G x (or_introl eq_refl)), (G y (or_intror Hy)). apply pt_pos; assumption. }
  assert (Z : (0 <= sumQ (fun y => pt x y) l)%Q) by (apply sumQ_nonneg; intros y Hy; apply Qlt_le_weak, P; exact Hy).
  split; [lra|]. intros L. assert (Nl : l <> []) by (destruct l; [cbn in L; lia|discriminate]).
  assert (S := sumQ_lt (fun _ => 0%Q) (fun y => pt x y) l Nl P). rewrite sumQ_zero in S. lra.
Qed.

Lemma psum_below M l : good l -> (forall x, In x l -> (mass (fst x) <= M)%Q) ->
  (psum l <= M * ((inject_Z (Z.of_nat (length l)) - 1) * sumQ snd l))%Q
  /\ (2 <= length l -> (psum l < M * ((inject_Z (Z.of_nat (length l)) - 1) * sumQ snd l))%Q).
Proof.
  induction l as [|x l IH]; intros G HM; [split; [cbn; lra|cbn; lia]|].
  destruct IH as [H1 H2]; [intros y Hy; apply G; right; exact Hy|intros y Hy; apply HM; right; exact Hy|].
  rewrite psum_cons. rewrite sumQ_cons.
  assert (P : forall y, In y l -> (pt x y < M * (snd x + snd y))%Q).
  { intros y Hy. destruct (G x (or_introl eq_refl)), (G y (or_intror Hy)).
    apply pt_below; try assumption; split; try assumption; apply HM; [left; reflexivity|right; exact Hy]. }
  assert (E : (sumQ (fun y => M * (snd x + snd y)) l == M * (inject_Z (Z.of_nat (length l)) * snd x + sumQ snd l))%Q).
  { rewrite sumQ_scale_l, sumQ_add, sumQ_const. reflexivity. }
  assert (L : (inject_Z (Z.of_nat (length (x :: l))) == inject_Z (Z.of_nat (length l)) + 1)%Q).
  { cbn [length]. rewrite Nat2Z.inj_succ. unfold Z.succ. rewrite inject_Z_plus. reflexivity. }
  rewrite L. set (n := inject_Z (Z.of_nat (length l))) in *. set (N := sumQ snd l) in *.
  setoid_replace (M * ((n + 1 - 1) * (snd x + N)))%Q with (M * (n * snd x + N) + M * ((n - 1) * N))%Q by ring.
  assert (W : (sumQ (fun y => pt x y) l <= M * (n * snd x + N))%Q).
  { rewrite <- E. apply sumQ_le. intros y Hy. apply Qlt_le_weak, P. exact Hy. }
  split; [lra|]. intros Hlen. assert (Nl : l <> []) by (destruct l; [cbn in Hlen; lia|discriminate]).
  assert (S := sumQ_lt _ _ l Nl P). cbv beta in S. rewrite E in S. lra.
Qed.

(* The value of _reduced_mass on a list of items. *)
Lemma reduced_mass_items l : NoDup (map fst l) -> good l -> 2 <= length l ->
  exists rm, reduced_mass_of mass l = Ok rm
    /\ (rm == psum l / ((inject_Z (Z.of_nat (length l)) - 1) * sumQ snd l))%Q
    /\ (0 < (inject_Z (Z.of_nat (length l)) - 1) * sumQ snd l)%Q.
Proof.
  intros N G L. unfold reduced_mass_of.
  assert (E1 : (inject_Z (Z.of_nat (length l) - 1) == inject_Z (Z.of_nat (length l)) - 1)%Q) by (unfold Z.sub; rewrite inject_Z_plus; reflexivity).
  assert (Np : (1 <= inject_Z (Z.of_nat (length l)) - 1)%Q).
  { assert (inject_Z 2 <= inject_Z (Z.of_nat (length l)))%Q by (rewrite <- Zle_Qle; lia). change (inject_Z 2) with 2%Q in H. lra. }
  assert (S : (0 < sumQ snd l)%Q).
  { assert (Nl : l <> []) by (destruct l; [cbn in L; lia|discriminate]).
    assert (H := sumQ_lt (fun _ => 0%Q) snd l Nl (fun y Hy => proj1 (G y Hy))). rewrite sumQ_zero in H. exact H. }
  assert (D : (0 < (inject_Z (Z.of_nat (length l)) - 1) * sumQ snd l)%Q) by (apply Qmult_lt_0_compat; lra).
  assert (E2 : (inject_Z (Z.of_nat (length l) - 1) * Qsum (map snd l) == (inject_Z (Z.of_nat (length l)) - 1) * sumQ snd l)%Q).
  { rewrite E1, Qsum_sumQ, sumQ_map. reflexivity. }
  destruct (Qeq_bool _ 0) eqn:Z0.
  - apply Qeq_bool_iff in Z0. rewrite E2 in Z0. exfalso. lra.
  - eexists. split; [reflexivity|]. split; [|exact D]. rewrite E2. field. lra.
Qed.

Lemma reduced_mass_perm l l' : NoDup (map fst l) -> good l -> 2 <= length l -> Permutation l l' ->
  exists rm rm', reduced_mass_of mass l = Ok rm /\ reduced_mass_of mass l' = Ok rm' /\ (rm == rm')%Q.
Proof.
  intros N G L P.
  destruct (reduced_mass_items l N G L) as (rm & E & V & D).
  assert (N' : NoDup (map fst l')) by (eapply Permutation_NoDup; [apply Permutation_map; exact P|exact N]).
  assert (G' : good l') by (intros x Hx; apply G; eapply Permutation_in; [apply Permutation_sym; exact P|exact Hx]).
  assert (Ll : length l' = length l) by (symmetry; apply Permutation_length; exact P).
  destruct (reduced_mass_items l' N' G') as (rm' & E' & V' & D'); [lia|].
  exists rm, rm'. split; [exact E|]. split; [exact E'|]. rewrite V, V', Ll, (sumQ_perm snd _ _ P).
  assert (H : (2 * psum l == 2 * psum l')%Q).
  { rewrite <- !psum_double by assumption. rewrite (sumQ_perm _ _ _ P). apply sumQ_ext. intros a _. apply sumQ_perm. exact P. }
  assert (H' : (psum l == psum l')%Q) by lra. rewrite H'. reflexivity.
Qed.
End Mass.

Lemma mass_spec_perm mass amount els els' : Permutation els els' -> (reduced_mass_spec mass amount els == reduced_mass_spec mass amount els')%Q.
Proof.
  intros P. unfold reduced_mass_spec. rewrite (Permutation_length P), (sumQ_perm amount _ _ P).
  rewrite (sumQ_perm _ _ _ P). apply Qdiv_comp; [|reflexivity]. apply sumQ_ext. intros a _. apply sumQ_perm. exact P.
Qed.

Lemma mass_spec_scale mass amount amount' k els : (0 < k)%Q -> 2 <= length els -> (forall e, In e els -> (0 < amount e)%Q) ->
  (forall e, In e els -> (amount' e == k * amount e)%Q) -> (reduced_mass_spec mass amount' els == reduced_mass_spec mass amount els)%Q.
Proof.
  intros K L Pos H. unfold reduced_mass_spec.
  assert (E1 : (sumQ amount' els == k * sumQ amount els)%Q) by (rewrite <- sumQ_scale_l; apply sumQ_ext; exact H).
  assert (E2 : (sumQ (fun i => sumQ (fun j => if Nat.eqb i j then 0 else (amount' i + amount' j) * (mass i * mass j / (mass i + mass j))) els) els
               == k * sumQ (fun i => sumQ (fun j => if Nat.eqb i j then 0 else (amount i + amount j) * (mass i * mass j / (mass i + mass j))) els) els)%Q).
  { rewrite <- sumQ_scale_l. apply sumQ_ext. intros i Hi. rewrite <- sumQ_scale_l. apply sumQ_ext. intros j Hj. destruct (Nat.eqb i j); [ring|]. rewrite (H i Hi), (H j Hj). ring. }
  rewrite E1, E2.
  assert (Np : (1 <= inject_Z (Z.of_nat (length els) - 1))%Q).
  { change 1%Q with (inject_Z 1). rewrite <- Zle_Qle. lia. }
  assert (S : (0 < sumQ amount els)%Q).
  { assert (Nl : els <> []) by (destruct els; [cbn in L; lia|discriminate]).
    assert (Hs := sumQ_lt (fun _ => 0%Q) amount els Nl Pos). rewrite sumQ_zero in Hs. exact Hs. }
  field. repeat split; lra.
Qed.

(* C65 *)
Lemma reduced_mass_value mass C c : wf_chem C -> 2 <= length (elems C c) -> (forall e, In e (elems C c) -> (0 < mass e)%Q) ->
  exists rm, reduced_mass C mass c = Ok rm /\ (rm == reduced_mass_spec mass (amt C c) (elems C c))%Q /\ (0 < rm)%Q
    /\ forall M, (forall e, In e (elems C c) -> (mass e <= M)%Q) -> (rm < M)%Q.
Proof.
  intros W L Pm. unfold reduced_mass. set (l := el_amts C (red C c)).
  assert (El : elems C (red C c) = elems C c) by (apply wf_red_elems; exact W).
  assert (F : map fst l = elems C c) by (unfold l, el_amts; rewrite map_map; cbn; rewrite map_id; exact El).
  assert (N : NoDup (map fst l)) by (rewrite F; apply wf_nodup; exact W).
  assert (In_l : forall x, In x l -> In (fst x) (elems C c) /\ snd x = amt C (red C c) (fst x)).
  { intros x Hx. split; [rewrite <- F; apply in_map; exact Hx|]. unfold l, el_amts in Hx. apply in_map_iff in Hx as (e & <- & _). reflexivity. }
  assert (G : good mass l).
  { intros x Hx. destruct (In_l x Hx) as [I ->]. split; [|apply Pm; exact I]. apply (wf_pos _ W). rewrite El. exact I. }
  assert (Ll : length l = length (elems C c)) by (rewrite <- F, map_length; reflexivity).
  destruct (reduced_mass_items mass l N G) as (rm & E & V & D); [lia|].
  exists rm. split; [exact E|].
  split.
  - transitivity (reduced_mass_spec mass (amt C (red C c)) (elems C c)).
    + unfold reduced_mass_spec. assert (Sl : (sumQ snd l == sumQ (amt C (red C c)) (elems C c))%Q).
      { unfold l, el_amts. rewrite sumQ_map, El. reflexivity. }
      assert (Dl := psum_double mass l N). unfold l, el_amts in Dl. rewrite sumQ_map in Dl. fold (el_amts C (red C c)) in Dl. fold l in Dl.
      rewrite El in Dl.
      assert (X : (sumQ (fun i => sumQ (fun j => if Nat.eqb i j then 0 else (amt C (red C c) i + amt C (red C c) j) * (mass i * mass j / (mass i + mass j))) (elems C c)) (elems C c)
                  == 2 * Qsum (map (pair_term mass) (combinations l 2)))%Q).
      { rewrite <- Dl. apply sumQ_ext. intros i _. unfold l, el_amts. rewrite sumQ_map, El. apply sumQ_ext. intros j _. cbn [fst snd pair_term].
        destruct (Nat.eqb i j); [reflexivity|]. unfold Qdiv. ring. }
      rewrite X, V, <- Sl, Ll.
      assert (E1 : (inject_Z (Z.of_nat (length (elems C c)) - 1) == inject_Z (Z.of_nat (length (elems C c))) - 1)%Q) by (unfold Z.sub; rewrite inject_Z_plus; reflexivity).
      rewrite E1. rewrite Ll in D. field. split; intros Z0; rewrite Z0 in D; lra.
    + symmetry. apply (mass_spec_scale mass _ _ (fac C c)); [apply wf_fac_pos; exact W|exact L| |].
      * intros e He. apply (wf_pos _ W). rewrite El. exact He.
      * intros e _. apply (wf_fac _ W).
  - split.
    + rewrite V. apply Qlt_shift_div_l; [exact D|]. rewrite Qmult_0_l. apply (psum_nonneg mass l G). lia.
    + intros M HM. rewrite V. apply Qlt_shift_div_r; [exact D|]. apply (psum_below mass M l G); [|lia].
      intros x Hx. apply HM. apply In_l. exact Hx.
Qed.

Lemma reduced_mass_invariant mass C c c' k : wf_chem C -> 2 <= length (elems C c) -> (forall e, In e (elems C c) -> (0 < mass e)%Q) ->
  Permutation (elems C c) (elems C c') -> (0 < k)%Q -> (forall e, In e (elems C c) -> (amt C c' e == k * amt C c e)%Q) ->
  exists rm rm', reduced_mass C mass c = Ok rm /\ reduced_mass C mass c' = Ok rm' /\ (rm == rm')%Q.
Proof.
  intros W L Pm P K H.
  destruct (reduced_mass_value mass C c W L Pm) as (rm & E & V & _).
  destruct (reduced_mass_value mass C c' W) as (rm' & E' & V' & _).
  - rewrite <- (Permutation_length P). exact L.
  - intros e He. apply Pm. eapply Permutation_in; [apply Permutation_sym; exact P|exact He].
  - exists rm, rm'. split; [exact E|]. split; [exact E'|]. rewrite V, V', <- (mass_spec_perm mass (amt C c') _ _ P). symmetry.
    apply (mass_spec_scale mass _ _ k); [exact K|exact L|intros e He; apply (wf_pos _ W); exact He|exact H].
Qed.
