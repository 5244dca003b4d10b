(* C53 and C59. *)
From Coq Require Import Lqa.
From Verif Require Import Prelude NumQ ListFacts SumQ UtilsModel ReactionModel ReactionSpec RxnSetBaseProofs SolverModel GibbsModel GibbsSpec GibbsProofs GibbsEntryProofs EntrySetModel EntrySetSpec.
Open Scope nat_scope.

Section Adjust.
Variable ln : Q -> Q.
Variable C : chem.
Variable mass : nat -> Q.
Variable table : list (Z * list (nat * Q)).
Variable default_id : nat -> Q -> nat.
Variable refs : nat -> option (list (Q * Q)).
Variable deprecated : nat -> bool.
Notation energy := (any_energy ln C).
Notation adjusted := (get_adjusted ln C mass table default_id refs deprecated).
Notation stabilized := (get_stabilized ln C mass table default_id refs deprecated).
Notation constructed := (constructed ln C mass table default_id refs deprecated).

Lemma filter_not_sisso_app l n v : filter (fun a => negb (is_sisso a)) (l ++ [AConst (Named n) v]) = filter (fun a => negb (is_sisso a)) l ++ [AConst (Named n) v].
Proof. rewrite filter_app. reflexivity. Qed.

Lemma adjusted_spec e n v : constructed e -> exists e', adjusted e (AConst (Named n) v) = Ok e' /\ constructed e' /\ any_comp e' = any_comp e /\ (energy e' == energy e + v)%Q.
Proof.
  destruct e as [g|x|c b l id]; cbn [GibbsSpec.built any_comp any_energy get_adjusted].
  - intros (adjs & i & H). assert (W := H). apply init_energy in W as (w & Ew & V). assert (H' := H).
    unfold gibbs_init in H. destruct (Qlt_bool (pyval (ge_temp g)) 300 || Qlt_bool 2000 (pyval (ge_temp g))) eqn:R; [discriminate|].
    rewrite Ew in H. cbn [bind] in H.
    set (kept := match adjs with Some l => filter (fun a => negb (is_sisso a)) l | None => [] end) in *.
    assert (Ea : ge_adjs g = kept ++ [AConst Sisso w]) by (inversion H; reflexivity).
    assert (K : filter (fun a => negb (is_sisso a)) kept = kept).
    { unfold kept. destruct adjs as [l|]; [|reflexivity]. assert (F := filter_sisso_again l w). rewrite filter_app in F. cbn in F. rewrite app_nil_r in F. exact F. }
    assert (I : gibbs_init ln C mass table default_id (ge_comp g) (ge_dhf g) (ge_vol g) (ge_temp g) (Some (ge_adjs g ++ [AConst (Named n) v])) (Some (ge_id g))
              = Ok {| ge_comp := ge_comp g; ge_dhf := ge_dhf g; ge_vol := ge_vol g; ge_temp := ge_temp g; ge_adjs := (kept ++ [AConst (Named n) v]) ++ [AConst Sisso w]; ge_id := ge_id g |}).
    { unfold gibbs_init. rewrite R, Ew. cbn [bind]. do 2 f_equal. rewrite filter_not_sisso_app, Ea, filter_app, K. cbn. rewrite app_nil_r. reflexivity. }
    rewrite I. cbn [bind]. eexists. split; [reflexivity|]. split; [cbn; do 2 eexists; exact I|]. split; [reflexivity|].
    cbn [any_energy]. unfold gibbs_energy. cbn [ge_comp ge_dhf ge_adjs]. rewrite Ea, !correction_app. unfold correction. cbn. ring.
  - intros (adjs & H). cbn [EntrySetSpec.constructed] in *.
    assert (F := exp_fields C refs deprecated _ _ _ _ H). destruct F as (_ & _ & E3).
    unfold exp_init in *. destruct (validate refs deprecated (red C (xe_comp x)) (xe_temp x)) eqn:V1; cbn [bind] in *; [|discriminate].
    destruct (get_energy refs deprecated (red C (xe_comp x)) (xe_temp x)) as [b|] eqn:G1; cbn [bind] in *; [|discriminate].
    eexists. split; [reflexivity|]. split; [|split; [reflexivity|]].
    + cbn. eexists. unfold exp_init. rewrite V1. cbn [bind]. rewrite G1. cbn [bind]. reflexivity.
    + cbn [any_energy]. unfold exp_energy. cbn [xe_base xe_adjs]. assert (Eb : xe_base x = b) by (inversion H; reflexivity). rewrite Eb, correction_app. unfold correction. cbn. ring.
  - intros _. eexists. split; [reflexivity|]. split; [exact I|]. split; [reflexivity|]. cbn [any_energy]. rewrite correction_app. unfold correction. cbn. ring.
Qed.

(* C53 *)
Lemma stabilized_spec above e data tol force h H : constructed e -> (0 < natoms C (any_comp e))%Q ->
  (h == (energy e - H) / natoms C (any_comp e))%Q -> (data = Some h \/ (data = None /\ above e = Ok h)) ->
  exists e', stabilized above e data tol force = Ok e' /\ any_comp e' = any_comp e
    /\ (((energy e == H)%Q /\ force = false /\ e' = e) \/ ((~ (energy e == H)%Q \/ force = true) /\ (energy e' == H - tol)%Q)).
Proof.
  intros B N Hh D. set (n := natoms C (any_comp e)) in *.
  assert (E : stabilized above e data tol force = if Qeq_bool h 0 && negb force then Ok e else adjusted e (AConst stabilization (-(1) * h * n - tol)%Q)).
  { unfold get_stabilized. destruct D as [-> | [-> ->]]; reflexivity. }
  assert (M : (h * n == energy e - H)%Q) by (rewrite Hh; field; lra).
  rewrite E. destruct (Qeq_bool h 0 && negb force) eqn:Z.
  - apply andb_prop in Z as [Z F]. apply Qeq_bool_iff in Z. apply negb_true_iff in F. exists e. split; [reflexivity|]. split; [reflexivity|]. left.
    split; [|split; [exact F|reflexivity]]. rewrite Z in M. lra.
  - destruct (adjusted_spec e 1 (-(1) * h * n - tol)%Q B) as (e' & E' & _ & Ec & Ee). exists e'. split; [exact E'|]. split; [exact Ec|]. right. split.
    + destruct force; [right; reflexivity|left]. rewrite andb_true_r in Z. intros X. assert (Zh : (h == 0)%Q).
      { assert (Y : (h * n == 0)%Q) by lra. apply Qmult_integral in Y as [Y|Y]; [exact Y|lra]. }
      apply Qeq_bool_iff in Zh. congruence.
    + rewrite Ee. lra.
Qed.

Lemma interpolated_spec hull id_of c tol H : hull (red C c) = Ok H ->
  exists e, get_interpolated C hull id_of c tol = Ok e /\ any_comp e = red C c /\ (energy e == H - tol * natoms C (red C c))%Q.
Proof. intros E. unfold get_interpolated. rewrite E. cbn [bind]. eexists. split; [reflexivity|]. split; [reflexivity|]. cbn. unfold correction. cbn. ring. Qed.
Lemma interpolated_error hull id_of c tol x : hull (red C c) = Err x -> get_interpolated C hull id_of c tol = Err x.
Proof. intros E. unfold get_interpolated. rewrite E. reflexivity. Qed.

(* The function of enumerators/utils.py adds the energy above hull. *)
Lemma wrong_sign has_to_dict e tol h H : (0 < natoms C (any_comp e))%Q -> (h == (energy e - H) / natoms C (any_comp e))%Q ->
  (tol < 2 * (energy e - H))%Q ->
  (has_to_dict = false /\ stabilize_one ln C has_to_dict h e tol = Err AttributeError)
  \/ exists x, stabilize_one ln C has_to_dict h e tol = Ok x /\ (H < x)%Q /\ (x == H + 2 * (energy e - H) - tol)%Q.
Proof.
  intros N Hh L. unfold stabilize_one. destruct has_to_dict; [right|left; split; reflexivity].
  assert (M : (h * natoms C (any_comp e) == energy e - H)%Q) by (rewrite Hh; field; lra).
  eexists. split; [reflexivity|]. split; [rewrite M; lra|rewrite M; ring].
Qed.
Lemma already_on_hull e tol h H : (0 < natoms C (any_comp e))%Q -> (h == (energy e - H) / natoms C (any_comp e))%Q -> (energy e == H)%Q ->
  exists x, stabilize_one ln C true h e tol = Ok x /\ (x == H - tol)%Q.
Proof.
  intros N Hh L. eexists. split; [reflexivity|]. assert (M : (h * natoms C (any_comp e) == energy e - H)%Q) by (rewrite Hh; field; lra). rewrite M. lra.
Qed.

(* C59 *)
Variable unc : anyentry -> option Q.
Notation noisy := (noisy ln C unc).
Lemma jitter_spec : forall entries noise, length noise = length entries -> Forall constructed entries ->
  exists out, get_jitter ln C mass table default_id refs deprecated unc entries noise = Ok out
    /\ Forall2 (fun ez e' => noisy (fst ez) (snd ez) e') (filter (fun ez => negb (is_element C (any_comp (fst ez)))) (combine entries noise)) out.
Proof.
  induction entries as [|e l IH]; intros noise L B; [exists []; split; [reflexivity|constructor]|].
  destruct noise as [|z zs]; [discriminate|]. inversion B as [|? ? B1 B2]; subst. cbn [get_jitter combine filter fst].
  destruct (IH zs ltac:(cbn in L; lia) B2) as (out & E & F). destruct (is_element C (any_comp e)); cbn [negb].
  - exists out. split; assumption.
  - destruct (adjusted_spec e 2 (z * match unc e with Some u => u | None => 0 end)%Q B1) as (e' & E' & _ & Ec & Ee).
    unfold jitter_one. change jitter_name with (Named 2). rewrite E'. cbn [bind]. rewrite E. cbn [bind]. eexists. split; [reflexivity|]. constructor; [|exact F].
    split; [exact Ec|exact Ee].
Qed.
Lemma jitter_no_elements entries noise : length noise = length entries -> Forall constructed entries ->
  (forall e, In e entries -> is_element C (any_comp e) = false) ->
  exists out, get_jitter ln C mass table default_id refs deprecated unc entries noise = Ok out
    /\ Forall2 (fun ez e' => noisy (fst ez) (snd ez) e') (combine entries noise) out /\ length out = length entries.
Proof.
  intros L B N. destruct (jitter_spec entries noise L B) as (out & E & F). exists out. split; [exact E|].
  assert (A : filter (fun ez => negb (is_element C (any_comp (fst ez)))) (combine entries noise) = combine entries noise).
  { clear E F. revert noise L. induction entries as [|e l IH]; intros [|z zs] L; try reflexivity. cbn [combine filter fst]. rewrite (N e (or_introl eq_refl)). cbn [negb]. f_equal. apply IH.
    - inversion B; assumption.
    - intros x I. apply N. right. exact I.
    - cbn in L. lia. }
  rewrite A in F. split; [exact F|]. apply Forall2_length in F. rewrite <- F, combine_length, L. apply Nat.min_id.
Qed.
End Adjust.
