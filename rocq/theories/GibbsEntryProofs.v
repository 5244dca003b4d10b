From Coq Require Import Lqa Qround.
From Verif Require Import Prelude NumQ ListFacts SumQ UtilsModel ReactionModel ReactionSpec ParetoProofs RxnSetBaseProofs GibbsModel GibbsSpec GibbsProofs GibbsMassProofs.
Open Scope nat_scope.

Section Entries.
Variable ln : Q -> Q.
Variable C : chem.
Variable mass : nat -> Q.
Variable table : list (Z * list (nat * Q)).
Variable default_id : nat -> Q -> nat.
Notation init := (gibbs_init ln C mass table default_id).
Notation warm := (gibbs_new_temperature ln C mass table default_id).

Lemma range_bool t : Qlt_bool (pyval t) 300 || Qlt_bool 2000 (pyval t) = false <-> in_range t.
Proof.
  unfold in_range. rewrite orb_false_iff, !Qlt_bool_false_iff. split; intros [A B]; split; assumption.
Qed.

Lemma init_outside c dhf v t adjs id : ~ in_range t -> init c dhf v t adjs id = Err ValueError.
Proof.
  intros H. unfold gibbs_init. destruct (Qlt_bool (pyval t) 300 || Qlt_bool 2000 (pyval t)) eqn:E; [reflexivity|].
  apply range_bool in E. contradiction.
Qed.

(* Removing the SISSO corrections of an initialised list leaves the other ones. *)
Lemma filter_sisso_again (l : list adj) v :
  filter (fun a => negb (is_sisso a)) (filter (fun a => negb (is_sisso a)) l ++ [AConst Sisso v]) = filter (fun a => negb (is_sisso a)) l.
Proof.
  rewrite filter_app. cbn. rewrite app_nil_r. induction l as [|a l IH]; [reflexivity|]. cbn. destruct (is_sisso a) eqn:E; cbn; [exact IH|]. rewrite E. cbn. rewrite IH. reflexivity.
Qed.

(* C54 for computed entries *)
Lemma warm_is_direct c dhf v t1 t2 adjs id e : init c dhf v t1 adjs id = Ok e -> warm e t2 = init c dhf v t2 adjs id.
Proof.
  unfold gibbs_init at 1. destruct (Qlt_bool (pyval t1) 300 || Qlt_bool 2000 (pyval t1)); [discriminate|].
  destruct (gibbs_adjustment ln C mass table c v t1) as [w|x]; cbn [bind]; [|discriminate]. intros [= <-].
  unfold gibbs_new_temperature. cbn [ge_comp ge_dhf ge_vol ge_adjs ge_id]. unfold gibbs_init.
  destruct (Qlt_bool (pyval t2) 300 || Qlt_bool 2000 (pyval t2)); [reflexivity|].
  assert (F : filter (fun a => negb (is_sisso a)) (match adjs with Some l => filter (fun a => negb (is_sisso a)) l | None => [] end ++ [AConst Sisso w])
            = match adjs with Some l => filter (fun a => negb (is_sisso a)) l | None => [] end).
  { destruct adjs as [l|]; [apply filter_sisso_again|reflexivity]. }
  rewrite F. destruct id; reflexivity.
Qed.

Lemma init_temp c dhf v t adjs id e : init c dhf v t adjs id = Ok e -> ge_temp e = t.
Proof.
  unfold gibbs_init. destruct (Qlt_bool (pyval t) 300 || Qlt_bool 2000 (pyval t)); [discriminate|].
  destruct (gibbs_adjustment ln C mass table c v t) as [w|x]; cbn [bind]; [|discriminate]. intros [= <-]. reflexivity.
Qed.

Lemma warm_composes c dhf v t1 t2 t3 adjs id e e2 : init c dhf v t1 adjs id = Ok e -> warm e t2 = Ok e2 ->
  warm e2 t3 = warm e t3 /\ warm e2 t1 = Ok e.
Proof.
  intros H1 H2. rewrite (warm_is_direct _ _ _ _ t2 _ _ _ H1) in H2.
  rewrite (warm_is_direct _ _ _ _ t3 _ _ _ H2), (warm_is_direct _ _ _ _ t3 _ _ _ H1). split; [reflexivity|].
  rewrite (warm_is_direct _ _ _ _ t1 _ _ _ H2). exact H1.
Qed.

Lemma correction_app l l' : (correction ln (l ++ l') == correction ln l + correction ln l')%Q.
Proof. unfold correction. rewrite map_app, !Qsum_sumQ, sumQ_app. reflexivity. Qed.

(* The energy of an initialised entry. *)
Lemma init_energy c dhf v t adjs id e : init c dhf v t adjs id = Ok e ->
  exists w, gibbs_adjustment ln C mass table c v t = Ok w
    /\ (gibbs_energy ln C e == natoms C c * dhf + w + correction ln (match adjs with Some l => filter (fun a => negb (is_sisso a)) l | None => [] end))%Q.
Proof.
  unfold gibbs_init. destruct (Qlt_bool (pyval t) 300 || Qlt_bool 2000 (pyval t)); [discriminate|].
  destruct (gibbs_adjustment ln C mass table c v t) as [w|x]; cbn [bind]; [|discriminate]. intros [= <-].
  exists w. split; [reflexivity|]. unfold gibbs_energy. cbn [ge_comp ge_dhf ge_adjs]. rewrite correction_app.
  unfold correction at 2. cbn [map adj_value]. change (Qsum [w]) with (w + 0)%Q. ring.
Qed.

(* An atmospheric correction keeps the temperature for which it was made. *)
Lemma stale_co2 c dhf v t1 t2 id n p e d e2 :
  init c dhf v t1 (Some (co2_at t1 [(n, p)])) id = Ok e -> warm e t2 = Ok e2 ->
  init c dhf v t2 (Some (co2_at t2 [(n, p)])) id = Ok d ->
  (gibbs_energy ln C d - gibbs_energy ln C e2 == (1 # 3) * (8617 # 100000000) * (pyval t2 - pyval t1) * ln p * n)%Q.
Proof.
  intros H1 H2 H3. rewrite (warm_is_direct _ _ _ _ t2 _ _ _ H1) in H2.
  apply init_energy in H2 as (w & E2 & V2). apply init_energy in H3 as (w' & E3 & V3). rewrite E2 in E3. inversion E3; subst w'.
  rewrite V2, V3. unfold co2_at, correction. cbn [map filter is_sisso negb fst snd adj_value].
  change (forall a b, Qsum [a] == b)%Q with (forall a b, a + 0 == b)%Q.
  unfold Qsum. cbn [fold_right]. unfold get_dmu. ring.
Qed.

(* --- C55 --- *)
Section WithTable.
Variable val : Z -> nat -> Q.
Hypothesis W : wf_chem C.

Lemma el_amts_in c ea : In ea (el_amts C c) -> In (fst ea) (elems C c).
Proof. unfold el_amts. rewrite in_map_iff. intros (e & <- & H). exact H. Qed.

Lemma two_elements c : is_element C c = false -> elems C c <> [] -> 2 <= length (elems C c).
Proof. unfold is_element. intros H N. apply Nat.eqb_neq in H. destruct (elems C c) as [|a [|b l]]; cbn in *; [contradiction|lia|lia]. Qed.

Lemma int_on_grid z : on_grid (PInt z) <-> exists k, z = (100 * k)%Z.
Proof.
  split.
  - intros [k E]. cbn [pyval] in E. exists k. rewrite inject_Z_injective in E. exact E.
  - intros [k ->]. exists k. reflexivity.
Qed.

Lemma init_succeeds c dhf v t adjs id : tabulates table (elems C c) val -> elems C c <> [] ->
  (forall e, In e (elems C c) -> (0 < mass e)%Q) -> in_range t -> (is_int t \/ ~ on_grid t \/ is_element C c = true) ->
  exists e, init c dhf v t adjs id = Ok e /\ ge_temp e = t.
Proof.
  intros T N Pm R K. unfold gibbs_init. rewrite (proj2 (range_bool t) R).
  assert (G : exists w, gibbs_adjustment ln C mass table c v t = Ok w).
  { unfold gibbs_adjustment. destruct (is_element C c) eqn:El; [exists 0%Q; reflexivity|].
    destruct (reduced_mass_value mass C c W (two_elements c El N) Pm) as (rm & E & _). rewrite E. cbn [bind].
    assert (S : exists s, sum_g_i table (el_amts C c) t = Ok s).
    { destruct (off_grid t) eqn:O.
      - apply off_grid_iff in O. destruct (sum_between table (elems C c) val T (el_amts C c) t _ (el_amts_in c) R O eq_refl) as (s & Es & _). exists s. exact Es.
      - apply off_grid_false in O. destruct K as [K|[K|K]]; [|contradiction|discriminate]. destruct t as [z|q]; [|destruct K].
        apply int_on_grid in O as [k ->]. destruct R as [R1 R2]. cbn [pyval] in R1, R2. change 300%Q with (inject_Z 300) in R1. change 2000%Q with (inject_Z 2000) in R2.
        rewrite <- Zle_Qle in R1, R2.
        destruct (sum_grid table (elems C c) val T (el_amts C c) k (el_amts_in c)) as (s & Es & _); [lia|]. exists s. exact Es. }
    destruct S as (s & ->). cbn [bind]. eexists. reflexivity. }
  destruct G as (w & ->). cbn [bind]. eexists. split; reflexivity.
Qed.

Lemma init_float_grid c dhf v q adjs id : is_element C c = false -> elems C c <> [] ->
  (forall e, In e (elems C c) -> (0 < mass e)%Q) -> in_range (PFloat q) -> on_grid (PFloat q) -> init c dhf v (PFloat q) adjs id = Err KeyError.
Proof.
  intros El N Pm R O. unfold gibbs_init. rewrite (proj2 (range_bool _) R). unfold gibbs_adjustment. rewrite El.
  destruct (reduced_mass_value mass C c W (two_elements c El N) Pm) as (rm & E & _). rewrite E. cbn [bind].
  unfold sum_g_i. rewrite (proj2 (off_grid_false _) O). unfold el_amts. destruct (elems C c) as [|e l]; [contradiction|]. reflexivity.
Qed.

Lemma reference_between c t : tabulates table (elems C c) val -> in_range t -> ~ on_grid t ->
  exists k s, (3 <= k <= 19)%Z /\ (inject_Z (100 * k) < pyval t < inject_Z (100 * (k + 1)))%Q
    /\ sum_g_i table (el_amts C c) t = Ok s
    /\ let lo := weighted (val (100 * k)) (el_amts C c) in let hi := weighted (val (100 * (k + 1))) (el_amts C c) in
       (s == on_line (inject_Z (100 * k)) lo (inject_Z (100 * (k + 1))) hi (pyval t))%Q /\ (Qmin lo hi <= s <= Qmax lo hi)%Q.
Proof.
  intros T R Ng. set (k := Qfloor (pyval t / 100)). destruct (grid_cell t k R Ng eq_refl) as (Hk & L & U).
  destruct (sum_between table (elems C c) val T (el_amts C c) t k (el_amts_in c) R Ng eq_refl) as (s & Es & Vs).
  exists k, s. split; [exact Hk|]. split; [split; assumption|]. split; [exact Es|]. cbv zeta. split; [exact Vs|]. rewrite Vs.
  apply on_line_between; [lra|apply Qlt_le_weak; assumption|apply Qlt_le_weak; assumption].
Qed.
End WithTable.

(* --- C57 --- *)
Lemma isclose_refl q : isclose q q = true.
Proof.
  unfold isclose. apply Qle_bool_iff. setoid_replace (q - q)%Q with 0%Q by ring. change (Qabs 0) with 0%Q. assert (H := Qabs_nonneg q). lra.
Qed.

Lemma gibbs_eq_refl a : gibbs_eq ln C a a = true.
Proof.
  unfold gibbs_eq. rewrite !isclose_refl, !Nat.eqb_refl. destruct (negb (Nat.eqb (ge_id a) 0) && negb (Nat.eqb (ge_id a) 0)); reflexivity.
Qed.

Lemma isclose_equal a b : (a == b)%Q -> isclose a b = true.
Proof.
  intros E. unfold isclose. apply Qle_bool_iff. setoid_replace (a - b)%Q with 0%Q by (rewrite E; ring). change (Qabs 0) with 0%Q. assert (H := Qabs_nonneg b). lra.
Qed.

Lemma gibbs_eq_hash a b :
  (isclose (gibbs_energy ln C a) (gibbs_energy ln C b) = true -> (gibbs_energy ln C a == gibbs_energy ln C b)%Q) ->
  (isclose (pyval (ge_temp a)) (pyval (ge_temp b)) = true -> (pyval (ge_temp a) == pyval (ge_temp b))%Q) ->
  ge_id a <> 0 -> ge_id b <> 0 -> (ge_id a = ge_id b -> ge_comp a = ge_comp b) ->
  gibbs_eq ln C a b = true -> same_gibbs_hash ln C a b /\ gibbs_eq ln C b a = true.
Proof.
  intros HE HT Na Nb HI H. unfold gibbs_eq in *. rewrite (proj2 (Nat.eqb_neq _ _) Na), (proj2 (Nat.eqb_neq _ _) Nb) in *. cbn [negb andb] in *.
  apply andb_prop in H as [H H3]. apply andb_prop in H as [H1 H2]. apply Nat.eqb_eq in H3.
  specialize (HE H2). specialize (HT H1). split.
  - split; [apply HI; exact H3|]. split; [exact HE|]. split; [exact H3|exact HT].
  - rewrite (isclose_equal _ _ (Qeq_sym _ _ HT)), (isclose_equal _ _ (Qeq_sym _ _ HE)), H3, Nat.eqb_refl. reflexivity.
Qed.
End Entries.

(* --- experimental entries --- *)
Section Experimental.
Variable ln : Q -> Q.
Variable C : chem.
Variable refs : nat -> option (list (Q * Q)).
Variable deprecated : nat -> bool.
Notation init := (exp_init C refs deprecated).
Notation warm := (exp_new_temperature C refs deprecated).

Lemma exp_outside c t adjs : deprecated (red C c) = false ->
  (forall d, refs (red C c) = Some d -> (forall kv, In kv d -> (pyval t < fst kv)%Q) \/ (forall kv, In kv d -> (fst kv < pyval t)%Q)) ->
  init c t adjs = Err ValueError.
Proof.
  intros D H. unfold exp_init, validate. rewrite D. destruct (refs (red C c)) as [d|]; [|reflexivity]. specialize (H d eq_refl).
  destruct d as [|x d]; [reflexivity|].
  assert (B : forallb (fun kv => Qlt_bool (pyval t) (fst kv)) (x :: d) || forallb (fun kv => Qlt_bool (fst kv) (pyval t)) (x :: d) = true).
  { apply orb_true_iff. destruct H as [H|H]; [left|right]; apply forallb_forall; intros kv Hkv; apply Qlt_bool_iff, H; exact Hkv. }
  rewrite B. reflexivity.
Qed.

Lemma exp_fields c t adjs e : init c t adjs = Ok e -> xe_comp e = c /\ xe_temp e = t /\ xe_adjs e = adjs.
Proof.
  unfold exp_init. destruct (validate refs deprecated (red C c) t); cbn [bind]; [|discriminate].
  destruct (get_energy refs deprecated (red C c) t); cbn [bind]; [|discriminate]. intros [= <-]. repeat split.
Qed.

Lemma set_temp_co2 t t' l : mapM (set_adj_temp (pyval t')) (co2_at t l) = Ok (co2_at t' l).
Proof. unfold co2_at. induction l as [|[n p] l IH]; [reflexivity|]. cbn [map mapM set_adj_temp fst snd bind]. rewrite IH. reflexivity. Qed.

Lemma exp_warm_direct c t1 t2 l e : init c t1 (co2_at t1 l) = Ok e -> warm e t2 = init c t2 (co2_at t2 l).
Proof.
  intros H. destruct (exp_fields _ _ _ _ H) as (E1 & E2 & E3). unfold exp_new_temperature. rewrite E1, E3, set_temp_co2. reflexivity.
Qed.

Lemma exp_warm_composes c t1 t2 t3 l e e2 : init c t1 (co2_at t1 l) = Ok e -> warm e t2 = Ok e2 -> warm e2 t3 = warm e t3 /\ warm e2 t1 = Ok e.
Proof.
  intros H1 H2. rewrite (exp_warm_direct _ _ t2 _ _ H1) in H2.
  rewrite (exp_warm_direct _ _ t3 _ _ H2), (exp_warm_direct _ _ t3 _ _ H1). split; [reflexivity|]. rewrite (exp_warm_direct _ _ t1 _ _ H2). exact H1.
Qed.

Lemma exp_warm_const e t name v l l' : xe_adjs e = l ++ AConst name v :: l' -> warm e t = Err TypeError.
Proof.
  intros E. unfold exp_new_temperature. rewrite E.
  assert (M : mapM (set_adj_temp (pyval t)) (l ++ AConst name v :: l') = Err TypeError).
  { clear E. induction l as [|a l IH]; [reflexivity|]. cbn. destruct a; cbn; try reflexivity. rewrite IH. reflexivity. }
  rewrite M. reflexivity.
Qed.

(* The base energy depends on the reduced formula only. *)
Lemma exp_base c c' t adjs e e' : red C c = red C c' -> init c t adjs = Ok e -> init c' t adjs = Ok e' ->
  (exp_energy ln e == exp_energy ln e')%Q.
Proof.
  intros R. unfold exp_init. rewrite <- R. destruct (validate refs deprecated (red C c) t); cbn [bind]; [|discriminate].
  destruct (get_energy refs deprecated (red C c) t); cbn [bind]; [|discriminate]. intros [= <-] [= <-]. reflexivity.
Qed.

Lemma exp_hash_same a b : exp_eq ln C a b = true -> xe_comp a = xe_comp b -> (is_int (xe_temp a) <-> is_int (xe_temp b)) -> same_exp_hash a b.
Proof.
  unfold exp_eq, same_exp_hash, exp_hash_key. cbn [fst snd]. intros H E I. split; [exact E|].
  apply andb_prop in H as [H _]. apply andb_prop in H as [_ H]. apply Qeq_bool_iff in H.
  destruct (xe_temp a) as [x|x], (xe_temp b) as [y|y]; cbn in *; try tauto. apply inject_Z_injective. exact H.
Qed.

(* Tabulated and interpolated energies. *)
Lemma exp_tabulated c k v d adjs e : deprecated (red C c) = false -> refs (red C c) = Some d -> distinct_abscissae d -> forall t, pyval t == inject_Z (100 * k) ->
  In (inject_Z (100 * k), v) d -> init c t adjs = Ok e -> xe_base e = v.
Proof.
  intros D R Di t Et I. unfold exp_init. destruct (validate refs deprecated (red C c) t); cbn [bind]; [|discriminate].
  unfold get_energy. rewrite D, R. assert (O : off_grid t = false) by (apply off_grid_false; exists k; exact Et). rewrite O.
  destruct (find (fun kv => Qeq_bool (pyval t) (fst kv)) d) as [[x y]|] eqn:F; cbn [bind]; [|discriminate]. intros [= <-]. cbn [xe_base snd].
  apply find_some in F as [If Ef]. cbn [fst] in Ef. apply Qeq_bool_iff in Ef.
  destruct (FOP_in _ _ _ _ Qneq_sym Di If I) as [E|E]; [inversion E; reflexivity|]. exfalso. apply E. cbn [fst]. rewrite <- Ef. exact Et.
Qed.

Lemma exp_between c x1 y1 x2 y2 d t adjs : deprecated (red C c) = false -> refs (red C c) = Some d -> distinct_abscissae d ->
  In (x1, y1) d -> In (x2, y2) d -> (x1 < x2)%Q -> (forall p, In p d -> (fst p <= x1)%Q \/ (x2 <= fst p)%Q) ->
  (x1 <= pyval t)%Q -> (pyval t <= x2)%Q -> ~ on_grid t ->
  exists e, init c t adjs = Ok e /\ (xe_base e == on_line x1 y1 x2 y2 (pyval t))%Q /\ (Qmin y1 y2 <= xe_base e <= Qmax y1 y2)%Q.
Proof.
  intros D R Di I1 I2 L G H1 H2 Ng. unfold exp_init.
  assert (V : validate refs deprecated (red C c) t = Ok tt).
  { unfold validate. rewrite D, R. destruct d as [|x d]; [destruct I1|].
    assert (B1 : forallb (fun kv => Qlt_bool (pyval t) (fst kv)) (x :: d) = false).
    { apply not_true_is_false. intros F. rewrite forallb_forall in F. specialize (F _ I1). cbn [fst] in F. apply Qlt_bool_iff in F. exfalso. lra. }
    assert (B2 : forallb (fun kv => Qlt_bool (fst kv) (pyval t)) (x :: d) = false).
    { apply not_true_is_false. intros F. rewrite forallb_forall in F. specialize (F _ I2). cbn [fst] in F. apply Qlt_bool_iff in F. exfalso. lra. }
    rewrite B1, B2. reflexivity. }
  rewrite V. cbn [bind]. unfold get_energy. rewrite D, R, (proj2 (off_grid_iff t) Ng).
  destruct (interp1d_spec d x1 y1 x2 y2 (pyval t) Di I1 I2 L G H1 H2) as (y & Ey & Hy). rewrite Ey. cbn [bind].
  eexists. split; [reflexivity|]. cbn [xe_base]. split; [exact Hy|]. rewrite Hy. apply on_line_between; assumption.
Qed.
End Experimental.
