(* C10-C12, C15, C16: scaling, reversing, energies, fractions. *)
From Coq Require Import Setoid Lqa.
From Verif Require Import Prelude NumQ UtilsModel SumQ ReactionModel ReactionSpec ReactionBaseProofs.
Open Scope nat_scope.

Lemma mapM_map_Ok {A B} (f : A -> result B) (g : A -> B) l :
  (forall a, In a l -> f a = Ok (g a)) -> mapM f l = Ok (map g l).
Proof.
  induction l as [|a l IH]; intros H; [reflexivity|]. simpl. rewrite (H a) by (left; reflexivity).
  rewrite IH by (intros b Hb; apply H; right; assumption). reflexivity.
Qed.

(* --- lists of coefficients transformed entry by entry --- *)
Definition on_snd (f : Q -> Q) (ck : nat * Q) : nat * Q := (fst ck, f (snd ck)).

Lemma combine_map_r {A} (f : Q -> Q) (cs : list A) ks :
  combine cs (map f ks) = map (fun ck => (fst ck, f (snd ck))) (combine cs ks).
Proof. revert ks; induction cs as [|c cs IH]; intros [|k ks]; simpl; try reflexivity. rewrite IH. reflexivity. Qed.
Lemma combine_map_l {A} (f : Q -> Q) (cs : list A) ks :
  combine (map f ks) cs = map (fun kc => (f (fst kc), snd kc)) (combine ks cs).
Proof. revert ks; induction cs as [|c cs IH]; intros [|k ks]; simpl; try reflexivity. rewrite IH. reflexivity. Qed.
Lemma filter_map {A B} (p : B -> bool) (h : A -> B) l : filter p (map h l) = map h (filter (fun a => p (h a)) l).
Proof. induction l as [|a l IH]; [reflexivity|]. simpl. destruct (p (h a)); simpl; rewrite IH; reflexivity. Qed.
Lemma combine_swap {A B} (l1 : list A) (l2 : list B) : combine l2 l1 = map (fun p => (snd p, fst p)) (combine l1 l2).
Proof. revert l2; induction l1 as [|a l1 IH]; intros [|b l2]; simpl; try reflexivity. rewrite IH. reflexivity. Qed.

Section Ops.
Variable C : chem.

(* A transformation of the coefficients that keeps (or flips) the sign. *)
Lemma sides_keep (f : Q -> Q) cs ks b n b' n' :
  (forall k, Qlt_bool (f k) 0 = Qlt_bool k 0) -> (forall k, Qlt_bool 0 (f k) = Qlt_bool 0 k) ->
  reactant_coeffs (basic_init C cs (map f ks) b n) = map (on_snd f) (reactant_coeffs (basic_init C cs ks b' n'))
  /\ product_coeffs (basic_init C cs (map f ks) b n) = map (on_snd f) (product_coeffs (basic_init C cs ks b' n')).
Proof.
  intros H1 H2. simpl. unfold on_snd. rewrite !dict_of_map, combine_map_r, !filter_map. cbn [snd].
  split; f_equal; f_equal; apply filter_ext; intros [c k]; cbn [snd]; auto.
Qed.
Lemma sides_flip (f : Q -> Q) cs ks b n b' n' :
  (forall k, Qlt_bool (f k) 0 = Qlt_bool 0 k) -> (forall k, Qlt_bool 0 (f k) = Qlt_bool k 0) ->
  reactant_coeffs (basic_init C cs (map f ks) b n) = map (on_snd f) (product_coeffs (basic_init C cs ks b' n'))
  /\ product_coeffs (basic_init C cs (map f ks) b n) = map (on_snd f) (reactant_coeffs (basic_init C cs ks b' n')).
Proof.
  intros H1 H2. simpl. unfold on_snd. rewrite !dict_of_map, combine_map_r, !filter_map. cbn [snd].
  split; f_equal; f_equal; apply filter_ext; intros [c k]; cbn [snd]; auto.
Qed.

Lemma map_fst_on_snd f l : map fst (map (on_snd f) l) = map fst l.
Proof. rewrite map_map. apply map_ext. intros [c k]; reflexivity. Qed.

Lemma scale_sign s : (0 < s)%Q -> (forall k, Qlt_bool (k * s) 0 = Qlt_bool k 0) /\ (forall k, Qlt_bool 0 (k * s) = Qlt_bool 0 k).
Proof.
  intros Hs. split; intros k; apply eq_true_iff_eq; rewrite !Qlt_bool_iff'; split; intros H.
  - destruct (Qlt_le_dec k 0); [assumption|]. exfalso. pose proof (Qmult_le_0_compat k s q (Qlt_le_weak _ _ Hs)). lra.
  - assert (0 < (-k) * s)%Q by (apply Qmult_lt_0_compat; lra). lra.
  - destruct (Qlt_le_dec 0 k); [assumption|]. exfalso.
    pose proof (Qmult_le_0_compat (-k) s ltac:(lra) (Qlt_le_weak _ _ Hs)). lra.
  - apply Qmult_lt_0_compat; assumption.
Qed.
Lemma neg_sign : (forall k, Qlt_bool (-1 * k) 0 = Qlt_bool 0 k) /\ (forall k, Qlt_bool 0 (-1 * k) = Qlt_bool k 0).
Proof. split; intros k; apply eq_true_iff_eq; rewrite !Qlt_bool_iff'; split; intros H; lra. Qed.
Lemma neg_sign' : (forall k, Qlt_bool (- k) 0 = Qlt_bool 0 k) /\ (forall k, Qlt_bool 0 (- k) = Qlt_bool k 0).
Proof. split; intros k; apply eq_true_iff_eq; rewrite !Qlt_bool_iff'; split; intros H; lra. Qed.

(* --- energies --- *)
Definition value (d : list (nat * Q)) (c : nat) : Q := match dict_get c d with Some v => v | None => 0%Q end.

Lemma calc_energies_spec en es :
  forall c, (dict_get c (calc_energies C es en) = None /\ ~ In c (map (fun e => red C (e_comp e)) es))
   \/ (exists v, dict_get c (calc_energies C es en) = Some v /\ lowest C en es c v).
Proof.
  unfold calc_energies.
  cut (forall done d, (forall c, (dict_get c d = None /\ ~ In c (map (fun e => red C (e_comp e)) done))
       \/ (exists v, dict_get c d = Some v /\ lowest C en done c v)) ->
    forall c, let d' := fold_left (fun d e =>
      let comp := red C (e_comp e) in let v := (en e / fac C (e_comp e))%Q in
      dict_set comp (match dict_get comp d with None => v | Some w => if Qlt_bool v w then v else w end) d) es d in
     (dict_get c d' = None /\ ~ In c (map (fun e => red C (e_comp e)) (done ++ es)))
       \/ (exists v, dict_get c d' = Some v /\ lowest C en (done ++ es) c v)).
  { intros H c. apply (H [] []). intros c'. left. split; [reflexivity|intros []]. }
  induction es as [|e es IH]; intros done d Hd c; cbn zeta.
  - rewrite app_nil_r. apply Hd.
  - replace (done ++ e :: es) with ((done ++ [e]) ++ es) by (rewrite <- app_assoc; reflexivity).
    apply IH. clear c IH. intros c. rewrite dict_get_set. destruct (Nat.eqb_spec c (red C (e_comp e))) as [->|Hne].
    + right. eexists. split; [reflexivity|]. destruct (Hd (red C (e_comp e))) as [[-> Hno]|(w & -> & (e0 & He0 & Hr0 & Hv0) & Hlow)].
      * split.
        { exists e. split; [apply in_or_app; right; left; reflexivity|]. split; reflexivity. }
        { intros e' He' Hr. apply in_app_or in He' as [He'|[<-|[]]]; [|apply Qle_refl].
          exfalso. apply Hno. rewrite <- Hr. apply (in_map (fun e => red C (e_comp e))). assumption. }
      * destruct (Qlt_bool (en e / fac C (e_comp e)) w) eqn:E.
        { apply Qlt_bool_iff' in E. split.
          - exists e. split; [apply in_or_app; right; left; reflexivity|]. split; reflexivity.
          - intros e' He' Hr. apply in_app_or in He' as [He'|[<-|[]]]; [|apply Qle_refl].
            specialize (Hlow e' He' Hr). lra. }
        { apply Qlt_bool_false in E. split.
          - exists e0. split; [apply in_or_app; left; assumption|]. split; assumption.
          - intros e' He' Hr. apply in_app_or in He' as [He'|[<-|[]]]; [auto|assumption]. }
    + destruct (Hd c) as [[-> Hno]|(w & -> & (e0 & He0 & Hr0 & Hv0) & Hlow)].
      * left. split; [reflexivity|]. rewrite map_app, in_app_iff. simpl. intros [H|[H|[]]]; [auto|congruence].
      * right. exists w. split; [reflexivity|]. split.
        { exists e0. split; [apply in_or_app; left; assumption|]. split; assumption. }
        { intros e' He' Hr. apply in_app_or in He' as [He'|[<-|[]]]; [auto|congruence]. }
Qed.

Lemma value_lowest en es c : In c (map (fun e => red C (e_comp e)) es) ->
  dict_get c (calc_energies C es en) = Some (value (calc_energies C es en) c)
  /\ lowest C en es c (value (calc_energies C es en) c).
Proof.
  intros H. unfold value. destruct (calc_energies_spec en es c) as [[_ Hno]|(v & -> & Hv)]; [contradiction|]. auto.
Qed.
Lemma lowest_unique en es c v w : lowest C en es c v -> lowest C en es c w -> (v == w)%Q.
Proof.
  intros [(e1 & I1 & R1 & V1) L1] [(e2 & I2 & R2 & V2) L2].
  specialize (L1 e2 I2 R2). specialize (L2 e1 I1 R1). lra.
Qed.

Lemma energy_of_value en es r : (forall c, In c (comps r) -> In c (map (fun e => red C (e_comp e)) es)) ->
  energy_of C es en r = Ok (sumQ (fun kc => fst kc * value (calc_energies C es en) (snd kc))%Q (combine (coeffs r) (comps r))).
Proof.
  intros H. unfold energy_of.
  rewrite (mapM_map_Ok _ (fun kc => fst kc * value (calc_energies C es en) (snd kc))%Q).
  - simpl. rewrite Qsum_map. reflexivity.
  - intros [k c] Hin. cbn [fst snd]. apply in_combine_r in Hin.
    destruct (value_lowest en es c (H c Hin)) as [-> _]. reflexivity.
Qed.

Definition val en es c := value (calc_energies C es en) c.

Lemma energy_built en es ks fl n :
  energy_of C es en (basic_init C (map (fun e => red C (e_comp e)) es) ks fl n)
  = Ok (sumQ (fun kc => fst kc * val en es (snd kc))%Q (combine ks (map (fun e => red C (e_comp e)) es))).
Proof. apply energy_of_value. intros c H. exact H. Qed.

(* C12 *)
Theorem computed_energy_spec es ks n :
  exists e g, computed_energy C (computed_init C es ks n) = Ok e
  /\ (e == sumQ (fun ck => snd ck * g (fst ck)) (species (c_base (computed_init C es ks n))))%Q
  /\ forall c, In c (comps (c_base (computed_init C es ks n))) -> lowest C e_energy es c (g c).
Proof.
  eexists _, (val e_energy es). split; [apply energy_built|]. split.
  - unfold species, computed_init. cbn [c_base comps coeffs basic_init].
    rewrite (combine_swap (map (fun e => red C (e_comp e)) es) ks), sumQ_map. reflexivity.
  - intros c H. apply (value_lowest e_energy es c H).
Qed.

Lemma lowest_same_cells en es es' c v :
  Forall2 (fun e e' => red C (e_comp e) = red C (e_comp e') /\ (en e / fac C (e_comp e) == en e' / fac C (e_comp e'))%Q) es es' ->
  lowest C en es c v -> lowest C en es' c v.
Proof.
  intros F [(e & He & Hr & Hv) Hl]. split.
  - clear Hl. induction F as [|a b es es' [F1 F2] F IH]; [destruct He|].
    destruct He as [<-|He].
    + exists b. split; [left; reflexivity|]. split; [congruence|]. rewrite Hv. exact F2.
    + destruct (IH He) as (e' & H1 & H2 & H3). exists e'. split; [right; assumption|auto].
  - clear He. intros e' He' Hr'. induction F as [|a b es es' [F1 F2] F IH]; [destruct He'|].
    destruct He' as [<-|He'].
    + rewrite <- F2. apply Hl; [left; reflexivity|congruence].
    + apply IH; [intros e0 H0 R0; apply Hl; [right; assumption|assumption]|assumption].
Qed.

Theorem energy_same_cells es es' ks n :
  Forall2 (fun e e' => red C (e_comp e) = red C (e_comp e')
           /\ (e_energy e / fac C (e_comp e) == e_energy e' / fac C (e_comp e'))%Q) es es' ->
  exists v v', computed_energy C (computed_init C es ks n) = Ok v
  /\ computed_energy C (computed_init C es' ks n) = Ok v' /\ (v == v')%Q.
Proof.
  intros F. eexists _, _. split; [apply energy_built|]. split; [apply energy_built|].
  assert (E : map (fun e => red C (e_comp e)) es = map (fun e => red C (e_comp e)) es').
  { clear -F. induction F as [|a b es es' [F1 _] F IH]; [reflexivity|]. simpl. rewrite F1, IH. reflexivity. }
  rewrite <- E. apply sumQ_ext. intros [k c] Hin. cbn [fst snd]. apply in_combine_r in Hin.
  apply Qmult_comp; [reflexivity|].
  destruct (value_lowest e_energy es c Hin) as [_ L1].
  rewrite E in Hin. destruct (value_lowest e_energy es' c Hin) as [_ L2].
  apply (lowest_unique e_energy es' c); [|exact L2].
  eapply lowest_same_cells; eassumption.
Qed.

(* --- scaling --- *)
Lemma energy_scaled en es ks fl n fl' n' s v :
  energy_of C es en (basic_init C (map (fun e => red C (e_comp e)) es) ks fl n) = Ok v ->
  exists v', energy_of C es en (basic_init C (map (fun e => red C (e_comp e)) es) (map (fun q => q * s)%Q ks) fl' n') = Ok v'
  /\ (v' == s * v)%Q.
Proof.
  rewrite energy_built. intros E. injection E as <-. eexists. split; [apply energy_built|].
  rewrite combine_map_l, sumQ_map, <- sumQ_scale_l. apply sumQ_ext. intros [k c] _. cbn [fst snd]. ring.
Qed.

Lemma num_atoms_scaled els cs ks fl n fl' n' s : (0 < s)%Q ->
  (num_atoms_of C els (basic_init C cs (map (fun q => q * s)%Q ks) fl' n')
   == s * num_atoms_of C els (basic_init C cs ks fl n))%Q.
Proof.
  intros Hs. unfold num_atoms_of.
  destruct (scale_sign s Hs) as [S1 S2].
  rewrite (proj2 (sides_keep (fun q => q * s)%Q cs ks fl' n' fl n S1 S2)).
  rewrite !Qsum_map, sumQ_map, <- sumQ_scale_l. apply sumQ_ext. intros [c k] _. unfold on_snd. cbn [fst snd]. ring.
Qed.

Lemma per_atom_scaled e n e' n' s a : ~ (s == 0)%Q -> (e' == s * e)%Q -> (n' == s * n)%Q ->
  per_atom e n = Ok a -> exists a', per_atom e' n' = Ok a' /\ (a' == a)%Q.
Proof.
  intros Hs He Hn. unfold per_atom. destruct (Qeq_bool n 0) eqn:E; [discriminate|]. intros H. injection H as <-.
  assert (Hn0 : ~ (n == 0)%Q) by (intros H; apply Qeq_bool_iff in H; congruence).
  assert (Hn' : ~ (n' == 0)%Q).
  { rewrite Hn. intros H. apply Qmult_integral in H. tauto. }
  destruct (Qeq_bool n' 0) eqn:E'; [apply Qeq_bool_iff in E'; contradiction|].
  eexists. split; [reflexivity|]. rewrite He, Hn. field. auto.
Qed.

Lemma list_index_spec c l : (exists i, list_index c l = Ok i /\ nth_error l i = Some c) \/ (list_index c l = Err ValueError /\ ~ In c l).
Proof.
  induction l as [|x l IH]; [right; split; [reflexivity|intros []]|]. simpl.
  destruct (Nat.eqb_spec c x) as [->|Hne]; [left; exists 0; split; reflexivity|].
  destruct IH as [(i & -> & Hi)|[-> Hn]]; simpl; [left; exists (S i); auto|].
  right. split; [reflexivity|]. intros [H|H]; [congruence|contradiction].
Qed.

Lemma get_coeff_spec r c : length (comps r) = length (coeffs r) ->
  (exists k, get_coeff r c = Ok k /\ In (c, k) (species r)) \/ (get_coeff r c = Err ValueError /\ ~ In c (comps r)).
Proof.
  intros Hl. unfold get_coeff, species. destruct (list_index_spec c (comps r)) as [(i & -> & Hi)|[-> Hn]]; [left|right; auto].
  simpl. unfold index. destruct (nth_error (coeffs r) i) as [k|] eqn:Ek.
  - exists k. split; [reflexivity|]. apply nth_error_In with (n := i).
    clear Hl. revert i Hi Ek. generalize (comps r) (coeffs r). induction l as [|x l IH]; intros [|q l'] [|i] Hi Ek; try discriminate.
    + simpl in *. congruence.
    + simpl in *. auto.
  - exfalso. apply nth_error_None in Ek. assert (i < length (comps r)) by (apply nth_error_Some; congruence). lia.
Qed.

Lemma get_coeff_scaled cs ks fl n fl' n' s c k :
  get_coeff (basic_init C cs ks fl n) c = Ok k ->
  get_coeff (basic_init C cs (map (fun q => q * s)%Q ks) fl' n') c = Ok (k * s)%Q.
Proof.
  unfold get_coeff. cbn [comps coeffs basic_init]. destruct (list_index c cs) as [i|e]; [|discriminate]. simpl.
  unfold index. rewrite nth_error_map. destruct (nth_error ks i) as [q|]; [|discriminate]. intros H. injection H as ->. reflexivity.
Qed.

Lemma scaled_to_spec r c k f : get_coeff r c = Ok k -> ~ (k == 0)%Q -> (0 < f)%Q ->
  exists s, (0 < s)%Q /\ scaled_to r c f = Ok (map (fun q => q * s)%Q (coeffs r)) /\ (Qabs k * s == f)%Q.
Proof.
  intros Hk Hk0 Hf. unfold scaled_to. rewrite Hk. simpl.
  destruct (Qeq_bool k 0) eqn:E; [apply Qeq_bool_iff in E; contradiction|].
  exists (Qabs (1 / k * f)). 
  assert (Ek : (Qabs (1 / k * f) == / Qabs k * f)%Q).
  { rewrite Qabs_Qmult, (Qabs_pos f) by lra. apply Qmult_comp; [|reflexivity]. unfold Qdiv.
    rewrite Qabs_Qmult, Qabs_Qinv. change (Qabs 1) with 1%Q. ring. }
  assert (Hp : (0 < Qabs k)%Q).
  { destruct (Qlt_le_dec k 0).
    - rewrite Qabs_neg by lra. lra.
    - rewrite Qabs_pos by lra. destruct (Qlt_le_dec 0 k); [assumption|]. exfalso. apply Hk0. lra. }
  split; [|split; [reflexivity|]].
  - rewrite Ek. apply Qmult_lt_0_compat; [apply Qinv_lt_0_compat; assumption|assumption].
  - rewrite Ek. field. lra.
Qed.

Lemma conserving_scaled cs ks fl n fl' n' s : conserving C (basic_init C cs ks fl n) ->
  conserving C (basic_init C cs (map (fun q => q * s)%Q ks) fl' n').
Proof.
  intros H e. specialize (H e). unfold net, species in *. cbn [comps coeffs basic_init] in *.
  rewrite combine_map_r, sumQ_map.
  assert (E : (sumQ (fun b : nat * Q => amt C (fst (fst b, (snd b * s)%Q)) e * snd (fst b, (snd b * s)%Q)) (combine cs ks)
     == sumQ (fun b : nat * Q => amt C (fst b) e * snd b) (combine cs ks) * s)%Q).
  { rewrite <- sumQ_scale_r. apply sumQ_ext. intros [c k] _. cbn [fst snd]. ring. }
  rewrite E, H. ring.
Qed.

Lemma el_amount_scaled cs ks fl n fl' n' s e : (0 < s)%Q ->
  (get_el_amount C (basic_init C cs (map (fun q => q * s)%Q ks) fl' n') e == s * get_el_amount C (basic_init C cs ks fl n) e)%Q.
Proof.
  intros Hs. unfold get_el_amount. cbn [comps coeffs basic_init]. rewrite !Qsum_map, combine_map_r, sumQ_map.
  assert (E : (sumQ (fun b : nat * Q => amt C (fst (fst b, (snd b * s)%Q)) e * Qabs (snd (fst b, (snd b * s)%Q))) (combine cs ks)
     == s * sumQ (fun b : nat * Q => amt C (fst b) e * Qabs (snd b)) (combine cs ks))%Q).
  { rewrite <- sumQ_scale_l. apply sumQ_ext. intros [c k] _. cbn [fst snd].
    rewrite Qabs_Qmult, (Qabs_pos s) by lra. ring. }
  rewrite E. field.
Qed.

Lemma el_amount_nonneg (W : wf_chem C) r e : (0 <= get_el_amount C r e)%Q.
Proof.
  unfold get_el_amount. rewrite Qsum_map.
  assert (H : (0 <= sumQ (fun ck => amt C (fst ck) e * Qabs (snd ck)) (combine (comps r) (coeffs r)))%Q).
  { apply sumQ_nonneg. intros [c k] _. cbn [fst snd]. apply Qmult_le_0_compat; [|apply Qabs_nonneg].
    destruct (in_dec Nat.eq_dec e (elems C c)) as [Hin|Hout].
    - apply Qlt_le_weak, (wf_pos C W), Hin.
    - rewrite (wf_zero C W) by assumption. apply Qle_refl. }
  apply Qle_shift_div_l; lra.
Qed.
End Ops.

Theorem el_amount_sides C r e : conserving C r -> (get_el_amount C r e == produced C (species r) e)%Q /\ (get_el_amount C r e == consumed C (species r) e)%Q.
Proof.
  intros H. specialize (H e). unfold get_el_amount, species in *. rewrite Qsum_sumQ, sumQ_map. unfold net, produced, consumed in *. set (l := combine (comps r) (coeffs r)) in *.
  assert (E : (sumQ (fun ck => amt C (fst ck) e * Qabs (snd ck)) l == sumQ (fun ck => if Qlt_bool 0 (snd ck) then amt C (fst ck) e * snd ck else 0) l + sumQ (fun ck => if Qlt_bool (snd ck) 0 then amt C (fst ck) e * - snd ck else 0) l)%Q
    /\ (sumQ (fun ck => amt C (fst ck) e * snd ck) l == sumQ (fun ck => if Qlt_bool 0 (snd ck) then amt C (fst ck) e * snd ck else 0) l - sumQ (fun ck => if Qlt_bool (snd ck) 0 then amt C (fst ck) e * - snd ck else 0) l)%Q).
  { clear H. clearbody l. induction l as [|[c k] l [IH1 IH2]]; [split; reflexivity|]. rewrite !sumQ_cons, IH1, IH2. cbn [fst snd].
    destruct (Qlt_bool 0 k) eqn:E1, (Qlt_bool k 0) eqn:E2; try apply Qlt_bool_iff' in E1; try apply Qlt_bool_iff' in E2; try apply Qlt_bool_false in E1; try apply Qlt_bool_false in E2.
    - exfalso. lra.
    - rewrite (Qabs_pos k) by lra. split; ring.
    - rewrite (Qabs_neg k) by lra. split; ring.
    - assert (E : (k == 0)%Q) by lra. rewrite E. change (Qabs 0) with 0%Q. split; ring. }
  destruct E as [E1 E2]. rewrite E1. rewrite E2 in H. unfold Qdiv. change (/ 2)%Q with (1 # 2)%Q. split; lra.
Qed.
