(* Proofs about rounding. *)
From Coq Require Import Lia Lqa Qpower Qround Qreduction.
From Verif Require Import Prelude NumQ SumQ UtilsModel UtilsProofs ReactionModel ReactionSpec ReactionBaseProofs ReactionBalanceProofs ReactionOpsProofs RoundModel RoundSpec.
Open Scope nat_scope.

(* --- sums --- *)
Section Sums.
Variables u v h : Q.
Hypothesis U : (0 <= u)%Q.
Hypothesis V : (0 <= v)%Q.
Hypothesis H0 : (0 <= h)%Q.
Fixpoint grow (n : nat) : Q := match n with O => 1 + v | S m => grow m * (1 + u) end%Q.
Fixpoint lost (n : nat) : Q := match n with O => 0 | S m => (lost m + h) * (1 + u) + h end%Q.
Lemma grow_ge n : (1 + v <= grow n)%Q.
Proof. induction n as [|n IH]; [apply Qle_refl|]. cbn [grow]. assert ((0 <= grow n * u)%Q) by (apply Qmult_le_0_compat; lra). lra. Qed.
Lemma lost_ge n : (0 <= lost n)%Q.
Proof. induction n as [|n IH]; [apply Qle_refl|]. cbn [lost]. assert ((0 <= (lost n + h) * u)%Q) by (apply Qmult_le_0_compat; lra). lra. Qed.

Lemma sum_error {A} (step : Q -> A -> Q) (w : A -> Q) (l : list A) :
  (forall acc x, In x l -> ((w x == 0)%Q /\ step acc x = acc) \/ exists t, (Qabs (t - w x) <= v * Qabs (w x) + h)%Q /\ (Qabs (step acc x - (acc + t)) <= u * Qabs (acc + t) + h)%Q) ->
  forall acc s t i, (Qabs s <= t)%Q -> (Qabs (acc - s) <= (grow i - 1) * t + lost i)%Q ->
  (Qabs (fold_left step l acc - (s + sumQ w l)) <= (grow (i + length l) - 1) * (t + sumQ (fun x => Qabs (w x)) l) + lost (i + length l))%Q.
Proof.
  induction l as [|x l IH]; intros St acc s t i Hs Ha.
  - cbn [fold_left length]. rewrite Nat.add_0_r. change (sumQ w []) with 0%Q. change (sumQ (fun x => Qabs (w x)) []) with 0%Q.
    setoid_replace (acc - (s + 0))%Q with (acc - s)%Q by ring. setoid_replace (t + 0)%Q with t by ring. exact Ha.
  - cbn [fold_left length]. rewrite !sumQ_cons. replace (i + S (length l)) with (S i + length l) by lia.
    setoid_replace (s + (w x + sumQ w l))%Q with ((s + w x) + sumQ w l)%Q by ring.
    setoid_replace (t + (Qabs (w x) + sumQ (fun x => Qabs (w x)) l))%Q with ((t + Qabs (w x)) + sumQ (fun x => Qabs (w x)) l)%Q by ring.
    pose proof (grow_ge i) as G. pose proof (lost_ge i) as L. pose proof (Qabs_nonneg (w x)) as Wn. pose proof (Qabs_nonneg s) as Sn.
    apply IH; [intros a y I; apply St; right; exact I| |].
    + eapply Qle_trans; [apply Qabs_triangle|]. lra.
    + assert (B : (forall y, Qabs (y - (s + w x)) <= (grow i - 1) * (t + Qabs (w x)) + lost i + h -> Qabs y <= grow i * (t + Qabs (w x)) + lost i + h)%Q).
      { intros y Hy. setoid_replace y with ((y - (s + w x)) + (s + w x))%Q by ring. eapply Qle_trans; [apply Qabs_triangle|]. pose proof (Qabs_triangle s (w x)). lra. }
      cbn [grow lost]. destruct (St acc x (or_introl eq_refl)) as [[Z ->]|(t' & T & Ac)].
      * assert (Ew : (Qabs (w x) == 0)%Q) by (rewrite Z; reflexivity).
        setoid_replace (acc - (s + w x))%Q with (acc - s)%Q by (rewrite Z; ring). rewrite Ew.
        assert ((0 <= grow i * t * u)%Q) by (apply Qmult_le_0_compat; [apply Qmult_le_0_compat|]; lra). assert ((0 <= (lost i + h) * u)%Q) by (apply Qmult_le_0_compat; lra). lra.
      * assert (E1 : (Qabs ((acc + t') - (s + w x)) <= (grow i - 1) * (t + Qabs (w x)) + lost i + h)%Q).
        { setoid_replace (acc + t' - (s + w x))%Q with ((acc - s) + (t' - w x))%Q by ring. eapply Qle_trans; [apply Qabs_triangle|].
          assert ((0 <= (grow i - 1 - v) * Qabs (w x))%Q) by (apply Qmult_le_0_compat; lra). lra. }
        pose proof (B _ E1) as E2. assert (E3 : (u * Qabs (acc + t') <= u * (grow i * (t + Qabs (w x)) + lost i + h))%Q) by (rewrite !(Qmult_comm u); apply Qmult_le_compat_r; assumption).
        setoid_replace (step acc x - (s + w x))%Q with ((step acc x - (acc + t')) + ((acc + t') - (s + w x)))%Q by ring. eapply Qle_trans; [apply Qabs_triangle|]. lra.
Qed.

Lemma grow_small n : (v <= 4 * u)%Q -> ((4 + 2 * inject_Z (Z.of_nat n)) * u <= 1)%Q -> (grow n <= 1 + (4 + 2 * inject_Z (Z.of_nat n)) * u)%Q.
Proof.
  intros Hv. induction n as [|n IH]; intros Hn; [cbn [grow]; change (inject_Z (Z.of_nat 0)) with 0%Q; lra|].
  replace (Z.of_nat (S n)) with (Z.of_nat n + 1)%Z in * by lia. rewrite inject_Z_plus in *. change (inject_Z 1) with 1%Q in *. set (q := inject_Z (Z.of_nat n)) in *.
  assert (Hq : ((4 + 2 * q) * u <= 1)%Q) by lra. specialize (IH Hq). cbn [grow].
  assert ((grow n * u <= (1 + (4 + 2 * q) * u) * u)%Q) by (apply Qmult_le_compat_r; assumption).
  assert (((4 + 2 * q) * u * u <= 1 * u)%Q) by (apply Qmult_le_compat_r; assumption). lra.
Qed.
Lemma lost_small n : (u * (4 * inject_Z (Z.of_nat n)) <= 1)%Q -> (u <= 1)%Q -> (lost n <= 4 * inject_Z (Z.of_nat n) * h)%Q.
Proof.
  intros Hn Hu. induction n as [|n IH]; [cbn [lost]; change (inject_Z (Z.of_nat 0)) with 0%Q; lra|].
  replace (Z.of_nat (S n)) with (Z.of_nat n + 1)%Z in * by lia. rewrite inject_Z_plus in *. change (inject_Z 1) with 1%Q in *. set (q := inject_Z (Z.of_nat n)) in *.
  assert (Hq : (u * (4 * q) <= 1)%Q) by lra. specialize (IH Hq). cbn [lost].
  assert (((lost n + h) * u <= (4 * q * h + h) * u)%Q) by (apply Qmult_le_compat_r; lra).
  assert (((u * (4 * q)) * h <= 1 * h)%Q) by (apply Qmult_le_compat_r; assumption). assert ((u * h <= 1 * h)%Q) by (apply Qmult_le_compat_r; assumption). lra.
Qed.
End Sums.

(* --- one rounding --- *)
Notation unit := (1 # 9007199254740992)%Q.
Section One.
Variable fl : Q -> Q.
Hypothesis R : rounds fl.

Lemma keep_near x : (Qabs (keep x - x) <= 1 # 100000000)%Q.
Proof.
  unfold keep. destruct (Qlt_bool (Qabs x) (1 # 100000000)) eqn:E; [apply Qlt_bool_iff' in E|].
  - setoid_replace (0 - x)%Q with (- x)%Q by ring. rewrite Qabs_opp. lra.
  - setoid_replace (x - x)%Q with 0%Q by ring. discriminate.
Qed.
Lemma keep_fl x : (Qabs (keep (fl x) - x) <= unit * Qabs x + (1 # 100000000))%Q.
Proof.
  setoid_replace (keep (fl x) - x)%Q with ((keep (fl x) - fl x) + (fl x - x))%Q by ring. eapply Qle_trans; [apply Qabs_triangle|]. pose proof (keep_near (fl x)). pose proof (R x). lra.
Qed.
Lemma fl_upper x : (Qabs (fl x) <= (1 + unit) * Qabs x)%Q.
Proof. setoid_replace (fl x) with ((fl x - x) + x)%Q by ring. eapply Qle_trans; [apply Qabs_triangle|]. pose proof (R x). lra. Qed.
Lemma fl_lower x : ((1 - unit) * Qabs x <= Qabs (fl x))%Q.
Proof.
  assert (H : (Qabs x <= Qabs (fl x) + Qabs (fl x - x))%Q).
  { setoid_replace (Qabs (fl x - x))%Q with (Qabs (x - fl x))%Q by (rewrite <- Qabs_opp; apply Qabs_wd; ring). setoid_replace x with (fl x + (x - fl x))%Q at 1 by ring. apply Qabs_triangle. }
  pose proof (R x). lra.
Qed.

Variable C : chem.
Hypothesis W : wf_chem C.
Notation part e := (fun kv : nat * Q => (amt C (fst kv) e * Qabs (snd kv))%Q).
Lemma amt_nonneg c e : (0 <= amt C c e)%Q.
Proof. destruct (in_dec Nat.eq_dec e (elems C c)) as [H|H]; [apply Qlt_le_weak, (wf_pos C W); exact H|rewrite (wf_zero C W c e H); apply Qle_refl]. Qed.
Lemma part_abs e kv : (Qabs (part e kv) == part e kv)%Q.
Proof. apply Qabs_pos. apply Qmult_le_0_compat; [apply amt_nonneg|apply Qabs_nonneg]. Qed.
Lemma total_near d e : length d <= 20 ->
  (Qabs (rounded_total fl C d e - sumQ (part e) d) <= (44 * unit) * sumQ (part e) d + 4 * inject_Z (Z.of_nat (length d)) * (1 # 100000000))%Q.
Proof.
  intros L. unfold rounded_total.
  set (step := fun acc (kv : nat * Q) => if memb Nat.eqb e (elems C (fst kv)) then keep (fl (acc + keep (fl (amt C (fst kv) e * Qabs (snd kv))))%Q) else acc).
  assert (St : forall acc x, In x d -> ((part e x == 0)%Q /\ step acc x = acc) \/ exists t, (Qabs (t - part e x) <= unit * Qabs (part e x) + (1 # 100000000))%Q /\ (Qabs (step acc x - (acc + t)) <= unit * Qabs (acc + t) + (1 # 100000000))%Q).
  { intros acc x _. unfold step. destruct (memb Nat.eqb e (elems C (fst x))) eqn:M.
    - right. exists (keep (fl (part e x))). split; apply keep_fl.
    - left. split; [|reflexivity]. apply memb_false in M. rewrite (wf_zero C W _ _ M). ring. }
  assert (P := sum_error unit unit (1 # 100000000) ltac:(lra) ltac:(lra) ltac:(lra) step (part e) d St 0%Q 0%Q 0%Q 0 ltac:(discriminate) ltac:(vm_compute; discriminate)).
  setoid_replace (0 + sumQ (part e) d)%Q with (sumQ (part e) d) in P by ring.
  assert (Ea : (0 + sumQ (fun x => Qabs (part e x)) d == sumQ (part e) d)%Q) by (rewrite Qplus_0_l; apply sumQ_ext; intros x _; apply part_abs). rewrite Ea in P. cbn [Nat.add] in P.
  assert (Sn : (0 <= sumQ (part e) d)%Q) by (apply sumQ_nonneg; intros x _; apply Qmult_le_0_compat; [apply amt_nonneg|apply Qabs_nonneg]).
  assert (Ln : (inject_Z (Z.of_nat (length d)) <= 20)%Q) by (change 20%Q with (inject_Z (Z.of_nat 20)); rewrite <- Zle_Qle; lia).
  pose proof (grow_small unit unit ltac:(lra) ltac:(lra) (length d) ltac:(lra) ltac:(lra)) as G.
  pose proof (lost_small unit (1 # 100000000) ltac:(lra) ltac:(lra) (length d) ltac:(lra) ltac:(lra)) as Lo.
  eapply Qle_trans; [exact P|]. assert (((grow unit unit (length d) - 1) * sumQ (part e) d <= (44 * unit) * sumQ (part e) d)%Q) by (apply Qmult_le_compat_r; [lra|exact Sn]). lra.
Qed.
Lemma fl_tol x : (0 <= x)%Q -> ((1 - unit) * x <= fl x)%Q /\ (fl x <= (1 + unit) * x)%Q.
Proof. intros P. pose proof (R x) as H. rewrite (Qabs_pos x P) in H. apply Qabs_Qle_condition in H. lra. Qed.
Lemma filters_length (l : list (nat * Q)) : length (filter (fun kv => Qlt_bool (snd kv) 0) l) + length (filter (fun kv => Qlt_bool 0 (snd kv)) l) <= length l.
Proof.
  induction l as [|[c k] l IH]; [apply le_n|]. cbn [filter snd]. destruct (Qlt_bool k 0) eqn:A, (Qlt_bool 0 k) eqn:B; cbn [length]; try lia.
  apply Qlt_bool_iff' in A, B. exfalso. lra.
Qed.

Section Flag.
Variable l : list (nat * Q).
Hypothesis L : length l <= 20.
Hypothesis M : forall e, (produced C l e <= 1000000 /\ consumed C l e <= 1000000)%Q.
Notation neg := (filter (fun kv : nat * Q => Qlt_bool (snd kv) 0) l).
Notation pos := (filter (fun kv : nat * Q => Qlt_bool 0 (snd kv)) l).
Lemma totals_near e : (Qabs ((rounded_total fl C pos e - rounded_total fl C neg e) - (produced C l e - consumed C l e)) <= 81 # 100000000)%Q.
Proof.
  pose proof (filters_length l) as F. pose proof (total_near neg e ltac:(lia)) as N. pose proof (total_near pos e ltac:(lia)) as P. destruct (M e) as [Mp Mc].
  assert (En : (sumQ (part e) neg == consumed C l e)%Q) by (rewrite <- side_total_neg; unfold side_total; rewrite Qsum_map; reflexivity).
  assert (Ep : (sumQ (part e) pos == produced C l e)%Q) by (rewrite <- side_total_pos; unfold side_total; rewrite Qsum_map; reflexivity).
  rewrite En in N. rewrite Ep in P.
  assert (Ln : (inject_Z (Z.of_nat (length neg)) + inject_Z (Z.of_nat (length pos)) <= 20)%Q) by (rewrite <- inject_Z_plus; change 20%Q with (inject_Z 20); rewrite <- Zle_Qle; lia).
  setoid_replace (rounded_total fl C pos e - rounded_total fl C neg e - (produced C l e - consumed C l e))%Q with ((rounded_total fl C pos e - produced C l e) + - (rounded_total fl C neg e - consumed C l e))%Q by ring.
  eapply Qle_trans; [apply Qabs_triangle|]. rewrite Qabs_opp. lra.
Qed.
Lemma flag_conserving : (forall e, (Qabs (produced C l e - consumed C l e) <= 1 # 10000000)%Q) -> rounded_equal fl C neg pos = true.
Proof.
  intros E. apply forallb_forall. intros e _. apply Qle_bool_iff. pose proof (totals_near e) as T. specialize (E e).
  assert (D : (Qabs (rounded_total fl C pos e - rounded_total fl C neg e) <= 91 # 100000000)%Q).
  { setoid_replace (rounded_total fl C pos e - rounded_total fl C neg e)%Q with ((rounded_total fl C pos e - rounded_total fl C neg e - (produced C l e - consumed C l e)) + (produced C l e - consumed C l e))%Q by ring. eapply Qle_trans; [apply Qabs_triangle|]. lra. }
  pose proof (fl_upper (rounded_total fl C pos e - rounded_total fl C neg e)) as Up. pose proof (fl_tol (1 # 1000000) ltac:(discriminate)) as [To _]. lra.
Qed.
Lemma flag_near : rounded_equal fl C neg pos = true -> forall e, (Qabs (produced C l e - consumed C l e) <= 2 # 1000000)%Q.
Proof.
  intros F e. unfold rounded_equal in F. rewrite forallb_forall in F.
  destruct (in_dec Nat.eq_dec e (dict_elems C neg ++ dict_elems C pos)) as [I|I].
  - specialize (F e I). apply Qle_bool_iff in F. pose proof (totals_near e) as T. pose proof (fl_lower (rounded_total fl C pos e - rounded_total fl C neg e)) as Lo. pose proof (fl_tol (1 # 1000000) ltac:(discriminate)) as [_ To].
    setoid_replace (produced C l e - consumed C l e)%Q with ((rounded_total fl C pos e - rounded_total fl C neg e) + - ((rounded_total fl C pos e - rounded_total fl C neg e) - (produced C l e - consumed C l e)))%Q by ring.
    eapply Qle_trans; [apply Qabs_triangle|]. rewrite Qabs_opp. lra.
  - assert (Z : (consumed C l e == 0 /\ produced C l e == 0)%Q).
    { rewrite <- side_total_neg, <- side_total_pos. unfold side_total. rewrite !Qsum_map. split; apply sumQ_all_zero; intros x Ix; rewrite (wf_zero C W); [ring| |ring|]; intros J; apply I; apply in_or_app; [left|right]; apply in_flat_map; exists x; split; assumption. }
    destruct Z as [-> ->]. discriminate.
Qed.
End Flag.
Lemma rounded_flag_lists cs ks : NoDup cs -> length cs = length ks ->
  rounded_flag fl C cs ks = rounded_equal fl C (filter (fun kv => Qlt_bool (snd kv) 0) (combine cs ks)) (filter (fun kv => Qlt_bool 0 (snd kv)) (combine cs ks)).
Proof.
  intros Hn Hl. pose proof (reactant_coeffs_nodup C cs ks None None Hn Hl) as E1. pose proof (product_coeffs_nodup C cs ks None None Hn Hl) as E2. cbn in E1, E2. unfold rounded_flag. cbv zeta. rewrite E1, E2. reflexivity.
Qed.
Theorem flag_rounded cs ks : NoDup cs -> length cs = length ks -> length cs <= 20 ->
  (forall e, (produced C (combine cs ks) e <= 1000000 /\ consumed C (combine cs ks) e <= 1000000)%Q) ->
  ((forall e, (Qabs (produced C (combine cs ks) e - consumed C (combine cs ks) e) <= 1 # 10000000)%Q) -> rounded_flag fl C cs ks = true)
  /\ (rounded_flag fl C cs ks = true -> forall e, (Qabs (produced C (combine cs ks) e - consumed C (combine cs ks) e) <= 2 # 1000000)%Q).
Proof.
  intros Hn Hl L M. rewrite (rounded_flag_lists cs ks Hn Hl). assert (Lc : length (combine cs ks) <= 20) by (rewrite combine_length; lia). split; [apply flag_conserving; assumption|apply flag_near; assumption].
Qed.
End One.

(* --- energies --- *)
Section Energy.
Variable fl : Q -> Q.
Variable C : chem.
Notation share e := (e_energy e / fac C (e_comp e))%Q.
Definition least (es : list entry) (c : nat) (w : Q) : Prop :=
  (exists e, In e es /\ red C (e_comp e) = c /\ w = fl (share e)) /\ forall e, In e es -> red C (e_comp e) = c -> (w <= fl (share e))%Q.
Lemma rounded_energies_spec es : forall c, (dict_get c (rounded_energies fl C es) = None /\ ~ In c (map (fun e => red C (e_comp e)) es))
   \/ (exists v, dict_get c (rounded_energies fl C es) = Some v /\ least es c v).
Proof.
  unfold rounded_energies.
  cut (forall done d, (forall c, (dict_get c d = None /\ ~ In c (map (fun e => red C (e_comp e)) done))
       \/ (exists v, dict_get c d = Some v /\ least done c v)) ->
    forall c, let d' := fold_left (fun d e =>
      let comp := red C (e_comp e) in let v := fl (share e) in
      dict_set comp (match dict_get comp d with None => v | Some w => if Qlt_bool v w then v else w end) d) es d in
     (dict_get c d' = None /\ ~ In c (map (fun e => red C (e_comp e)) (done ++ es)))
       \/ (exists v, dict_get c d' = Some v /\ least (done ++ es) c v)).
  { intros H c. apply (H [] []). intros c'. left. split; [reflexivity|intros []]. }
  induction es as [|e es IH]; intros done d Hd c; cbn zeta.
  - rewrite app_nil_r. apply Hd.
  - replace (done ++ e :: es) with ((done ++ [e]) ++ es) by (rewrite <- app_assoc; reflexivity).
    apply IH. clear c IH. intros c. rewrite dict_get_set. destruct (Nat.eqb_spec c (red C (e_comp e))) as [->|Hne].
    + right. eexists. split; [reflexivity|]. destruct (Hd (red C (e_comp e))) as [[-> Hno]|(w & -> & (e0 & He0 & Hr0 & Hv0) & Hlow)].
      * split.
        { exists e. split; [apply in_or_app; right; left; reflexivity|]. split; reflexivity. }
        { intros e' He' Hr. apply in_app_or in He' as [He'|[<-|[]]]; [|apply Qle_refl].
          exfalso. apply Hno. rewrite <- Hr. apply (in_map (fun e => red C (e_comp e))). assumption. }
      * destruct (Qlt_bool (fl (share e)) w) eqn:E.
        { apply Qlt_bool_iff' in E. split.
          - exists e. split; [apply in_or_app; right; left; reflexivity|]. split; reflexivity.
          - intros e' He' Hr. apply in_app_or in He' as [He'|[<-|[]]]; [|apply Qle_refl].
            specialize (Hlow e' He' Hr). lra. }
        { apply Qlt_bool_false in E. split.
          - exists e0. split; [apply in_or_app; left; assumption|]. split; assumption.
          - intros e' He' Hr. apply in_app_or in He' as [He'|[<-|[]]]; [auto|assumption]. }
    + destruct (Hd c) as [[-> Hno]|(w & -> & (e0 & He0 & Hr0 & Hv0) & Hlow)].
      * left. split; [reflexivity|]. rewrite map_app, in_app_iff. simpl. intros [H|[H|[]]]; [auto|congruence].
      * right. exists w. split; [reflexivity|]. split.
        { exists e0. split; [apply in_or_app; left; assumption|]. split; assumption. }
        { intros e' He' Hr. apply in_app_or in He' as [He'|[<-|[]]]; [auto|congruence]. }
Qed.

Lemma fold_left_mapped {A B} (f : B -> A) (g : Q -> A -> Q) l acc : fold_left g (map f l) acc = fold_left (fun a x => g a (f x)) l acc.
Proof. revert acc. induction l as [|x l IH]; intros acc; [reflexivity|apply IH]. Qed.
Definition cheap es c := value (rounded_energies fl C es) c.
Lemma rounded_value es ks n : let cs := map (fun e => red C (e_comp e)) es in
  rounded_energy fl C (computed_init C es ks n) = Ok (fold_left (fun acc kc => fl (acc + fl (fst kc * cheap es (snd kc))))%Q (combine ks cs) 0%Q)
  /\ forall c, In c cs -> least es c (cheap es c).
Proof.
  cbv zeta. assert (V : forall c, In c (map (fun e => red C (e_comp e)) es) -> dict_get c (rounded_energies fl C es) = Some (cheap es c) /\ least es c (cheap es c)).
  { intros c I. unfold cheap, value. destruct (rounded_energies_spec es c) as [[_ N]|(v & -> & L)]; [contradiction|]. split; [reflexivity|exact L]. }
  split; [|intros c I; apply V; exact I]. unfold rounded_energy, computed_init. cbn [c_base c_entries coeffs comps basic_init].
  rewrite (mapM_map_Ok _ (fun kc => fl (fst kc * cheap es (snd kc)))%Q).
  - cbn [bind]. rewrite fold_left_mapped. reflexivity.
  - intros [k c] I. cbn [fst snd]. apply in_combine_r in I. destruct (V c I) as [-> _]. reflexivity.
Qed.

Section Near.
Hypothesis R : rounds fl.
Lemma least_near es c v w : lowest C e_energy es c v -> least es c w -> (Qabs (w - v) <= unit * Qabs v)%Q.
Proof.
  intros [(e & I & Er & Ev) Hl] [(e' & I' & Er' & Ew) Hw]. specialize (Hl e' I' Er'). specialize (Hw e I Er). subst w.
  pose proof (R (share e)) as A. pose proof (R (share e')) as B. apply Qabs_Qle_condition in A, B. rewrite Qabs_Qle_condition.
  assert (Ea : (Qabs v == Qabs (share e))%Q) by (apply Qabs_wd; exact Ev).
  assert (Eq : (fl (share e') <= v + unit * Qabs v)%Q) by lra.
  assert (Lo : (share e' - unit * Qabs (share e') >= v - unit * Qabs v)%Q).
  { assert (Hd : (Qabs (share e') <= Qabs v + (share e' - v))%Q).
    { setoid_replace (share e') with (v + (share e' - v))%Q at 1 by ring. eapply Qle_trans; [apply Qabs_triangle|]. rewrite (Qabs_pos (share e' - v)) by lra. lra. }
    lra. }
  lra.
Qed.
Theorem energy_rounded es ks n : length es <= 1000 ->
  exists x x' g, computed_energy C (computed_init C es ks n) = Ok x /\ rounded_energy fl C (computed_init C es ks n) = Ok x'
  /\ (forall c, In c (comps (c_base (computed_init C es ks n))) -> lowest C e_energy es c (g c))
  /\ (Qabs (x' - x) <= (1 # 1000000000000) * sumQ (fun ck => Qabs (snd ck * g (fst ck))) (species (c_base (computed_init C es ks n))))%Q.
Proof.
  intros L. destruct (computed_energy_spec C es ks n) as (x & g & E & Ex & Lg). destruct (rounded_value es ks n) as [E' Lw]. eexists x, _, g. split; [exact E|]. split; [exact E'|]. split; [exact Lg|].
  unfold species, computed_init in *. cbn [c_base comps coeffs basic_init] in *. set (cs := map (fun e => red C (e_comp e)) es) in *.
  set (w := fun kc : Q * nat => (fst kc * g (snd kc))%Q).
  assert (Ew : (x == sumQ w (combine ks cs))%Q) by (rewrite Ex, (combine_swap cs ks), sumQ_map; reflexivity).
  assert (Ea : (sumQ (fun ck => Qabs (snd ck * g (fst ck))) (combine cs ks) == sumQ (fun kc => Qabs (w kc)) (combine ks cs))%Q) by (rewrite (combine_swap cs ks), sumQ_map; reflexivity).
  rewrite Ea. set (step := fun acc (kc : Q * nat) => fl (acc + fl (fst kc * cheap es (snd kc)))%Q).
  assert (St : forall acc kc, In kc (combine ks cs) -> ((w kc == 0)%Q /\ step acc kc = acc) \/ exists t, (Qabs (t - w kc) <= (4 * unit) * Qabs (w kc) + 0)%Q /\ (Qabs (step acc kc - (acc + t)) <= unit * Qabs (acc + t) + 0)%Q).
  { intros acc [k c] I. right. exists (fl (k * cheap es c)%Q). unfold step, w. cbn [fst snd]. split; [|pose proof (R (acc + fl (k * cheap es c)%Q)%Q); lra].
    apply in_combine_r in I. pose proof (least_near es c _ _ (Lg c I) (Lw c I)) as N. pose proof (R (k * cheap es c)%Q) as A.
    assert (B : (Qabs (k * cheap es c - k * g c) <= unit * Qabs (k * g c))%Q).
    { setoid_replace (k * cheap es c - k * g c)%Q with (k * (cheap es c - g c))%Q by ring. rewrite !Qabs_Qmult. setoid_replace (unit * (Qabs k * Qabs (g c)))%Q with (Qabs k * (unit * Qabs (g c)))%Q by ring. rewrite !(Qmult_comm (Qabs k)). apply Qmult_le_compat_r; [exact N|apply Qabs_nonneg]. }
    assert (D : (Qabs (k * cheap es c) <= Qabs (k * g c) + Qabs (k * cheap es c - k * g c))%Q).
    { setoid_replace (k * cheap es c)%Q with (k * g c + (k * cheap es c - k * g c))%Q at 1 by ring. apply Qabs_triangle. }
    setoid_replace (fl (k * cheap es c) - k * g c)%Q with ((fl (k * cheap es c) - k * cheap es c) + (k * cheap es c - k * g c))%Q by ring. eapply Qle_trans; [apply Qabs_triangle|]. pose proof (Qabs_nonneg (k * g c)%Q). lra. }
  assert (P := sum_error unit (4 * unit) 0 ltac:(lra) ltac:(lra) ltac:(lra) step w (combine ks cs) St 0%Q 0%Q 0%Q 0 ltac:(discriminate) ltac:(vm_compute; discriminate)).
  setoid_replace (0 + sumQ w (combine ks cs))%Q with (sumQ w (combine ks cs)) in P by ring. rewrite <- Ew in P. rewrite Qplus_0_l in P. cbn [Nat.add] in P.
  assert (Ln : length (combine ks cs) <= 1000) by (rewrite combine_length; unfold cs; rewrite map_length; lia).
  assert (Lq : (inject_Z (Z.of_nat (length (combine ks cs))) <= 1000)%Q) by (change 1000%Q with (inject_Z (Z.of_nat 1000)); rewrite <- Zle_Qle; lia).
  pose proof (grow_small unit (4 * unit) ltac:(lra) ltac:(lra) (length (combine ks cs)) ltac:(lra) ltac:(lra)) as G.
  pose proof (lost_small unit 0 ltac:(lra) ltac:(lra) (length (combine ks cs)) ltac:(lra) ltac:(lra)) as Lo.
  assert (Sn : (0 <= sumQ (fun kc => Qabs (w kc)) (combine ks cs))%Q) by (apply sumQ_nonneg; intros kc _; apply Qabs_nonneg).
  eapply Qle_trans; [exact P|]. assert (((grow unit (4 * unit) (length (combine ks cs)) - 1) * sumQ (fun kc => Qabs (w kc)) (combine ks cs) <= (1 # 1000000000000) * sumQ (fun kc => Qabs (w kc)) (combine ks cs))%Q) by (apply Qmult_le_compat_r; [lra|exact Sn]). lra.
Qed.
End Near.

(* The energy of the reverse is exactly the negative. *)
Hypothesis H : even_handed fl.
Lemma fold_opposite l : forall a b ga gb, (a == - b)%Q -> (forall kc : Q * nat, ga kc == - gb kc)%Q ->
  (fold_left (fun acc kc => fl (acc + ga kc)) l a == - fold_left (fun acc kc => fl (acc + gb kc)) l b)%Q.
Proof.
  destruct H as [Hp Ho]. induction l as [|kc l IH]; intros a b ga gb E Eg; [exact E|]. cbn [fold_left]. apply IH; [|exact Eg].
  rewrite <- Ho. apply Hp. rewrite E, Eg. ring.
Qed.
Theorem reverse_rounded es ks n : exists x x', rounded_energy fl C (computed_init C es ks n) = Ok x /\ rounded_energy fl C (computed_reverse C (computed_init C es ks n)) = Ok x' /\ (x' == - x)%Q.
Proof.
  destruct (rounded_value es ks n) as [E _]. unfold computed_reverse. cbn [c_entries c_base computed_init coeffs basic_init num_errors]. 
  destruct (rounded_value es (map (fun q => -1 * q)%Q ks) n) as [E' _]. eexists _, _. split; [exact E|]. split; [exact E'|]. destruct H as [Hp Ho].
  set (cs := map (fun e => red C (e_comp e)) es). assert (Ec : combine (map (fun q => -1 * q)%Q ks) cs = map (fun kc => (-1 * fst kc, snd kc)%Q) (combine ks cs)).
  { generalize cs. clear. induction ks as [|k l IH]; intros [|c cs]; cbn; [reflexivity..|]. rewrite IH. reflexivity. }
  rewrite Ec, fold_left_mapped. apply (fold_opposite (combine ks cs) 0%Q 0%Q (fun kc => fl (-1 * fst kc * cheap es (snd kc))%Q) (fun kc => fl (fst kc * cheap es (snd kc))%Q)); [reflexivity|].
  intros kc. rewrite <- Ho. apply Hp. ring.
Qed.
End Energy.

(* --- multiples --- *)
Section Multiples.
Variable fl : Q -> Q.
Hypothesis R : rounds fl.
Lemma ratio_near t a b : (0 < t)%Q -> ~ (a == 0)%Q -> (Qabs (b - t * a) <= (1 # 1000000) * Qabs (t * a))%Q -> (Qabs (fl (b / a) - t) <= (11 # 10000000) * t)%Q.
Proof.
  intros T N B. assert (E : (Qabs (b / a - t) <= (1 # 1000000) * t)%Q).
  { assert (Ea : (Qabs (b / a - t) * Qabs a == Qabs (b - t * a))%Q) by (rewrite <- Qabs_Qmult; apply Qabs_wd; field; exact N).
    assert (Ap : (0 < Qabs a)%Q).
    { destruct (Qle_lt_or_eq 0 (Qabs a) (Qabs_nonneg a)) as [P|P]; [exact P|]. exfalso. apply N. pose proof (Qle_Qabs a) as H1. pose proof (Qle_Qabs (- a)) as H2. rewrite Qabs_opp in H2. lra. }
    rewrite Qabs_Qmult, (Qabs_pos t) in B by lra. apply (Qmult_le_r _ _ (Qabs a) Ap). rewrite Ea. lra. }
  pose proof (R (b / a)%Q) as F. assert (U : (Qabs (b / a) <= t + Qabs (b / a - t))%Q).
  { setoid_replace (b / a)%Q with (t + (b / a - t))%Q at 1 by ring. eapply Qle_trans; [apply Qabs_triangle|]. rewrite (Qabs_pos t) by lra. apply Qle_refl. }
  setoid_replace (fl (b / a) - t)%Q with ((fl (b / a) - b / a) + (b / a - t))%Q by ring. eapply Qle_trans; [apply Qabs_triangle|]. lra.
Qed.
Lemma close_near t x y : (0 < t)%Q -> (Qabs (x - t) <= (11 # 10000000) * t)%Q -> (Qabs (y - t) <= (11 # 10000000) * t)%Q -> rounded_close fl (Qabs x) y = true.
Proof.
  intros T X Y. apply Qabs_Qle_condition in X, Y. unfold rounded_close. apply Qle_bool_iff.
  assert (Ez : (Qabs y == y)%Q) by (apply Qabs_pos; lra). set (z := Qabs y) in *.
  assert (Ex : (Qabs x == x)%Q) by (apply Qabs_pos; lra).
  assert (D : (Qabs (Qabs x - y) <= (22 # 10000000) * t)%Q) by (apply Qabs_Qle_condition; lra).
  pose proof (R (Qabs x - y)%Q) as F1. pose proof (fl_upper fl R (Qabs x - y)%Q) as F2.
  destruct (fl_tol fl R (1 # 100000000) ltac:(discriminate)) as [A _]. destruct (fl_tol fl R (1 # 100000) ltac:(discriminate)) as [B _].
  assert (By : ((99 # 10000000) * z <= fl (1 # 100000) * z)%Q) by (apply Qmult_le_compat_r; lra).
  destruct (fl_tol fl R (fl (1 # 100000) * z) ltac:(lra)) as [Cc _].
  destruct (fl_tol fl R (fl (1 # 100000000) + fl (fl (1 # 100000) * z)) ltac:(lra)) as [Dd _]. lra.
Qed.
Theorem multiple_rounded t r row : (0 < t)%Q -> length r = length row -> (forall a, In a row -> ~ (a == 0)%Q) ->
  Forall2 (fun b a => (Qabs (b - t * a) <= (1 # 1000000) * Qabs (t * a))%Q) r row -> rounded_multiple fl r row = true.
Proof.
  intros T _ N F. assert (G : Forall2 (fun b a => (Qabs (fl (b / a) - t) <= (11 # 10000000) * t)%Q) r row).
  { clear - R T N F. induction F as [|b a r row B F IH]; constructor; [apply ratio_near; [exact T|apply N; left; reflexivity|exact B]|]. apply IH. intros x I. apply N. right. exact I. }
  unfold rounded_multiple. destruct r as [|b r], row as [|a row]; [reflexivity|reflexivity|reflexivity|]. apply andb_true_iff. split.
  - apply forallb_forall. intros q I. apply negb_true_iff. destruct (Qeq_bool q 0) eqn:E; [|reflexivity]. apply Qeq_bool_iff in E. destruct (N q I E).
  - apply forallb_forall. intros [x y] I. cbn [fst snd]. apply (close_near t); [exact T|inversion G; assumption|].
    clear - G I. induction G as [|b' a' r' row' B G IH]; [destruct I|]. destruct I as [E|I]; [injection E as <- <-; exact B|apply IH; exact I].
Qed.
End Multiples.

(* --- binary64 --- *)
Lemma nearest_near y : (Qabs (inject_Z (nearest y) - y) <= 1 # 2)%Q.
Proof.
  unfold nearest. pose proof (Qfloor_le y) as A. pose proof (Qlt_floor y) as B. rewrite inject_Z_plus in B. change (inject_Z 1) with 1%Q in B. apply Qabs_Qle_condition.
  destruct (Qlt_bool (y - inject_Z (Qfloor y)) (1 # 2)) eqn:E; [apply Qlt_bool_iff' in E; lra|apply Qlt_bool_false in E].
  destruct (Qlt_bool (1 # 2) (y - inject_Z (Qfloor y))) eqn:F; [rewrite inject_Z_plus; change (inject_Z 1) with 1%Q; apply Qlt_bool_iff' in F; lra|apply Qlt_bool_false in F].
  destruct (Z.even (Qfloor y)); [lra|rewrite inject_Z_plus; change (inject_Z 1) with 1%Q; lra].
Qed.
Lemma two_pos e : (0 < Qpower (2 # 1) e)%Q.
Proof. apply Qpower_0_lt. reflexivity. Qed.
Lemma two_plus a b : (Qpower (2 # 1) (a + b) == Qpower (2 # 1) a * Qpower (2 # 1) b)%Q.
Proof. apply Qpower_plus. discriminate. Qed.
Lemma two_opp e : (Qpower (2 # 1) (- e) * Qpower (2 # 1) e == 1)%Q.
Proof. rewrite <- two_plus. replace (- e + e)%Z with 0%Z by lia. reflexivity. Qed.
Lemma magnitude y : ~ (y == 0)%Q -> (Qpower (2 # 1) (Z.log2 (Z.abs (Qnum y)) - Z.log2 (Zpos (Qden y)) - 1) <= Qabs y)%Q.
Proof.
  intros N. destruct y as [n d]. cbn [Qnum Qden]. set (a := Z.log2 (Z.abs n)). set (b := Z.log2 (Zpos d)).
  assert (Hn : (0 < Z.abs n)%Z) by (destruct n; [exfalso; apply N; reflexivity|reflexivity|reflexivity]).
  destruct (Z.log2_spec (Z.abs n) Hn) as [La _]. destruct (Z.log2_spec (Zpos d) eq_refl) as [_ Lb]. fold a in La. fold b in Lb. pose proof (Z.log2_nonneg (Z.abs n)) as Na. pose proof (Z.log2_nonneg (Zpos d)) as Nb. fold a in Na. fold b in Nb.
  assert (E : (Qpower (2 # 1) (a - b - 1) * Qpower (2 # 1) (Z.succ b) == Qpower (2 # 1) a)%Q) by (rewrite <- two_plus; replace (a - b - 1 + Z.succ b)%Z with a by lia; reflexivity).
  assert (Ea : (Qpower (2 # 1) a <= inject_Z (Z.abs n))%Q) by (change (2 # 1)%Q with (inject_Z 2); rewrite <- Zpower_Qpower by exact Na; rewrite <- Zle_Qle; exact La).
  assert (Eb : (inject_Z (Zpos d) < Qpower (2 # 1) (Z.succ b))%Q) by (change (2 # 1)%Q with (inject_Z 2); rewrite <- Zpower_Qpower by lia; rewrite <- Zlt_Qlt; exact Lb).
  assert (Eq : (Qabs (n # d) == inject_Z (Z.abs n) / inject_Z (Zpos d))%Q) by (change (Qabs (n # d)) with (Z.abs n # d); rewrite (Qmake_Qdiv (Z.abs n) d); reflexivity).
  rewrite Eq. apply Qle_shift_div_l; [reflexivity|]. pose proof (two_pos (a - b - 1)) as P.
  assert ((Qpower (2 # 1) (a - b - 1) * inject_Z (Zpos d) <= Qpower (2 # 1) (a - b - 1) * Qpower (2 # 1) (Z.succ b))%Q) by (rewrite !(Qmult_comm (Qpower (2 # 1) (a - b - 1))); apply Qmult_le_compat_r; lra). lra.
Qed.
Lemma binary64_rounds : rounds binary64.
Proof.
  intros x. unfold binary64. assert (Ey : (Qred x == x)%Q) by apply Qred_correct. set (y := Qred x) in *. cbv zeta. destruct (Qeq_bool y 0) eqn:E0.
  - apply Qeq_bool_iff in E0. assert (Ex : (x == 0)%Q) by (rewrite <- Ey; exact E0). rewrite Ex. discriminate.
  - assert (N : ~ (y == 0)%Q) by (intros Z; apply Qeq_bool_iff in Z; congruence). pose proof (magnitude y N) as M. set (e0 := (Z.log2 (Z.abs (Qnum y)) - Z.log2 (Zpos (Qden y)) - 53)%Z) in *.
    set (e := if Qle_bool (9007199254740992 # 1) (Qabs y * Qpower (2 # 1) (- e0)) then (e0 + 1)%Z else e0).
    assert (B : ((4503599627370496 # 1) * Qpower (2 # 1) e <= Qabs y)%Q).
    { unfold e. destruct (Qle_bool (9007199254740992 # 1) (Qabs y * Qpower (2 # 1) (- e0))) eqn:D.
      - apply Qle_bool_iff in D. rewrite two_plus. change (Qpower (2 # 1) 1) with (2 # 1)%Q. pose proof (two_pos e0) as P.
        assert (H : ((9007199254740992 # 1) * Qpower (2 # 1) e0 <= Qabs y * Qpower (2 # 1) (- e0) * Qpower (2 # 1) e0)%Q) by (apply Qmult_le_compat_r; lra).
        rewrite <- Qmult_assoc, two_opp in H. lra.
      - replace (Z.log2 (Z.abs (Qnum y)) - Z.log2 (Zpos (Qden y)) - 1)%Z with (52 + e0)%Z in M by (unfold e0; lia). rewrite two_plus in M. change (Qpower (2 # 1) 52) with (4503599627370496 # 1)%Q in M. exact M. }
    clearbody e. pose proof (nearest_near (y * Qpower (2 # 1) (- e))) as H. pose proof (two_pos e) as P.
    setoid_replace (inject_Z (nearest (y * Qpower (2 # 1) (- e))) * Qpower (2 # 1) e - x)%Q with ((inject_Z (nearest (y * Qpower (2 # 1) (- e))) - y * Qpower (2 # 1) (- e)) * Qpower (2 # 1) e)%Q.
    + rewrite Qabs_Qmult, (Qabs_pos (Qpower (2 # 1) e)) by lra. rewrite <- Ey.
      assert ((Qabs (inject_Z (nearest (y * Qpower (2 # 1) (- e))) - y * Qpower (2 # 1) (- e)) * Qpower (2 # 1) e <= (1 # 2) * Qpower (2 # 1) e)%Q) by (apply Qmult_le_compat_r; lra). lra.
    + rewrite <- Ey. setoid_replace ((inject_Z (nearest (y * Qpower (2 # 1) (- e))) - y * Qpower (2 # 1) (- e)) * Qpower (2 # 1) e)%Q with (inject_Z (nearest (y * Qpower (2 # 1) (- e))) * Qpower (2 # 1) e - y * (Qpower (2 # 1) (- e) * Qpower (2 # 1) e))%Q by ring. rewrite two_opp. ring.
Qed.
Lemma floor_unique y z : (inject_Z z <= y)%Q -> (y < inject_Z (z + 1))%Q -> Qfloor y = z.
Proof.
  intros A B. pose proof (Qfloor_le y) as C. pose proof (Qlt_floor y) as D.
  assert (z < Qfloor y + 1)%Z by (rewrite Zlt_Qlt; lra). assert (Qfloor y < z + 1)%Z by (rewrite Zlt_Qlt; lra). lia.
Qed.
Lemma nearest_opp y y' : (y' == - y)%Q -> nearest y' = (- nearest y)%Z.
Proof.
  intros E. unfold nearest. pose proof (Qfloor_le y) as A. pose proof (Qlt_floor y) as B. set (f := Qfloor y) in *. rewrite inject_Z_plus in B. change (inject_Z 1) with 1%Q in B.
  destruct (Qeq_dec (y - inject_Z f) 0) as [Z|Z].
  - assert (Ef : Qfloor y' = (- f)%Z) by (apply floor_unique; rewrite ?inject_Z_plus, inject_Z_opp; change (inject_Z 1) with 1%Q; lra). rewrite Ef.
    assert (T1 : Qlt_bool (y' - inject_Z (- f)) (1 # 2) = true) by (apply Qlt_bool_iff'; rewrite inject_Z_opp; lra). assert (T2 : Qlt_bool (y - inject_Z f) (1 # 2) = true) by (apply Qlt_bool_iff'; lra).
    rewrite T1, T2. reflexivity.
  - assert (Pf : (inject_Z f < y)%Q) by (destruct (Qle_lt_or_eq _ _ A) as [P|P]; [exact P|exfalso; apply Z; lra]).
    assert (Ef : Qfloor y' = (- f - 1)%Z) by (apply floor_unique; unfold Z.sub; rewrite ?inject_Z_plus, ?inject_Z_opp; change (inject_Z 1) with 1%Q; lra). rewrite Ef.
    assert (Er : (y' - inject_Z (- f - 1) == 1 - (y - inject_Z f))%Q) by (unfold Z.sub; rewrite inject_Z_plus, !inject_Z_opp; change (inject_Z 1) with 1%Q; lra).
    destruct (Qlt_bool (y - inject_Z f) (1 # 2)) eqn:T1, (Qlt_bool (1 # 2) (y - inject_Z f)) eqn:T2, (Qlt_bool (y' - inject_Z (- f - 1)) (1 # 2)) eqn:T3, (Qlt_bool (1 # 2) (y' - inject_Z (- f - 1))) eqn:T4;
      rewrite ?Qlt_bool_iff', ?Qlt_bool_false in *; try (exfalso; lra); try lia.
    replace (- f - 1)%Z with (- (f + 1))%Z by lia. rewrite Z.even_opp, Z.even_add. change (Z.even 1) with false. destruct (Z.even f); cbn; lia.
Qed.
Lemma binary64_even : even_handed binary64.
Proof.
  split.
  - intros x y E. unfold binary64. rewrite (Qred_complete x y E). reflexivity.
  - intros x. unfold binary64. rewrite Qred_opp. set (y := Qred x). cbv zeta. assert (En : Qnum (- y) = (- Qnum y)%Z) by reflexivity. assert (Ed : Qden (- y) = Qden y) by reflexivity. rewrite En, Ed, Z.abs_opp.
    assert (Eq : Qeq_bool (- y) 0 = Qeq_bool y 0) by (apply eq_true_iff_eq; rewrite !Qeq_bool_iff; lra). rewrite Eq. destruct (Qeq_bool y 0); [reflexivity|].
    set (e0 := (Z.log2 (Z.abs (Qnum y)) - Z.log2 (Zpos (Qden y)) - 53)%Z).
    assert (Ea : Qle_bool (9007199254740992 # 1) (Qabs (- y) * Qpower (2 # 1) (- e0)) = Qle_bool (9007199254740992 # 1) (Qabs y * Qpower (2 # 1) (- e0))) by (apply eq_true_iff_eq; rewrite !Qle_bool_iff, Qabs_opp; reflexivity). rewrite Ea.
    set (e := if Qle_bool (9007199254740992 # 1) (Qabs y * Qpower (2 # 1) (- e0)) then (e0 + 1)%Z else e0). rewrite (nearest_opp (y * Qpower (2 # 1) (- e)) (- y * Qpower (2 # 1) (- e))) by ring. rewrite inject_Z_opp. ring.
Qed.
