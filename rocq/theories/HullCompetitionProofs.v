From Coq Require Import Setoid Morphisms Lqa Sorted.
From Verif Require Import Prelude NumQ SumQ ListFacts UtilsModel UtilsProofs HullModel HullSpec ParetoProofs
  CatalanProofs HullDecompProofs HullChainProofs HullEnergyProofs.
Open Scope Q_scope.

(* --- energies depend on the points only up to equality of rationals --- *)
Definition peq (c d : coord) : Prop := fst c == fst d /\ snd c == snd d.

Lemma peq_refl c : peq c c.
Proof. split; reflexivity. Qed.

Lemma height_comp p q r p' q' r' : peq p p' -> peq q q' -> peq r r' -> height p q r == height p' q' r'.
Proof. intros [H1 H2] [H3 H4] [H5 H6]. unfold height. rewrite H1, H2, H3, H4, H5, H6. reflexivity. Qed.

Lemma tree_energy_comp pt pt' t : forall lo lo',
  (forall k, (k <= size t + 1)%nat -> peq (pt (lo + k)%nat) (pt' (lo' + k)%nat)) ->
  tree_energy pt t lo (lo + size t + 1) == tree_energy pt' t lo' (lo' + size t + 1).
Proof.
  induction t as [|l IHl r IHr]; intros lo lo' H; [reflexivity|].
  cbn [tree_energy size]. cbn [size] in H.
  assert (E1 : (lo + 1 + size l = lo + (size l + 1))%nat) by lia.
  assert (E2 : (lo' + 1 + size l = lo' + (size l + 1))%nat) by lia.
  apply Qplus_comp; [apply Qplus_comp|].
  - rewrite E1, E2. apply height_comp.
    + specialize (H 0%nat). rewrite !Nat.add_0_r in H. apply H. lia.
    + apply H. lia.
    + replace (lo + S (size l + size r) + 1)%nat with (lo + (S (size l + size r) + 1))%nat by lia.
      replace (lo' + S (size l + size r) + 1)%nat with (lo' + (S (size l + size r) + 1))%nat by lia. apply H. lia.
  - replace (lo + 1 + size l)%nat with (lo + size l + 1)%nat by lia.
    replace (lo' + 1 + size l)%nat with (lo' + size l + 1)%nat by lia.
    apply IHl. intros k Hk. apply H. lia.
  - replace (lo + S (size l + size r) + 1)%nat with (lo + 1 + size l + size r + 1)%nat by lia.
    replace (lo' + S (size l + size r) + 1)%nat with (lo' + 1 + size l + size r + 1)%nat by lia.
    apply IHr. intros k Hk.
    replace (lo + 1 + size l + k)%nat with (lo + (1 + size l + k))%nat by lia.
    replace (lo' + 1 + size l + k)%nat with (lo' + (1 + size l + k))%nat by lia. apply H. lia.
Qed.

Lemma R_comp pt pt' n lo lo' :
  (forall k, (k <= n + 1)%nat -> peq (pt (lo + k)%nat) (pt' (lo' + k)%nat)) -> R pt lo n == R pt' lo' n.
Proof.
  intros H. unfold R. apply sumQ_ext. intros t Ht. apply trees_f_size in Ht. subst n.
  apply tree_energy_comp. assumption.
Qed.

Lemma R_1 pt lo : R pt lo 1 == height (pt lo) (pt (lo + 1)%nat) (pt (lo + 2)%nat).
Proof.
  rewrite R_S. cbn [seq sumQ fold_right]. change (0 - 0)%nat with 0%nat. rewrite (R_0 pt lo), (R_0 pt (lo + 1 + 0)).
  rewrite cat_0. unfold h3. rewrite !Nat.add_0_r. change (inject_Z 1) with 1. ring.
Qed.

Lemma NoDup_split_unique {A} (l1 l2 m1 m2 : list A) c :
  NoDup (l1 ++ c :: l2) -> l1 ++ c :: l2 = m1 ++ c :: m2 -> l1 = m1 /\ l2 = m2.
Proof.
  revert m1. induction l1 as [|a l1 IH]; intros [|b m1] Hn E.
  - injection E as ->. auto.
  - injection E as -> E. exfalso. apply NoDup_cons_iff in Hn as [Hni _]. apply Hni. rewrite E.
    apply in_or_app. right. left. reflexivity.
  - injection E as -> E. exfalso. apply NoDup_cons_iff in Hn as [Hni _]. apply Hni.
    apply in_or_app. right. left. reflexivity.
  - injection E as -> E. inversion Hn as [|? ? _ Hn']; subst.
    destruct (IH m1 Hn' E) as [-> ->]. auto.
Qed.

Lemma xlt_sorted_NoDup l : StronglySorted xlt l -> NoDup l.
Proof.
  induction 1 as [|a l H IH Ha]; constructor; [|assumption].
  rewrite Forall_forall in Ha. intros Hin. specialize (Ha a Hin). unfold xlt in Ha. lra.
Qed.

Lemma filter_nil {A} (f : A -> bool) l : (forall a, In a l -> f a = false) -> filter f l = [].
Proof.
  induction l as [|a l IH]; simpl; intros H; [reflexivity|]. rewrite (H a) by auto. auto.
Qed.

Lemma last_app_one {A} (l : list A) a d : last (l ++ [a]) d = a.
Proof. apply last_last. Qed.

Section Hull.
Variable h : hull.
Variable chain : list nat.
Hypothesis Hok : correct_hull (coords h) (qhull h) chain.
Let cs := coords h.
Hypothesis Hsep : separated cs chain.
Hypothesis Hst : stable_ends cs chain.
Notation inner := (inner h chain).
Notation on_hull := (on_hull h).

Lemma inner_split a b c : In c (inner a b) ->
  inner a b = inner a (fst c) ++ c :: inner (fst c) b.
Proof.
  intros Hc. pose proof (proj2 (in_inner h chain Hok a b c Hc)) as Hx.
  unfold HullEnergyProofs.inner in Hc |- *. apply filter_In in Hc as [Hc Hb].
  pose proof (chain_pts_sorted h chain Hok) as Hs.
  apply in_split in Hc as (l1 & l2 & E). rewrite E in Hs |- *.
  assert (H1 : forall d, In d l1 -> fst d < fst c).
  { clear -Hs. induction l1 as [|e l1 IH]; intros d Hd; [destruct Hd|].
    inversion Hs as [|? ? Hs' Hf]; subst. destruct Hd as [<-|Hd]; [|apply IH; assumption].
    rewrite Forall_forall in Hf. apply (Hf c). apply in_or_app. right. left. reflexivity. }
  assert (H2 : forall d, In d l2 -> fst c < fst d).
  { clear -Hs. induction l1 as [|e l1 IH]; cbn [app] in Hs; apply StronglySorted_inv in Hs as [Hs Hf].
    - rewrite Forall_forall in Hf. intros d Hd. apply (Hf d Hd).
    - apply IH. assumption. }
  rewrite !filter_app. cbn [filter]. rewrite Hb.
  assert (Ec1 : between a (fst c) c = false).
  { unfold between. apply andb_false_iff. right. apply Qlt_bool_false_iff. lra. }
  assert (Ec2 : between (fst c) b c = false).
  { unfold between. apply andb_false_iff. left. apply Qlt_bool_false_iff. lra. }
  rewrite Ec1, Ec2.
  rewrite (filter_nil (between a (fst c)) l2), app_nil_r.
  2:{ intros d Hd. specialize (H2 d Hd). unfold between. apply andb_false_iff. right. apply Qlt_bool_false_iff. lra. }
  rewrite (filter_nil (between (fst c) b) l1).
  2:{ intros d Hd. specialize (H1 d Hd). unfold between. apply andb_false_iff. left. apply Qlt_bool_false_iff. lra. }
  cbn [app]. f_equal; [|f_equal]; apply filter_ext_in; intros d Hd.
  - specialize (H1 d Hd). unfold between. f_equal.
    rewrite (proj2 (Qlt_bool_iff (fst d) (fst c)) H1). apply Qlt_bool_iff. lra.
  - specialize (H2 d Hd). unfold between. f_equal.
    rewrite (proj2 (Qlt_bool_iff (fst c) (fst d)) H2). apply Qlt_bool_iff. lra.
Qed.

Lemma inner_length a b : (length (inner a b) <= length chain)%nat.
Proof. unfold HullEnergyProofs.inner. rewrite filter_length_le, map_length. lia. Qed.

Lemma pre_nil a ya : exact_coordinate cs chain a -> on_hull (a, ya) -> envelope cs a ya -> pre_pts a ya = [].
Proof.
  intros Hex Hon Henv. unfold pre_pts. destruct (isclose a 0) eqn:E; [|reflexivity].
  pose proof (exact_zero h chain Hok a Hex E) as Ea.
  destruct (chain_zero h chain Hok) as (i & p & Hi & Hp & Ep).
  assert (Ey : ya == snd p).
  { apply (hull_unique h (a, ya) p); cbn [fst]; [rewrite Ep; assumption|assumption| | |].
    - apply envelope_above. assumption.
    - eapply chain_on_hull; eassumption.
    - apply in_above. eapply nth_error_In; exact Hp. }
  rewrite (isclose_comp ya (snd p) 0 0 Ey (Qeq_refl 0)), (Hst i p Hi Hp); [reflexivity|]. left. assumption.
Qed.

Lemma post_nil b yb : exact_coordinate cs chain b -> on_hull (b, yb) -> envelope cs b yb -> post_pts b yb = [].
Proof.
  intros Hex Hon Henv. unfold post_pts. destruct (isclose b 1) eqn:E; [|reflexivity].
  pose proof (exact_one h chain Hok b Hex E) as Eb.
  destruct (chain_one h chain Hok) as (i & p & Hi & Hp & Ep).
  assert (Ey : yb == snd p).
  { apply (hull_unique h (b, yb) p); cbn [fst]; [rewrite Ep; assumption|assumption| | |].
    - apply envelope_above. assumption.
    - eapply chain_on_hull; eassumption.
    - apply in_above. eapply nth_error_In; exact Hp. }
  rewrite (isclose_comp yb (snd p) 0 0 Ey (Qeq_refl 0)), (Hst i p Hi Hp); [reflexivity|]. right. assumption.
Qed.

(* The range between two different coordinates. *)
Lemma range_stable a b : 0 <= a -> a < b -> b <= 1 -> exact_coordinate cs chain a -> exact_coordinate cs chain b ->
  exists ya yb, get_hull_energy h a = Ok ya /\ get_hull_energy h b = Ok yb
  /\ on_hull (a, ya) /\ envelope cs a ya /\ on_hull (b, yb) /\ envelope cs b yb
  /\ get_coords_in_range h a b = Ok ((a, ya) :: inner a b ++ [(b, yb)]).
Proof.
  intros Ha Hab Hb Hea Heb.
  destruct (range_spec h chain Hok a b Ha (Qlt_le_weak _ _ Hab) Hb Hea Heb)
    as (ya & yb & H1 & H2 & H3 & H4 & H5 & H6 & H7).
  exists ya, yb. repeat (split; [assumption|]). rewrite H7. f_equal. unfold range_pts.
  rewrite pre_nil, post_nil by assumption.
  destruct (Qeq_bool b a) eqn:E; [apply Qeq_bool_iff in E; lra|]. reflexivity.
Qed.

Lemma energy_at_vertex a ya c : envelope cs a ya -> on_hull (a, ya) -> fst c == a ->
  (exists i, In i chain /\ nth_error cs i = Some c) -> ya == snd c.
Proof.
  intros Henv Hon E (i & Hi & Hp).
  apply (hull_unique h (a, ya) c); cbn [fst]; [symmetry; assumption|assumption| | |].
  - apply envelope_above. assumption.
  - eapply chain_on_hull; eassumption.
  - apply in_above. eapply nth_error_In; exact Hp.
Qed.

Lemma pts_cons c l k : pts (c :: l) (S k) = pts l k.
Proof. reflexivity. Qed.

Lemma pts_app1 l l' k : (k < length l)%nat -> pts (l ++ l') k = pts l k.
Proof. intros H. unfold pts. apply app_nth1. assumption. Qed.
Lemma pts_app2 l l' k : (length l <= k)%nat -> pts (l ++ l') k = pts l' (k - length l).
Proof. intros H. unfold pts. apply app_nth2. assumption. Qed.

Definition rec_loop (fuel : nat) (cmin cmax : coord) :=
  fix loop (cs : list coord) (val : Q) (total : Z) (umin umax : bool) : result (Q * Z) :=
    match cs with
    | [] => Ok (val, total)
    | c :: cs' =>
        let at0 := Qeq_bool (fst c) 0 && negb (isclose (snd c) 0) in
        let at1 := Qeq_bool (fst c) 1 && negb (isclose (snd c) 0) in
        let umin' := if at0 then false else umin in
        let umax' := if at0 then umax else if at1 then false else umax in
        match decomposition_recursive fuel h (fst cmin) (fst c) umin' umax',
              decomposition_recursive fuel h (fst c) (fst cmax) umin' umax' with
        | Ok (ld, lt), Ok (rd, rt) =>
            loop cs' (val + (altitude cmin c cmax * inject_Z (lt * rt)
                             + ld * inject_Z rt + rd * inject_Z lt))
                 (total + lt * rt)%Z umin' umax'
        | Err e, _ => Err e
        | _, Err e => Err e
        end
    end.

Lemma rec_unfold fuel a b cmin inn cmax :
  get_coords_in_range h a b = Ok (cmin :: inn ++ [cmax]) ->
  decomposition_recursive (S fuel) h a b true true =
  match inn with
  | [] => Ok (0, 1%Z)
  | [c] => Ok (altitude cmin c cmax, 1%Z)
  | _ => rec_loop fuel cmin cmax inn 0 0%Z true true
  end.
Proof.
  intros H. cbn [decomposition_recursive]. rewrite H.
  rewrite last_app_one, removelast_last. destruct inn as [|c [|d inn]]; reflexivity.
Qed.

Lemma exact_of_inner a b c : In c (inner a b) -> exact_coordinate cs chain (fst c).
Proof.
  intros Hc. destruct (in_inner h chain Hok a b c Hc) as [(i & Hi & Hp) _]. eapply Hsep; eassumption.
Qed.

Lemma recursive_spec n : forall fuel a b, 0 <= a -> a < b -> b <= 1 ->
  exact_coordinate cs chain a -> exact_coordinate cs chain b ->
  length (inner a b) = n -> (n < fuel)%nat ->
  exists v pts0, decomposition_recursive fuel h a b true true = Ok (v, cat n)
  /\ get_coords_in_range h a b = Ok pts0 /\ length pts0 = (n + 2)%nat
  /\ v == R (pts pts0) 0 n.
Proof.
  induction n as [n IH] using lt_wf_ind. intros fuel a b Ha Hab Hb Hea Heb Hn Hf.
  destruct fuel as [|fuel]; [lia|].
  destruct (range_stable a b Ha Hab Hb Hea Heb) as (ya & yb & Hya & Hyb & Hona & Henva & Honb & Henvb & Hr).
  set (P := (a, ya) :: inner a b ++ [(b, yb)]).
  assert (HlenP : length P = (n + 2)%nat) by (unfold P; simpl; rewrite app_length; simpl; lia).
  rewrite (rec_unfold fuel a b _ _ _ Hr).
  destruct (inner a b) as [|c0 [|c1 rest]] eqn:Ei.
  - simpl in Hn. subst n. exists 0, P. rewrite cat_0. split; [reflexivity|]. split; [assumption|]. split; [assumption|]. rewrite R_0. reflexivity.
  - simpl in Hn. subst n. eexists _, P. rewrite cat_1. split; [reflexivity|]. split; [assumption|]. split; [assumption|].
    rewrite altitude_height, R_1. unfold P. reflexivity.
  - set (inn := c0 :: c1 :: rest) in *.
    assert (Hsplit : forall done c todo, inn = done ++ c :: todo -> done = inner a (fst c) /\ todo = inner (fst c) b).
    { intros done c todo E.
      assert (Hc : In c (inner a b)) by (rewrite Ei, E; apply in_or_app; right; left; reflexivity).
      pose proof (inner_split a b c Hc) as E2. rewrite Ei, E in E2.
      apply (NoDup_split_unique done todo _ _ c); [|assumption].
      rewrite <- E, <- Ei. apply xlt_sorted_NoDup, inner_sorted. assumption. }
    set (m := (n - 1)%nat). assert (Hm : n = S m) by (unfold m; unfold inn in Hn; simpl in Hn; lia).
    set (F := fun i => inject_Z (cat i) * inject_Z (cat (m - i)) * h3 (pts P) 0 (0 + 1 + i) (0 + m + 2)
                 + R (pts P) 0 i * inject_Z (cat (m - i)) + inject_Z (cat i) * R (pts P) (0 + 1 + i) (m - i)).
    assert (Hloop : forall todo done val total, inn = done ++ todo ->
      exists v, rec_loop fuel (a, ya) (b, yb) todo val total true true
        = Ok (v, (total + sumZ (fun i => cat i * cat (m - i)) (seq (length done) (length todo)))%Z)
      /\ v == val + sumQ F (seq (length done) (length todo))).
    { induction todo as [|c todo IHt]; intros done val total E.
      - exists val. split; [simpl; f_equal; f_equal; lia|simpl; ring].
      - destruct (Hsplit done c todo E) as [Ed Et].
        assert (Hc : In c (inner a b)) by (rewrite Ei, E; apply in_or_app; right; left; reflexivity).
        pose proof (in_inner h chain Hok a b c Hc) as [Hvert Hxc].
        pose proof (exact_of_inner a b c Hc) as Hec.
        assert (Hlen : (length done + S (length todo) = n)%nat).
        { rewrite <- Hn, E, app_length. simpl. reflexivity. }
        destruct (IH (length done) ltac:(lia) fuel a (fst c)) as (lv & lp & Hl1 & Hl2 & Hl3 & Hl4);
          try assumption; try lra; [congruence|lia|].
        destruct (IH (length todo) ltac:(lia) fuel (fst c) b) as (rv & rp & Hr1 & Hr2 & Hr3 & Hr4);
          try assumption; try lra; [congruence|lia|].
        cbn [rec_loop]. cbv zeta.
        assert (E0 : Qeq_bool (fst c) 0 = false).
        { destruct (Qeq_bool (fst c) 0) eqn:G; [apply Qeq_bool_iff in G; lra|reflexivity]. }
        assert (E1 : Qeq_bool (fst c) 1 = false).
        { destruct (Qeq_bool (fst c) 1) eqn:G; [apply Qeq_bool_iff in G; lra|reflexivity]. }
        rewrite E0, E1. cbn [andb]. change (fst (a, ya)) with a. change (fst (b, yb)) with b.
        rewrite Hl1, Hr1.
        fold (rec_loop fuel (a, ya) (b, yb)).
        assert (E' : inn = (done ++ [c]) ++ todo) by (rewrite <- app_assoc; exact E).
        destruct (IHt (done ++ [c])
                    (val + (altitude (a, ya) c (b, yb) * inject_Z (cat (length done) * cat (length todo))
                            + lv * inject_Z (cat (length todo)) + rv * inject_Z (cat (length done))))
                    (total + cat (length done) * cat (length todo))%Z E') as (v & Hv & Hvv).
        exists v. 
        assert (Hld : length (done ++ [c]) = S (length done)) by (rewrite app_length; simpl; lia).
        rewrite Hld in Hv, Hvv.
        assert (Hmt : (m - length done)%nat = length todo) by lia.
        split.
        + rewrite Hv. cbn [length seq].
          change (sumZ (fun i => (cat i * cat (m - i))%Z) (length done :: seq (S (length done)) (length todo)))
            with (cat (length done) * cat (m - length done)
                  + sumZ (fun i => cat i * cat (m - i)) (seq (S (length done)) (length todo)))%Z.
          rewrite Hmt, Z.add_assoc. reflexivity.
        + rewrite Hvv. cbn [length seq]. rewrite sumQ_cons. unfold F at 2. rewrite Hmt.
          (* left and right sub-lists are pieces of P *)
          assert (HP : P = (a, ya) :: done ++ c :: todo ++ [(b, yb)]).
          { unfold P. f_equal. change (inn ++ [(b, yb)] = done ++ c :: todo ++ [(b, yb)]).
            rewrite E, <- app_assoc. reflexivity. }
          destruct (range_stable a (fst c)) as (ya1 & yc1 & Hya1 & _ & _ & _ & Hon1 & Henv1 & Hr1');
            try assumption; try lra.
          rewrite Hya1 in Hya. injection Hya as ->.
          destruct (range_stable (fst c) b) as (yc2 & yb2 & _ & Hyb2 & Hon2 & Henv2 & _ & _ & Hr2');
            try assumption; try lra.
          rewrite Hyb2 in Hyb. injection Hyb as ->.
          rewrite Hr1' in Hl2. injection Hl2 as <-. rewrite Hr2' in Hr2. injection Hr2 as <-.
          assert (Eyc1 : yc1 == snd c) by (apply (energy_at_vertex (fst c)); auto; reflexivity).
          assert (Eyc2 : yc2 == snd c) by (apply (energy_at_vertex (fst c)); auto; reflexivity).
          assert (HL : lv == R (pts P) 0 (length done)).
          { rewrite Hl4. apply R_comp. intros k Hk. rewrite HP, !Nat.add_0_l.
            destruct k as [|k]; [apply peq_refl|]. rewrite !pts_cons. rewrite <- Ed.
            destruct (Nat.ltb_spec k (length done)).
            - rewrite !pts_app1 by assumption. apply peq_refl.
            - assert (k = length done) by lia. subst k.
              rewrite !pts_app2 by lia. rewrite Nat.sub_diag. split; [reflexivity|exact Eyc1]. }
          assert (HR : rv == R (pts P) (0 + 1 + length done) (length todo)).
          { rewrite Hr4. apply R_comp. intros k Hk. rewrite HP.
            replace (0 + 1 + length done + k)%nat with (S (length done + k)) by lia.
            rewrite pts_cons, pts_app2 by lia.
            replace (length done + k - length done)%nat with k by lia. rewrite Nat.add_0_l, <- Et.
            destruct k as [|k]; [split; [reflexivity|exact Eyc2]|]. apply peq_refl. }
          assert (Hh : h3 (pts P) 0 (0 + 1 + length done) (0 + m + 2) = altitude (a, ya) c (b, yb)).
          { rewrite altitude_height. unfold h3. rewrite HP. f_equal.
            - replace (0 + 1 + length done)%nat with (S (length done)) by lia.
              rewrite pts_cons, pts_app2, Nat.sub_diag by lia. reflexivity.
            - replace (0 + m + 2)%nat with (S (length done + S (length todo))) by lia.
              rewrite pts_cons, pts_app2 by lia.
              replace (length done + S (length todo) - length done)%nat with (S (length todo)) by lia.
              rewrite pts_cons, pts_app2, Nat.sub_diag by lia. reflexivity. }
          rewrite HL, HR, Hh, inject_Z_mult. ring. }
    destruct (Hloop inn [] 0 0%Z eq_refl) as (v & Hv & Hvv).
    exists v, P. split; [|split; [|split]]; try assumption.
    + unfold inn at 1. fold inn. rewrite Hv. cbn [length]. rewrite Hn, Hm, cat_S, Z.add_0_l. reflexivity.
    + rewrite Hvv, Qplus_0_l. cbn [length]. rewrite Hn, Hm, R_S. reflexivity.
Qed.

Lemma fast_spec a b n pts0 : get_coords_in_range h a b = Ok pts0 -> length pts0 = (n + 2)%nat ->
  exists e, get_decomposition_energy h a b = Ok e /\ e == R (pts pts0) 0 n
  /\ num_paths h a b = Ok (cat n).
Proof.
  intros Hr Hlen. unfold get_decomposition_energy, num_paths. rewrite Hr. cbn [bind].
  destruct (decomposition_energy_spec pts0 (trees n)) as (e & He & Hv); [lia| |].
  - replace (length pts0 - 2)%nat with n by lia. apply trees_all.
  - exists e. split; [assumption|]. split.
    + rewrite Hv. replace (length pts0 - 1)%nat with (0 + n + 1)%nat by lia. apply R_perm, trees_all.
    + replace (Z.of_nat (length pts0) - 2)%Z with (Z.of_nat n) by lia. apply count_cat.
Qed.

Lemma agree_between a b : 0 <= a -> a < b -> b <= 1 ->
  exact_coordinate cs chain a -> exact_coordinate cs chain b ->
  exists e v n, get_decomposition_energy h a b = Ok e /\ num_paths h a b = Ok n
  /\ decomposition_recursive (rec_fuel h) h a b true true = Ok (v, n) /\ v == e /\ (1 <= n)%Z.
Proof.
  intros Ha Hab Hb Hea Heb.
  destruct (recursive_spec (length (inner a b)) (rec_fuel h) a b) as (v & P & H1 & H2 & H3 & H4); auto.
  - unfold rec_fuel. pose proof (inner_length a b).
    assert (length chain <= length (qhull h))%nat.
    { apply NoDup_incl_length; [apply sorted_lt_NoDup, (chain_sorted h chain Hok)|].
      intros i Hi. apply (ch_chain _ _ _ Hok). assumption. }
    lia.
  - destruct (fast_spec a b _ P H2 H3) as (e & He & Hv & Hn).
    exists e, v, (cat (length (inner a b))). repeat split; try assumption.
    + rewrite H4, Hv. reflexivity.
    + apply cat_pos.
Qed.

Lemma agree_same a b : 0 <= a -> a == b -> b <= 1 ->
  exact_coordinate cs chain a -> exact_coordinate cs chain b ->
  get_decomposition_energy h a b = Ok 0 /\ num_paths h a b = Ok 91482563640%Z
  /\ decomposition_recursive (rec_fuel h) h a b true true = Ok (0, 1%Z).
Proof.
  intros Ha Hab Hb Hea Heb.
  destruct (range_spec h chain Hok a b Ha ltac:(lra) Hb Hea Heb)
    as (ya & yb & H1 & H2 & H3 & H4 & H5 & H6 & H7).
  assert (Hr : get_coords_in_range h a b = Ok [(a, ya)]).
  { rewrite H7. unfold range_pts. rewrite pre_nil, post_nil by assumption.
    rewrite (proj2 (Qeq_bool_iff b a)) by (symmetry; assumption).
    assert (Ei : inner a b = []).
    { apply filter_nil. intros c _. unfold between.
      destruct (Qlt_bool a (fst c)) eqn:E1; [|reflexivity]. destruct (Qlt_bool (fst c) b) eqn:E2; [|reflexivity].
      apply Qlt_bool_iff in E1. apply Qlt_bool_iff in E2. lra. }
    rewrite Ei. reflexivity. }
  unfold get_decomposition_energy, num_paths. rewrite Hr. split; [reflexivity|]. split; [vm_compute; reflexivity|].
  unfold rec_fuel. rewrite Nat.add_comm. cbn [plus]. cbn [decomposition_recursive]. rewrite Hr. reflexivity.
Qed.

Lemma combine_comp normalize le re le' re' ln rn : le == le' -> re == re' ->
  combine_sides normalize le re ln rn == combine_sides normalize le' re' ln rn.
Proof.
  intros H1 H2. unfold combine_sides. destruct normalize; rewrite H1, H2; reflexivity.
Qed.

Lemma exact_0 : exact_coordinate cs chain 0.
Proof.
  destruct (chain_zero h chain Hok) as (i & p & Hi & Hp & E).
  intros j q Hj Hq Hc. rewrite <- E. apply (Hsep i p Hi Hp j q Hj Hq).
  rewrite <- Hc. apply isclose_comp; [assumption|reflexivity].
Qed.
Lemma exact_1 : exact_coordinate cs chain 1.
Proof.
  destruct (chain_one h chain Hok) as (i & p & Hi & Hp & E).
  intros j q Hj Hq Hc. rewrite <- E. apply (Hsep i p Hi Hp j q Hj Hq).
  rewrite <- Hc. apply isclose_comp; [assumption|reflexivity].
Qed.

Lemma competition_agree x normalize : 0 <= x <= 1 -> exact_coordinate cs chain x ->
  (0 < x < 1 \/ normalize = true) ->
  exists s1 s2, get_secondary_competition h x normalize false = Ok s1
  /\ get_secondary_competition h x normalize true = Ok s2 /\ s1 == s2.
Proof.
  intros Hx Hex Hcase. unfold get_secondary_competition.
  destruct (Qlt_le_dec 0 x) as [H0|H0].
  - destruct (agree_between 0 x) as (e1 & v1 & n1 & A1 & A2 & A3 & A4 & A5); try lra; try assumption; [apply exact_0|].
    rewrite A1, A2, A3.
    destruct (Qlt_le_dec x 1) as [H1|H1].
    + destruct (agree_between x 1) as (e2 & v2 & n2 & B1 & B2 & B3 & B4 & B5); try lra; try assumption; [apply exact_1|].
      rewrite B1, B2, B3. eexists _, _. split; [reflexivity|]. split; [reflexivity|].
      apply combine_comp; symmetry; assumption.
    + destruct Hcase as [Hc| ->]; [lra|].
      destruct (agree_same x 1) as (B1 & B2 & B3); try lra; try assumption; [apply exact_1|].
      rewrite B1, B2, B3. eexists _, _. split; [reflexivity|]. split; [reflexivity|].
      unfold combine_sides. rewrite (proj2 (Z.eqb_neq n1 0)) by lia.
      change (91482563640 =? 0)%Z with false. change (1 =? 0)%Z with false. cbv iota.
      rewrite !inject_Z_mult, A4. field.
      repeat split; intros G; unfold Qeq in G; simpl in G; lia.
  - destruct Hcase as [Hc| ->]; [lra|].
    destruct (agree_same 0 x) as (A1 & A2 & A3); try lra; try assumption; [apply exact_0|].
    rewrite A1, A2, A3.
    destruct (agree_between x 1) as (e2 & v2 & n2 & B1 & B2 & B3 & B4 & B5); try lra; try assumption; [apply exact_1|].
    rewrite B1, B2, B3. eexists _, _. split; [reflexivity|]. split; [reflexivity|].
    unfold combine_sides. rewrite (proj2 (Z.eqb_neq n2 0)) by lia.
    change (91482563640 =? 0)%Z with false. change (1 =? 0)%Z with false. cbv iota.
    rewrite !inject_Z_mult, B4. field.
    repeat split; intros G; unfold Qeq in G; simpl in G; lia.
Qed.
End Hull.
