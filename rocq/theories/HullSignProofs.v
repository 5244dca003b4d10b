From Coq Require Import Setoid Morphisms Lqa Sorted.
From Verif Require Import Prelude NumQ SumQ ListFacts UtilsModel UtilsProofs HullModel HullSpec ParetoProofs
  CatalanProofs HullDecompProofs HullChainProofs HullEnergyProofs HullCompetitionProofs.
Open Scope Q_scope.

(* --- sign of the decomposition energies of a convex list --- *)
Lemma Qle_one_cat n : 1 <= inject_Z (cat n).
Proof. pose proof (cat_pos n). unfold Qle. simpl. lia. Qed.

Lemma fold_min_le es m0 : fold_left (fun m e => if Qlt_bool e m then e else m) es m0 <= m0.
Proof.
  revert m0; induction es as [|e es IH]; intros m0; simpl; [apply Qle_refl|].
  destruct (Qlt_bool e m0) eqn:E; [apply Qlt_bool_iff in E|apply IH].
  eapply Qle_trans; [apply IH|]. lra.
Qed.
Lemma fold_min_lower es m0 lb : lb <= m0 -> (forall e, In e es -> lb <= e) ->
  lb <= fold_left (fun m e => if Qlt_bool e m then e else m) es m0.
Proof.
  revert m0; induction es as [|e es IH]; intros m0 H Hes; simpl; [assumption|].
  apply IH; [|intros; apply Hes; right; assumption].
  destruct (Qlt_bool e m0); [apply Hes; left; reflexivity|assumption].
Qed.

Lemma sumQ_le_term {A} (f : A -> Q) l a : (forall b, In b l -> f b <= 0) -> In a l -> sumQ f l <= f a.
Proof.
  intros H Ha. apply in_split in Ha as (l1 & l2 & ->). rewrite sumQ_app, sumQ_cons.
  pose proof (sumQ_nonpos f l1 ltac:(intros; apply H, in_or_app; left; assumption)).
  pose proof (sumQ_nonpos f l2 ltac:(intros; apply H, in_or_app; right; right; assumption)). lra.
Qed.

Lemma convex_signs l : convex_points l ->
  exists e m, decomposition_energy l = Ok e /\ max_decomposition_energy l = Ok m /\ e <= m /\ m <= 0.
Proof.
  intros Hconv.
  set (g := fun c => match altitude_of l c with Ok e => e | Err _ => 0 end).
  assert (Halt : forall c, In c (combinations (seq 0 (length l)) 3) -> altitude_of l c = Ok (g c) /\ g c <= 0).
  { intros c Hc. apply in_combinations_3 in Hc as (i & j & k & -> & Hijk & Hk).
    assert (Hn : forall a, (a < length l)%nat -> nth_error l a = Some (pts l a)).
    { intros a Ha. apply nth_error_nth'. assumption. }
    unfold g. unfold altitude_of. rewrite !Hn by lia. split; [reflexivity|].
    rewrite altitude_height. apply (Hconv i j k); try lia; apply Hn; lia. }
  assert (Hm : max_decomposition_energy l =
    Ok (fold_left (fun m e => if Qlt_bool e m then e else m) (map g (combinations (seq 0 (length l)) 3)) 0)).
  { unfold max_decomposition_energy. rewrite (mapM_ok _ g); [reflexivity|]. intros c Hc. apply Halt. assumption. }
  destruct (le_lt_dec (length l) 1) as [Hlen|Hlen].
  { exists 0, 0. destruct l as [|? [|? ?]]; simpl in Hlen; try lia;
      (split; [reflexivity|]; split; [reflexivity|]; split; apply Qle_refl). }
  set (n := (length l - 2)%nat). assert (Hl : length l = (n + 2)%nat) by (unfold n; lia).
  set (f := fun c => match energy_term l (Z.of_nat n) c with Ok e => e | Err _ => 0 end).
  assert (Hterm : forall c, In c (combinations (seq 0 (length l)) 3) ->
            energy_term l (Z.of_nat n) c = Ok (f c) /\ f c <= g c).
  { intros c Hc. pose proof (Halt c Hc) as [_ Hg].
    apply in_combinations_3 in Hc as (i & j & k & -> & Hijk & Hk).
    destruct (energy_term_ok l n i j k) as (e & He & Hv); try lia.
    unfold f. rewrite He. split; [reflexivity|]. rewrite Hv. unfold term.
    assert (Hgh : g [i; j; k] = h3 (pts l) i j k).
    { unfold g, altitude_of.
      assert (Hn : forall a, (a < length l)%nat -> nth_error l a = Some (pts l a)) by
        (intros a Ha; apply nth_error_nth'; assumption).
      rewrite !Hn by lia. rewrite altitude_height. reflexivity. }
    rewrite Hgh in *.
    pose proof (Qle_one_cat (j - i - 1)) as P1. pose proof (Qle_one_cat (k - j - 1)) as P2.
    pose proof (Qle_one_cat (n - (j - i - 1) - (k - j - 1) - 1)) as P3.
    set (u := inject_Z (cat (j - i - 1))) in *. set (v := inject_Z (cat (k - j - 1))) in *.
    set (w := inject_Z (cat (n - (j - i - 1) - (k - j - 1) - 1))) in *. set (z := h3 (pts l) i j k) in *.
    assert (H1 : 1 <= u * v) by nra. assert (H2 : 1 <= u * v * w) by nra. nra. }
  assert (He : decomposition_energy l = Ok (fold_left Qplus (map f (combinations (seq 0 (length l)) 3)) 0)).
  { unfold decomposition_energy. replace (Z.of_nat (length l) - 2)%Z with (Z.of_nat n) by lia.
    rewrite (mapM_ok _ f); [reflexivity|]. intros c Hc. apply Hterm. assumption. }
  eexists _, _. split; [exact He|]. split; [exact Hm|]. split; [|apply fold_min_le].
  rewrite fold_left_Qplus, Qplus_0_l, sumQ_map.
  assert (Hneg : forall c, In c (combinations (seq 0 (length l)) 3) -> f c <= 0).
  { intros c Hc. destruct (Halt c Hc), (Hterm c Hc). lra. }
  apply fold_min_lower; [apply sumQ_nonpos; assumption|].
  intros e Hin. apply in_map_iff in Hin as (c & <- & Hc).
  destruct (Hterm c Hc) as [_ Hle]. eapply Qle_trans; [|exact Hle]. apply (sumQ_le_term f); assumption.
Qed.

Lemma combine_sides_bound normalize le re lm rm ln rn :
  le <= lm -> lm <= 0 -> re <= rm -> rm <= 0 -> (1 <= ln)%Z -> (1 <= rn)%Z ->
  0 <= combine_sides normalize le re ln rn
  /\ (normalize = false -> -1 * (lm + rm) <= combine_sides normalize le re ln rn).
Proof.
  intros H1 H2 H3 H4 H5 H6. unfold combine_sides.
  rewrite (proj2 (Z.eqb_neq ln 0)) by lia. rewrite (proj2 (Z.eqb_neq rn 0)) by lia.
  assert (L : 1 <= inject_Z ln) by (unfold Qle; simpl; lia).
  assert (Rr : 1 <= inject_Z rn) by (unfold Qle; simpl; lia).
  destruct normalize.
  - split; [|discriminate]. rewrite inject_Z_mult.
    assert (Hp : 0 < inject_Z ln * inject_Z rn) by nra.
    assert (Hq : (le * inject_Z rn + re * inject_Z ln) / (inject_Z ln * inject_Z rn) <= 0).
    { apply Qle_shift_div_r; [assumption|]. nra. }
    lra.
  - split; [nra|]. intros _. nra.
Qed.

Section Hull.
Variable h : hull.
Variable chain : list nat.
Hypothesis Hok : correct_hull (coords h) (qhull h) chain.
Let cs := coords h.

Lemma range_signs a b : 0 <= a -> a <= b -> b <= 1 -> exact_coordinate cs chain a -> exact_coordinate cs chain b ->
  exists e m n, get_decomposition_energy h a b = Ok e /\ get_max_decomposition_energy h a b = Ok m
  /\ num_paths h a b = Ok n /\ e <= m /\ m <= 0 /\ (1 <= n)%Z.
Proof.
  intros Ha Hab Hb Hea Heb.
  destruct (range_spec h chain Hok a b Ha Hab Hb Hea Heb) as (ya & yb & H1 & H2 & H3 & H4 & H5 & H6 & H7).
  destruct (range_props h chain Hok a b ya yb) as [_ Hconv]; try assumption.
  destruct (convex_signs _ Hconv) as (e & m & He & Hm & Hem & Hm0).
  unfold get_decomposition_energy, get_max_decomposition_energy, num_paths. rewrite H7. cbn [bind].
  destruct (length (range_pts h chain a ya b yb)) as [|[|k]] eqn:El.
  - apply length_zero_iff_nil in El. unfold range_pts in El. apply app_eq_nil in El as [_ El]. discriminate.
  - exists e, m, 91482563640%Z. split; [assumption|]. split; [assumption|]. split; [vm_compute; reflexivity|].
    split; [assumption|]. split; [assumption|lia].
  - exists e, m, (cat k). split; [assumption|]. split; [assumption|].
    split; [|split; [assumption|split; [assumption|apply cat_pos]]].
    replace (Z.of_nat (S (S k)) - 2)%Z with (Z.of_nat k) by lia. apply count_cat.
Qed.

Lemma competition_nonneg x normalize : 0 <= x <= 1 -> exact_coordinate cs chain x ->
  exact_coordinate cs chain 0 -> exact_coordinate cs chain 1 ->
  exists s m, get_secondary_competition h x normalize false = Ok s
  /\ get_secondary_competition_max_energy h x = Ok m /\ 0 <= s /\ 0 <= m
  /\ (normalize = false -> m <= s).
Proof.
  intros Hx Hex H0 H1.
  destruct (range_signs 0 x) as (e1 & m1 & n1 & A1 & A2 & A3 & A4 & A5 & A6); try lra; try assumption.
  destruct (range_signs x 1) as (e2 & m2 & n2 & B1 & B2 & B3 & B4 & B5 & B6); try lra; try assumption.
  unfold get_secondary_competition, get_secondary_competition_max_energy.
  rewrite A1, A2, A3, B1, B2, B3. eexists _, _. split; [reflexivity|]. split; [reflexivity|].
  destruct (combine_sides_bound normalize e1 e2 m1 m2 n1 n2) as [C1 C2]; try assumption.
  split; [assumption|]. split; [lra|assumption].
Qed.
End Hull.

(* --- primary competition --- *)
Lemma min_list_spec l : l <> [] -> exists m, min_list l = Ok m /\ In m l /\ forall y, In y l -> m <= y.
Proof.
  induction l as [|y l IH]; [congruence|]. intros _. cbn [min_list].
  destruct l as [|z l].
  - exists y. simpl. split; [reflexivity|]. split; [left; reflexivity|]. intros ? [<-|[]]; apply Qle_refl.
  - destruct IH as (m & Hm & Hin & Hle); [discriminate|]. rewrite Hm.
    destruct (Qle_bool y m) eqn:E.
    + apply Qle_bool_iff in E. exists y. split; [reflexivity|]. split; [left; reflexivity|].
      intros w [<-|Hw]; [apply Qle_refl|]. eapply Qle_trans; [exact E|]. apply Hle. assumption.
    + assert (m < y) by (apply Qnot_le_lt; intros G; apply Qle_bool_iff in G; congruence).
      exists m. split; [reflexivity|]. split; [right; assumption|].
      intros w [<-|Hw]; [lra|]. apply Hle. assumption.
Qed.

Lemma where_x_spec l x : StronglySorted xle l -> forall k,
  exists A B C, l = A ++ B ++ C /\ Forall (fun c => fst c < x) A /\ Forall (fun c => fst c == x) B
  /\ Forall (fun c => x < fst c) C /\ where_x l x k = seq (k + length A) (length B).
Proof.
  induction 1 as [|c l Hl IH Hc]; intros k.
  - exists [], [], []. repeat split; constructor.
  - destruct (Q_dec (fst c) x) as [[Hlt|Hgt]|Heq].
    + destruct (IH (S k)) as (A & B & C & E & HA & HB & HC & Hw). exists (c :: A), B, C.
      split; [simpl; congruence|]. split; [constructor; assumption|]. split; [assumption|]. split; [assumption|].
      cbn [where_x]. destruct (Qeq_bool (fst c) x) eqn:G; [apply Qeq_bool_iff in G; lra|].
      rewrite Hw. cbn [length]. f_equal. lia.
    + exists [], [], (c :: l). split; [reflexivity|]. split; [constructor|]. split; [constructor|].
      assert (HF : Forall (fun c => x < fst c) (c :: l)).
      { constructor; [assumption|]. eapply Forall_impl; [|exact Hc]. unfold xle. intros; lra. }
      split; [assumption|]. cbn [length seq].
      clear -HF. revert k. induction HF as [|d m Hd _ IH]; intros k; [reflexivity|].
      cbn [where_x]. destruct (Qeq_bool (fst d) x) eqn:G; [apply Qeq_bool_iff in G; lra|]. apply IH.
    + destruct (IH (S k)) as (A & B & C & E & HA & HB & HC & Hw).
      assert (A = []).
      { destruct A as [|d A]; [reflexivity|]. exfalso. inversion HA as [|? ? Hd _]; subst.
        rewrite Forall_forall in Hc. specialize (Hc d ltac:(left; reflexivity)). unfold xle in Hc. lra. }
      subst A. exists [], (c :: B), C. split; [simpl in *; congruence|]. split; [constructor|].
      split; [constructor; assumption|]. split; [assumption|].
      cbn [where_x]. rewrite (proj2 (Qeq_bool_iff _ _) Heq), Hw. cbn [length seq]. rewrite !Nat.add_0_r. reflexivity.
Qed.

Lemma last_seq s n d : last (seq (S s) n) d = if Nat.eqb n 0 then d else (s + n)%nat.
Proof.
  destruct n as [|n]; [reflexivity|]. rewrite seq_S, last_last. simpl. lia.
Qed.

Lemma primary_spec h energy x :
  StronglySorted xle (coords h) ->
  (exists c, In c (coords h) /\ fst c == x) -> (exists c, In c (coords h) /\ ~ fst c == x) ->
  exists r m, get_primary_competition h energy x = Ok r /\ r == energy - m
  /\ (exists c, In c (coords h) /\ ~ fst c == x /\ snd c = m)
  /\ (forall c, In c (coords h) -> ~ fst c == x -> m <= snd c).
Proof.
  intros Hs (c & Hc & Hcx) (d & Hd & Hdx). unfold get_primary_competition.
  destruct (where_x_spec (coords h) x Hs 0) as (A & B & C & E & HA & HB & HC & Hw).
  rewrite Hw. cbn [plus].
  assert (HBne : B <> []).
  { intros ->. rewrite E in Hc. cbn [app] in Hc. rewrite Forall_forall in HA, HC.
    apply in_app_or in Hc as [Hc|Hc]; [specialize (HA c Hc)|specialize (HC c Hc)]; lra. }
  destruct (length B) as [|b] eqn:Eb; [apply length_zero_iff_nil in Eb; congruence|].
  cbn [seq]. rewrite last_seq.
  assert (Hmax : ((if (b =? 0)%nat then length A else length A + b) + 1 = length A + length B)%nat).
  { destruct (Nat.eqb_spec b 0); lia. }
  rewrite Hmax.
  assert (Hcomp : firstn (length A) (coords h) ++ skipn (length A + length B) (coords h) = A ++ C).
  { rewrite E. rewrite firstn_app, Nat.sub_diag, firstn_all, firstn_O, app_nil_r. f_equal.
    rewrite app_assoc, skipn_app. rewrite (skipn_all2 (A ++ B)) by (rewrite app_length; lia).
    rewrite app_length, Nat.sub_diag. reflexivity. }
  rewrite Hcomp.
  assert (Hiff : forall e, In e (A ++ C) <-> In e (coords h) /\ ~ fst e == x).
  { intros e. rewrite E, !in_app_iff. rewrite Forall_forall in HA, HB, HC. split.
    - intros [He|He]; (split; [tauto|]); [specialize (HA e He)|specialize (HC e He)]; lra.
    - intros [[He|[He|He]] Hne]; auto. specialize (HB e He). contradiction. }
  destruct (min_list_spec (map snd (A ++ C))) as (m & Hm & Hin & Hle).
  { assert (Hd' : In d (A ++ C)) by (apply Hiff; auto). intros G. apply map_eq_nil in G. rewrite G in Hd'. destruct Hd'. }
  rewrite Hm. exists (energy - m), m. split; [reflexivity|]. split; [reflexivity|].
  apply in_map_iff in Hin as (e & Ee & He). apply Hiff in He as [He Hne]. split.
  - exists e. auto.
  - intros e' He' Hne'. apply Hle. apply in_map. apply Hiff. auto.
Qed.

Lemma range_defined h chain a b :
  correct_hull (coords h) (qhull h) chain -> 0 <= a -> a <= b -> b <= 1 ->
  exact_coordinate (coords h) chain a -> exact_coordinate (coords h) chain b ->
  exists l, get_coords_in_range h a b = Ok l /\ heights_defined l /\ convex_points l.
Proof.
  intros Hok Ha Hab Hb Hea Heb.
  destruct (range_spec h chain Hok a b Ha Hab Hb Hea Heb) as (ya & yb & H1 & H2 & H3 & H4 & H5 & H6 & H7).
  eexists. split; [exact H7|]. apply range_props; assumption.
Qed.
