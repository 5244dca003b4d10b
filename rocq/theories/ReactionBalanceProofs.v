(* C07-C09: balancing and the balanced flag. *)
From Coq Require Import Setoid Lqa.
From Verif Require Import Prelude NumQ UtilsModel UtilsSpec UtilsProofs SumQ ReactionModel ReactionSpec ReactionBaseProofs.
Open Scope nat_scope.

Section Balance.
Variable C : chem.

Lemma loop_spec rs ps solve cl : forall best low ks out,
  balance_loop C rs ps solve cl best low = (ks, out) ->
  (out = None -> low = None /\ ks = best /\
     forall c, In c cl -> candidate_conserves C (rs ++ ps) (solve c) = false)
  /\ (forall n, out = Some n -> (ks = best /\ low = Some n) \/
        exists c, In c cl /\ ks = solve c /\ candidate_conserves C (rs ++ ps) (solve c) = true
                  /\ candidate_errors (length rs) (length ps) (solve c) = n)
  /\ (forall c, In c cl -> candidate_conserves C (rs ++ ps) (solve c) = true ->
        exists n, out = Some n /\ n <= candidate_errors (length rs) (length ps) (solve c))
  /\ (forall m, low = Some m -> exists n, out = Some n /\ n <= m).
Proof.
  induction cl as [|c cl IH]; intros best low ks out H; simpl in H.
  - injection H as <- <-. repeat split.
    + assumption.
    + intros c [].
    + intros n ->. left. auto.
    + intros c [].
    + intros m ->. exists m. auto.
  - destruct (candidate_conserves C (rs ++ ps) (solve c)) eqn:Ec.
    + destruct (Nat.eqb_spec (candidate_errors (length rs) (length ps) (solve c)) 0) as [E0|E0].
      * injection H as <- <-. split; [discriminate|]. split.
        { intros n E. injection E as <-. right. exists c. split; [left; reflexivity|]. repeat split; assumption. }
        split; [intros c' _ _; exists 0; split; [reflexivity|lia]|].
        intros m _. exists 0. split; [reflexivity|lia].
      * destruct (match low with None => true | Some m => Nat.ltb (candidate_errors (length rs) (length ps) (solve c)) m end) eqn:El.
        { apply IH in H as (H1 & H2 & H3 & H4).
          destruct (H4 _ eq_refl) as (n0 & Hn0 & Hle0).
          split; [congruence|]. split.
          - intros n Hn. destruct (H2 n Hn) as [[-> E]|(c' & Hin & HH)].
            + injection E as E. right. exists c. split; [left; reflexivity|]. repeat split; assumption.
            + right. exists c'. split; [right; assumption|assumption].
          - split.
            + intros c' [<-|Hin] Hc'; [exists n0; auto|]. apply H3; assumption.
            + intros m ->. exists n0. split; [assumption|]. apply Nat.ltb_lt in El. lia. }
        { destruct low as [m0|]; [|discriminate]. apply Nat.ltb_ge in El.
          apply IH in H as (H1 & H2 & H3 & H4).
          destruct (H4 _ eq_refl) as (n0 & Hn0 & Hle0).
          split; [congruence|]. split.
          - intros n Hn. destruct (H2 n Hn) as [[-> E]|(c' & Hin & HH)]; [left; auto|].
            right. exists c'. split; [right; assumption|assumption].
          - split.
            + intros c' [<-|Hin] Hc'; [exists n0; split; [assumption|lia]|]. apply H3; assumption.
            + intros m E. injection E as <-. exists n0. auto. }
    + apply IH in H as (H1 & H2 & H3 & H4). split; [|split; [|split]].
      * intros E. destruct (H1 E) as (E1 & E2 & E3). split; [assumption|]. split; [assumption|].
        intros c' [<-|Hin]; [assumption|auto].
      * intros n Hn. destruct (H2 n Hn) as [HH|(c' & Hin & HH)]; [left; assumption|].
        right. exists c'. split; [right; assumption|assumption].
      * intros c' [<-|Hin] Hc'; [congruence|apply H3; assumption].
      * assumption.
Qed.

Lemma errors_shift nr np ks : forall s, length ks = nr + np ->
  length (filter (fun sk => Qlt_bool (fst sk * snd sk) (1 # 1000000)) (combine (repeat (-1)%Q nr ++ repeat 1%Q np) ks))
  = length (filter (fun ik => if Nat.ltb (fst ik) (s + nr) then Qlt_bool (-(1 # 1000000)) (snd ik)
                            else Qlt_bool (snd ik) (1 # 1000000)) (combine (seq s (length ks)) ks)).
Proof.
  revert np ks. induction nr as [|nr IH]; intros np ks s Hl.
  - revert ks s Hl. induction np as [|np IHn]; intros ks s Hl.
    + destruct ks; [reflexivity|discriminate].
    + destruct ks as [|k ks]; [discriminate|]. simpl in Hl. cbn [repeat app combine length seq filter fst snd].
      rewrite Nat.add_0_r, Nat.ltb_irrefl.
      assert (E : Qlt_bool (1 * k) (1 # 1000000) = Qlt_bool k (1 # 1000000)).
      { apply eq_true_iff_eq. rewrite !Qlt_bool_iff'. split; intros; lra. }
      rewrite E. specialize (IHn ks (S s)). cbn [repeat app] in IHn.
      assert (Hl' : length ks = 0 + np) by lia. specialize (IHn Hl').
      assert (G : forall l, (forall ik, In ik l -> s < fst ik) ->
         filter (fun ik => if Nat.ltb (fst ik) s then Qlt_bool (-(1 # 1000000)) (snd ik) else Qlt_bool (snd ik) (1 # 1000000)) l
         = filter (fun ik : nat * Q => if Nat.ltb (fst ik) (S s + 0) then Qlt_bool (-(1 # 1000000)) (snd ik) else Qlt_bool (snd ik) (1 # 1000000)) l).
      { intros l Hs. apply filter_ext_in. intros ik Hik. specialize (Hs ik Hik).
        rewrite (proj2 (Nat.ltb_ge _ _)) by lia. rewrite (proj2 (Nat.ltb_ge _ _)) by lia. reflexivity. }
      rewrite G.
      2:{ intros [i q] Hik. apply in_combine_l in Hik. apply in_seq in Hik. simpl. lia. }
      destruct (Qlt_bool k (1 # 1000000)); cbn [length]; rewrite IHn; reflexivity.
  - destruct ks as [|k ks]; [discriminate|]. simpl in Hl. cbn [repeat app combine length seq filter fst snd].
    rewrite (proj2 (Nat.ltb_lt s (s + S nr))) by lia.
    assert (E : Qlt_bool (-1 * k) (1 # 1000000) = Qlt_bool (-(1 # 1000000)) k).
    { apply eq_true_iff_eq. rewrite !Qlt_bool_iff'. split; intros; lra. }
    rewrite E. specialize (IH np ks (S s) ltac:(lia)).
    replace (s + S nr) with (S s + nr) by lia.
    destruct (Qlt_bool (-(1 # 1000000)) k); cbn [length]; rewrite IH; reflexivity.
Qed.
Lemma errors_wrong_signs nr np ks : length ks = nr + np -> candidate_errors nr np ks = wrong_signs nr ks.
Proof. intros H. unfold candidate_errors, wrong_signs. rewrite (errors_shift nr np ks 0 H). reflexivity. Qed.

Lemma wrong_signs_0 nr ks : wrong_signs nr ks = 0 ->
  forall i k, nth_error ks i = Some k ->
    (i < nr -> (k <= -(1 # 1000000))%Q) /\ (nr <= i -> ((1 # 1000000) <= k)%Q).
Proof.
  unfold wrong_signs. intros H i k Hk. apply length_zero_iff_nil in H.
  assert (Hin : In (i, k) (combine (seq 0 (length ks)) ks)).
  { assert (Hi : i < length ks) by (apply nth_error_Some; congruence).
    apply nth_error_In with (n := i).
    assert (G : forall ks s i, nth_error ks i = Some k -> nth_error (combine (seq s (length ks)) ks) i = Some (s + i, k)).
    { clear. induction ks as [|q ks IH]; intros s i Hk; [destruct i; discriminate|].
      destruct i as [|i]; simpl in *; [injection Hk as ->; rewrite Nat.add_0_r; reflexivity|].
      rewrite IH by assumption. f_equal. f_equal. lia. }
    rewrite (G ks 0 i Hk). reflexivity. }
  assert (Hnot : ~ In (i, k) (filter (fun ik => if Nat.ltb (fst ik) nr then Qlt_bool (-(1 # 1000000)) (snd ik)
                            else Qlt_bool (snd ik) (1 # 1000000)) (combine (seq 0 (length ks)) ks))).
  { rewrite H. intros []. }
  rewrite filter_In in Hnot. cbn [fst snd] in Hnot.
  split; intros Hi.
  - apply Qlt_bool_false. destruct (Qlt_bool (-(1#1000000)) k) eqn:E; [|reflexivity].
    exfalso. apply Hnot. split; [assumption|]. rewrite (proj2 (Nat.ltb_lt i nr)) by assumption. reflexivity.
  - apply Qlt_bool_false. destruct (Qlt_bool k (1#1000000)) eqn:E; [|reflexivity].
    exfalso. apply Hnot. split; [assumption|]. rewrite (proj2 (Nat.ltb_ge i nr)) by assumption. reflexivity.
Qed.

Lemma isclose_0 a : isclose a 0 = true <-> (Qabs a <= 1 # 100000000)%Q.
Proof.
  unfold isclose. rewrite Qle_bool_iff. change (Qabs 0) with 0%Q.
  assert (E : (a - 0 == a)%Q) by ring. rewrite E. split; intros H; lra.
Qed.

Lemma net_unlisted (W : wf_chem C) l e : ~ In e (flat_map (elems C) (map fst l)) -> (net C l e == 0)%Q.
Proof.
  intros H. apply sumQ_all_zero. intros [c k] Hc. cbn [fst snd]. rewrite (wf_zero C W); [ring|].
  intros He. apply H, in_flat_map. exists c. split; [apply (in_map fst _ (c, k)); assumption|assumption].
Qed.

Lemma conserves_iff (W : wf_chem C) cs ks : length cs = length ks ->
  candidate_conserves C cs ks = true <-> forall e, (Qabs (net C (combine cs ks) e) <= 1 # 100000000)%Q.
Proof.
  intros Hl. unfold candidate_conserves. rewrite forallb_forall. split; intros H e.
  - destruct (in_dec Nat.eq_dec e (flat_map (elems C) cs)) as [Hin|Hout].
    + specialize (H e Hin). rewrite isclose_0, Qsum_map in H. exact H.
    + rewrite net_unlisted; [vm_compute; discriminate|assumption|]. rewrite combine_fst; assumption.
  - intros _. rewrite isclose_0, Qsum_map. apply H.
Qed.

Lemma in_constraint_list nr np rank c : In c (constraint_list nr np rank) <->
  (subseq c (seq nr np) \/ subseq c (seq 0 nr)) /\ 1 <= length c <= Nat.max 1 (nr + np - rank).
Proof.
  unfold constraint_list.
  assert (E : num_constraints nr np rank = Nat.max 1 (nr + np - rank)).
  { unfold num_constraints. destruct (Nat.leb_spec 2 (nr + np - rank)); lia. }
  rewrite E, in_app_iff, !in_flat_map. split.
  - intros [(n & Hn & Hc)|(n & Hn & Hc)]; apply in_combinations in Hc as [H1 H2];
      rewrite <- in_rev, in_seq in Hn; (split; [tauto|lia]).
  - intros [[H|H] Hl]; [left|right]; exists (length c); rewrite <- in_rev, in_seq, in_combinations;
      (split; [lia|split; [assumption|reflexivity]]).
Qed.

Lemma balance_coeffs_spec (W : wf_chem C) rs ps solve rank ks low :
  (forall c, length (solve c) = length rs + length ps) ->
  balance_coeffs C rs ps solve rank = (ks, low) ->
  length ks = length rs + length ps
  /\ (low = None -> ks = repeat 0%Q (length rs + length ps)
       /\ forall c, tried (length rs) (length ps) rank c -> exists e, (1 # 100000000 < Qabs (net C (combine (rs ++ ps) (solve c)) e))%Q)
  /\ (forall n, low = Some n -> (forall e, (Qabs (net C (combine (rs ++ ps) ks) e) <= 1 # 100000000)%Q)
       /\ wrong_signs (length rs) ks = n
       /\ forall c, tried (length rs) (length ps) rank c ->
            (forall e, (Qabs (net C (combine (rs ++ ps) (solve c)) e) <= 1 # 100000000)%Q) ->
            n <= wrong_signs (length rs) (solve c)).
Proof.
  intros Hs H. unfold balance_coeffs in H. apply loop_spec in H as (H1 & H2 & H3 & _).
  assert (Hcl : forall c, length (rs ++ ps) = length (solve c)) by (intros c; rewrite app_length, Hs; reflexivity).
  destruct low as [n|].
  - destruct (H2 n eq_refl) as [[_ E]|(c & Hin & -> & Hc & He)]; [discriminate|].
    split; [apply Hs|]. split; [discriminate|]. intros n' E. injection E as <-.
    split; [apply conserves_iff; auto|]. split; [rewrite <- He; symmetry; apply errors_wrong_signs; apply Hs|].
    intros c' Hc' Hcons. destruct (H3 c') as (n' & E & Hle).
    + apply in_constraint_list. exact Hc'.
    + apply conserves_iff; auto.
    + injection E as <-. rewrite errors_wrong_signs in Hle by apply Hs. exact Hle.
  - destruct (H1 eq_refl) as (_ & -> & Hn). split; [rewrite repeat_length; reflexivity|].
    split; [|discriminate]. intros _. split; [reflexivity|]. intros c Hc.
    specialize (Hn c (proj2 (in_constraint_list _ _ _ _) Hc)).
    unfold candidate_conserves in Hn.
    rewrite <- not_true_iff_false, forallb_forall in Hn.
    (* find the offending element constructively *)
    assert (D : forall l, (exists e, In e l /\ isclose (Qsum (map (fun ck => amt C (fst ck) e * snd ck)%Q (combine (rs ++ ps) (solve c)))) 0 = false)
       \/ (forall e, In e l -> isclose (Qsum (map (fun ck => amt C (fst ck) e * snd ck)%Q (combine (rs ++ ps) (solve c)))) 0 = true)).
    { induction l as [|e l IH]; [right; intros e []|].
      destruct (isclose (Qsum (map (fun ck => amt C (fst ck) e * snd ck)%Q (combine (rs ++ ps) (solve c)))) 0) eqn:E.
      - destruct IH as [(e' & Hin & He')|IH]; [left; exists e'; split; [right; assumption|assumption]|].
        right. intros e' [<-|Hin]; [assumption|auto].
      - left. exists e. split; [left; reflexivity|assumption]. }
    destruct (D (flat_map (elems C) (rs ++ ps))) as [(e & _ & He)|D']; [|contradiction].
    exists e. unfold net. rewrite <- (Qsum_map (fun ck => amt C (fst ck) e * snd ck)%Q). 
    apply Qnot_le_lt. intros Hle. apply isclose_0 in Hle. congruence.
Qed.

Theorem balance_sound (W : wf_chem C) rs ps solve rank r :
  (forall c, length (solve c) = length rs + length ps) ->
  basic_balance C rs ps solve rank = Ok r ->
  comps r = rs ++ ps /\ length (coeffs r) = length (comps r)
  /\ (balanced r = true ->
       (forall e, (Qabs (net C (species r) e) <= 1 # 100000000)%Q)
       /\ num_errors r = Some (wrong_signs (length rs) (coeffs r))
       /\ (num_errors r = Some 0 -> forall i k, nth_error (coeffs r) i = Some k ->
            (i < length rs -> (k <= -(1 # 1000000))%Q) /\ (length rs <= i -> ((1 # 1000000) <= k)%Q)))
  /\ (balanced r = false -> num_errors r = None /\ forall k, In k (coeffs r) -> k = 0%Q).
Proof.
  intros Hs H. unfold basic_balance in H. destruct (balance_coeffs C rs ps solve rank) as [ks low] eqn:E.
  apply (balance_coeffs_spec W) in E as (Hl & E1 & E2); [|assumption].
  destruct low as [n|].
  - destruct (Nat.eqb (length (rs ++ ps)) 1); [discriminate|]. injection H as <-.
    destruct (E2 n eq_refl) as (F1 & F2 & _). simpl. split; [reflexivity|]. split; [rewrite app_length; assumption|].
    split; [|discriminate]. intros _. split; [exact F1|]. split; [congruence|].
    intros E0. injection E0 as ->. apply wrong_signs_0. assumption.
  - injection H as <-. simpl. split; [reflexivity|]. split; [rewrite repeat_length; reflexivity|].
    split; [discriminate|]. intros _. split; [reflexivity|]. intros k Hk. apply repeat_spec in Hk. assumption.
Qed.

Theorem balance_complete (W : wf_chem C) rs ps solve rank c :
  (forall c, length (solve c) = length rs + length ps) -> length rs + length ps <> 1 ->
  tried (length rs) (length ps) rank c ->
  (forall e, (Qabs (net C (combine (rs ++ ps) (solve c)) e) <= 1 # 100000000)%Q) ->
  exists r n, basic_balance C rs ps solve rank = Ok r /\ balanced r = true
  /\ num_errors r = Some n /\ n <= wrong_signs (length rs) (solve c).
Proof.
  intros Hs H1 Hc Hcons. unfold basic_balance. destruct (balance_coeffs C rs ps solve rank) as [ks low] eqn:E.
  apply (balance_coeffs_spec W) in E as (Hl & E1 & E2); [|assumption].
  destruct low as [n|].
  - rewrite app_length. destruct (Nat.eqb_spec (length rs + length ps) 1); [contradiction|].
    eexists _, n. split; [reflexivity|]. split; [reflexivity|]. split; [reflexivity|].
    apply (E2 n eq_refl); assumption.
  - destruct (E1 eq_refl) as (_ & Hno). destruct (Hno c Hc) as (e & He). specialize (Hcons e).
    exfalso. apply Qlt_not_le in He. contradiction.
Qed.

(* C09 *)
Theorem flag_iff (W : wf_chem C) cs ks n : NoDup cs -> length cs = length ks ->
  balanced (basic_init C cs ks None n) = true
  <-> forall e, (Qabs (produced C (combine cs ks) e - consumed C (combine cs ks) e) <= 1 # 1000000)%Q.
Proof.
  intros Hn Hl. rewrite <- almost_equal_iff by assumption.
  pose proof (reactant_coeffs_nodup C cs ks None n Hn Hl) as E1.
  pose proof (product_coeffs_nodup C cs ks None n Hn Hl) as E2.
  simpl in E1, E2. simpl. rewrite E1, E2. reflexivity.
Qed.

(* C08 *)
Theorem computed_balance_found (W : wf_chem C) rs ps solve rank c :
  let rc := map (fun e => red C (e_comp e)) rs in
  let pc := map (fun e => red C (e_comp e)) ps in
  NoDup (rc ++ pc) ->
  (forall c, length (solve c) = length rs + length ps) -> length rs + length ps <> 1 ->
  tried (length rs) (length ps) rank c ->
  (forall e, (Qabs (net C (combine (rc ++ pc) (solve c)) e) <= 1 # 100000000)%Q) ->
  exists r n, computed_balance C rs ps solve rank = Ok r /\ balanced (c_base r) = true
  /\ num_errors (c_base r) = Some n
  /\ (forall e, (Qabs (net C (species (c_base r)) e) <= 1 # 100000000)%Q).
Proof.
  intros rc pc Hnd Hs H1 Hc Hcons. unfold computed_balance. fold rc pc.
  destruct (balance_coeffs C rc pc solve rank) as [ks low] eqn:E.
  assert (Lr : length rc = length rs) by apply map_length. assert (Lp : length pc = length ps) by apply map_length.
  apply (balance_coeffs_spec W) in E as (Hl & E1 & E2); [|rewrite Lr, Lp; assumption].
  rewrite Lr, Lp in *. destruct (Nat.eqb_spec (length rs + length ps) 1); [contradiction|].
  destruct low as [n0|].
  - destruct (E2 n0 eq_refl) as (F1 & _). eexists _, n0. split; [reflexivity|].
    unfold computed_init. cbn [c_base].
    assert (Em : map (fun e => red C (e_comp e)) (rs ++ ps) = rc ++ pc) by (unfold rc, pc; apply map_app).
    rewrite Em. split; [|split; [reflexivity|exact F1]].
    apply flag_iff; [assumption|assumption|rewrite app_length, Lr, Lp; symmetry; assumption|].
    intros e. rewrite <- net_sides. eapply Qle_trans; [apply F1|]. vm_compute. discriminate.
  - destruct (E1 eq_refl) as (_ & Hno). destruct (Hno c Hc) as (e & He). specialize (Hcons e).
    exfalso. apply Qlt_not_le in He. contradiction.
Qed.

(* whenever no candidate conserves the elements, the result is flagged balanced *)
Theorem computed_balance_not_found (W : wf_chem C) rs ps solve rank :
  let rc := map (fun e => red C (e_comp e)) rs in
  let pc := map (fun e => red C (e_comp e)) ps in
  (forall c, length (solve c) = length rs + length ps) -> length rs + length ps <> 1 ->
  (forall c, tried (length rs) (length ps) rank c ->
     exists e, (1 # 100000000 < Qabs (net C (combine (rc ++ pc) (solve c)) e))%Q) ->
  (exists b, basic_balance C rc pc solve rank = Ok b /\ balanced b = false)
  /\ exists r, computed_balance C rs ps solve rank = Ok r /\ balanced (c_base r) = true
  /\ num_errors (c_base r) = None /\ forall k, In k (coeffs (c_base r)) -> k = 0%Q.
Proof.
  intros rc pc Hs H1 Hno. unfold computed_balance, basic_balance. fold rc pc.
  destruct (balance_coeffs C rc pc solve rank) as [ks low] eqn:E.
  assert (Lr : length rc = length rs) by apply map_length. assert (Lp : length pc = length ps) by apply map_length.
  assert (Elow : low = None /\ ks = repeat 0%Q (length rs + length ps)).
  { unfold balance_coeffs in E. apply loop_spec in E as (E1 & E2 & _).
    destruct low as [n|].
    - exfalso. destruct (E2 n eq_refl) as [[_ F]|(c & Hin & -> & Hc & _)]; [discriminate|].
      rewrite in_constraint_list, Lr, Lp in Hin. destruct (Hno c Hin) as (e & He).
      rewrite conserves_iff in Hc; [|assumption|rewrite app_length, Hs, Lr, Lp; reflexivity].
      specialize (Hc e). apply Qlt_not_le in He. contradiction.
    - destruct (E1 eq_refl) as (_ & -> & _). rewrite Lr, Lp. auto. }
  destruct Elow as [-> ->]. split; [eexists; split; reflexivity|].
  destruct (Nat.eqb_spec (length rs + length ps) 1); [contradiction|].
  eexists. split; [reflexivity|]. unfold computed_init. cbn [c_base balanced basic_init num_errors coeffs].
  split; [|split; [reflexivity|intros k Hk; apply repeat_spec in Hk; assumption]].
  assert (Z : forall (p : nat * Q -> bool), p = (fun kv => Qlt_bool (snd kv) 0) \/ p = (fun kv => Qlt_bool 0 (snd kv)) ->
     forall cs : list nat, filter p (combine cs (repeat 0%Q (length rs + length ps))) = []).
  { intros p Hp cs. remember (combine cs (repeat 0%Q (length rs + length ps))) as l eqn:El.
    assert (Hl : forall kv, In kv l -> snd kv = 0%Q).
    { subst l. intros [k v] Hin. apply in_combine_r in Hin. apply repeat_spec in Hin. exact Hin. }
    clear El. induction l as [|kv l IH]; [reflexivity|]. simpl.
    assert (Ez : p kv = false). { destruct Hp as [-> | ->]; rewrite (Hl kv) by (left; reflexivity); reflexivity. }
    rewrite Ez. apply IH. intros kv' H'. apply Hl. right. assumption. }
  rewrite !Z by tauto. reflexivity.
Qed.
End Balance.
