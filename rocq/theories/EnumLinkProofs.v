(* The modelled ComputedReaction.balance meets the assumptions of C31. *)
From Verif Require Import Prelude NumQ SumQ UtilsModel ReactionModel ReactionSpec ReactionBaseProofs ReactionBalanceProofs EnumModel EnumSpec EnumLinkModel.
From Coq Require Import Lqa Lia.
Open Scope nat_scope.

Lemma sumQ_le_one {A} (f : A -> Q) l x : (forall a, In a l -> (f a <= 0)%Q) -> In x l -> (sumQ f l <= f x)%Q.
Proof.
  induction l as [|a l IH]; intros H Hin; [destruct Hin|]. rewrite sumQ_cons. destruct Hin as [->|Hin].
  - pose proof (sumQ_nonpos f l (fun b Hb => H b (or_intror Hb))). lra.
  - pose proof (H a (or_introl eq_refl)). pose proof (IH (fun b Hb => H b (or_intror Hb)) Hin). lra.
Qed.

Lemma combine_app {A B} (a b : list A) (c d : list B) : length a = length c -> combine (a ++ b) (c ++ d) = combine a c ++ combine b d.
Proof. revert c. induction a as [|x a IH]; intros [|y c] H; try discriminate; [reflexivity|]. simpl. rewrite IH by (injection H; auto). reflexivity. Qed.

Section Link.
Variable C : chem.
Hypothesis W : wf_chem C.
Hypothesis Hbig : forall c e, In e (ReactionModel.elems C c) -> (1 # 100 < amt C (red C c) e)%Q.
Variable ent : nat -> entry.
Hypothesis Hid : forall i, e_id (ent i) = i.
Variable solve : list nat -> list nat -> list nat -> list Q.
Variable rank : list nat -> list nat -> nat.
Hypothesis Hsolve : forall r p c, length (solve r p c) = length r + length p.
Notation comp i := (red C (e_comp (ent i))).
Notation els i := (ReactionModel.elems C (e_comp (ent i))).

(* One side of a conserving reaction has no element that the other lacks. *)
Lemma no_extra_element (a b : list nat) (ka kb : list Q) (s : Q) x : length a = length ka -> length b = length kb -> (s == 1 \/ s == -1)%Q ->
  (forall k, In k ka -> (s * k <= -(1 # 1000000))%Q) ->
  (Qabs (net C (combine (map (fun i => comp i) a) ka ++ combine (map (fun i => comp i) b) kb) x) <= 1 # 100000000)%Q ->
  (exists i, In i a /\ In x (els i)) -> exists i, In i b /\ In x (els i).
Proof.
  intros La Lb Hs Hk Hn (i & Hi & Hx).
  destruct (Exists_dec (fun j => In x (els j)) b (fun j => in_dec Nat.eq_dec x (els j))) as [E|E].
  { apply Exists_exists in E as (j & Hj & Hxj). exists j. split; assumption. }
  exfalso. assert (Hb0 : (net C (combine (map (fun i => comp i) b) kb) x == 0)%Q).
  { apply (net_unlisted C W). intros Hin. apply in_flat_map in Hin as (c & Hc & Hxc). apply in_map_iff in Hc as ([c' k] & <- & Hc). cbn [fst] in Hxc.
    apply in_combine_l in Hc. apply in_map_iff in Hc as (j & <- & Hj). rewrite (wf_red_elems C W) in Hxc. apply E, Exists_exists. exists j. split; assumption. }
  unfold net in Hn. rewrite sumQ_app in Hn. fold (net C (combine (map (fun i => comp i) b) kb) x) in Hn. rewrite Hb0 in Hn.
  set (f := fun ck : nat * Q => (amt C (fst ck) x * snd ck)%Q) in *.
  assert (Hamt : forall c, (0 <= amt C c x)%Q).
  { intros c. destruct (in_dec Nat.eq_dec x (ReactionModel.elems C c)) as [H|H]; [apply Qlt_le_weak, (wf_pos C W); exact H|rewrite (wf_zero C W c x H); apply Qle_refl]. }
  assert (Hscaled : (sumQ (fun ck => s * f ck) (combine (map (fun i => comp i) a) ka) <= - (1 # 1000000) * amt C (comp i) x)%Q).
  { assert (Hin : exists k, In (comp i, k) (combine (map (fun i => comp i) a) ka)).
    { clear -La Hi. revert ka La. induction a as [|y a IH]; intros [|k ka] L; try discriminate; [destruct Hi|destruct Hi as [->|Hi]].
      - exists k. left. reflexivity.
      - destruct (IH Hi ka) as (k' & H); [injection L; auto|]. exists k'. right. exact H. }
    destruct Hin as (k & Hin). eapply Qle_trans; [apply (sumQ_le_one _ _ (comp i, k)); [|exact Hin]|].
    - intros [c k'] Hck. unfold f. cbn [fst snd]. apply in_combine_r in Hck. specialize (Hk k' Hck). specialize (Hamt c). nra.
    - unfold f. cbn [fst snd]. apply in_combine_r in Hin. specialize (Hk k Hin). specialize (Hamt (comp i)). nra. }
  rewrite sumQ_scale_l in Hscaled. specialize (Hbig (e_comp (ent i)) x Hx). set (N := sumQ f _) in *. apply Qabs_Qle_condition in Hn as [N1 N2].
  destruct Hs as [Hs|Hs]; rewrite Hs in Hscaled; lra.
Qed.

Lemma sides_of_signs (r p : list nat) (kr kp : list Q) : length r = length kr -> length p = length kp ->
  (forall k, In k kr -> (k <= -(1 # 1000000))%Q) -> (forall k, In k kp -> ((1 # 1000000) <= k)%Q) ->
  map fst (filter (fun ek : entry * Q => Qlt_bool (snd ek) 0) (combine (map ent r ++ map ent p) (kr ++ kp))) = map ent r
  /\ map fst (filter (fun ek : entry * Q => Qlt_bool 0 (snd ek)) (combine (map ent r ++ map ent p) (kr ++ kp))) = map ent p.
Proof.
  intros Lr Lp Hr Hp. rewrite combine_app by (rewrite map_length; exact Lr). rewrite !filter_app, !map_app.
  assert (G : forall (f : Q -> bool) (v : bool) l ks, length l = length ks -> (forall k, In k ks -> f k = v) ->
     map fst (filter (fun ek : entry * Q => f (snd ek)) (combine (map ent l) ks)) = if v then map ent l else []).
  { clear. intros f v. induction l as [|x l IH]; intros [|k ks] L H; try discriminate; [destruct v; reflexivity|]. simpl. rewrite (H k (or_introl eq_refl)).
    pose proof (IH ks ltac:(injection L; auto) (fun k' Hk' => H k' (or_intror Hk'))) as E. destruct v; simpl; rewrite E; reflexivity. }
  rewrite (G (fun k => Qlt_bool k 0) true r kr Lr), (G (fun k => Qlt_bool k 0) false p kp Lp), (G (fun k => Qlt_bool 0 k) false r kr Lr), (G (fun k => Qlt_bool 0 k) true p kp Lp).
  - rewrite app_nil_r. split; reflexivity.
  - intros k Hk. apply Qlt_bool_iff'. specialize (Hp k Hk). lra.
  - intros k Hk. apply not_true_iff_false. rewrite Qlt_bool_iff'. specialize (Hr k Hk). lra.
  - intros k Hk. apply not_true_iff_false. rewrite Qlt_bool_iff'. specialize (Hp k Hk). lra.
  - intros k Hk. apply Qlt_bool_iff'. specialize (Hr k Hk). lra.
Qed.

Lemma reverse_sides es ks nerr :
  reactant_entries (computed_reverse C (computed_init C es ks nerr)) = product_entries (computed_init C es ks nerr)
  /\ product_entries (computed_reverse C (computed_init C es ks nerr)) = reactant_entries (computed_init C es ks nerr).
Proof.
  unfold computed_reverse, reactant_entries, product_entries, computed_init. cbn [c_entries c_base coeffs basic_init].
  assert (B : forall q, Qlt_bool (-1 * q) 0 = Qlt_bool 0 q /\ Qlt_bool 0 (-1 * q) = Qlt_bool q 0).
  { intros q. split; apply eq_true_iff_eq; rewrite !Qlt_bool_iff'; split; lra. }
  split; revert ks; induction es as [|e es IH]; intros [|k ks]; try reflexivity; simpl; destruct (B k) as [B1 B2].
  - rewrite B1. destruct (Qlt_bool 0 k); simpl; rewrite (IH ks); reflexivity.
  - rewrite B2. destruct (Qlt_bool k 0); simpl; rewrite (IH ks); reflexivity.
Qed.

Theorem real_good_balance : good_balance (fun i => els i) (forward_rxn C ent solve rank) (backward_rxn C ent solve rank).
Proof.
  intros r p Hr Hp. unfold forward_rxn, backward_rxn, real_balance, computed_balance.
  set (rc := map (fun e => red C (e_comp e)) (map ent r)). set (pc := map (fun e => red C (e_comp e)) (map ent p)).
  destruct (balance_coeffs C rc pc (solve r p) (rank r p)) as [ks low] eqn:E.
  replace (Nat.eqb (length (map ent r) + length (map ent p)) 1) with false.
  2:{ symmetry. apply Nat.eqb_neq. rewrite !map_length. destruct r; [contradiction|]. destruct p; [contradiction|]. simpl. lia. }
  unfold seen_by_react. cbn [er_reactants er_products er_errors].
  destruct (reverse_sides (map ent r ++ map ent p) ks low) as [R1 R2]. rewrite R1, R2. split; [reflexivity|]. split; [reflexivity|]. split; [reflexivity|].
  cbn [c_base computed_init num_errors basic_init]. intros ->.
  assert (Lrc : length rc = length r) by (unfold rc; rewrite !map_length; reflexivity). assert (Lpc : length pc = length p) by (unfold pc; rewrite !map_length; reflexivity).
  assert (Eb : basic_balance C rc pc (solve r p) (rank r p) = Ok (basic_init C (rc ++ pc) ks (Some true) (Some 0))).
  { unfold basic_balance. rewrite E. replace (Nat.eqb (length (rc ++ pc)) 1) with false; [reflexivity|]. symmetry. apply Nat.eqb_neq. rewrite app_length, Lrc, Lpc.
    destruct r; [contradiction|]. destruct p; [contradiction|]. simpl. lia. }
  apply (balance_sound C W) in Eb as (_ & Hl & Hbal & _); [|intros c; rewrite Hsolve, Lrc, Lpc; reflexivity].
  cbn [balanced basic_init coeffs comps num_errors species] in Hl, Hbal. destruct (Hbal eq_refl) as (Hnet & _ & Hsign). specialize (Hsign eq_refl).
  unfold species in Hnet. cbn [comps coeffs basic_init] in Hnet. rewrite app_length, Lrc, Lpc in Hl.
  set (kr := firstn (length r) ks). set (kp := skipn (length r) ks). assert (Ek : ks = kr ++ kp) by (symmetry; apply firstn_skipn).
  assert (Lkr : length r = length kr) by (unfold kr; rewrite firstn_length; lia). assert (Lkp : length p = length kp) by (unfold kp; rewrite skipn_length; lia).
  assert (Hkr : forall k, In k kr -> (k <= -(1 # 1000000))%Q).
  { intros k Hk. apply In_nth_error in Hk as (i & Hi). assert (i < length kr) by (apply nth_error_Some; congruence).
    apply (Hsign i k); [rewrite Ek, nth_error_app1; assumption|lia]. }
  assert (Hkp : forall k, In k kp -> ((1 # 1000000) <= k)%Q).
  { intros k Hk. apply In_nth_error in Hk as (i & Hi). apply (Hsign (length kr + i) k); [|lia]. rewrite Ek, nth_error_app2 by lia. rewrite <- Hi. f_equal. lia. }
  destruct (sides_of_signs r p kr kp Lkr Lkp Hkr Hkp) as [S1 S2].
  assert (Eid : forall l, map e_id (map ent l) = l).
  { intros l. rewrite map_map. rewrite <- (map_id l) at 2. apply map_ext. exact Hid. }
  assert (Erc : rc = map (fun i => comp i) r) by (unfold rc; rewrite map_map; reflexivity). assert (Epc : pc = map (fun i => comp i) p) by (unfold pc; rewrite map_map; reflexivity).
  split; [|split].
  - unfold reactant_entries. cbn [c_entries c_base computed_init coeffs basic_init]. rewrite Ek, S1, Eid. intros x. reflexivity.
  - unfold product_entries. cbn [c_entries c_base computed_init coeffs basic_init]. rewrite Ek, S2, Eid. intros x. reflexivity.
  - intros x. specialize (Hnet x). rewrite Ek, combine_app in Hnet by lia. rewrite Erc, Epc in Hnet. split.
    + apply (no_extra_element r p kr kp 1 x Lkr Lkp); [left; reflexivity|intros k Hk; specialize (Hkr k Hk); lra|exact Hnet].
    + apply (no_extra_element p r kp kr (-1) x Lkp Lkr); [right; reflexivity|intros k Hk; specialize (Hkp k Hk); lra|].
      eapply Qle_trans; [|exact Hnet]. apply Qle_lteq. right. apply Qabs_wd. unfold net. rewrite !sumQ_app. ring.
Qed.
End Link.
