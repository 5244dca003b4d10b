From Coq Require Import Lqa.
From Verif Require Import Prelude NumQ ListFacts UtilsModel UtilsSpec UtilsProofs ReactionModel ReactionSpec PathModel PathSpec PathProofs RxnSetBaseProofs RxnSetParProofs EnumReactProofs SolverModel SolverSpec SolverProofs SolverTopProofs SolverSolveProofs.
Open Scope nat_scope.

(* --- sums of weighted rows --- *)
Lemma weighted_cons m ms row rows j : weighted (m :: ms) (row :: rows) j = (m * nth j row 0 + weighted ms rows j)%Q.
Proof. reflexivity. Qed.

Lemma weighted_eq ms ms' rows j : Forall2 Qeq ms ms' -> (weighted ms rows j == weighted ms' rows j)%Q.
Proof.
  intros H. revert rows. induction H as [|m m' ms ms' E H IH]; intros [|row rows]; try reflexivity. rewrite !weighted_cons, E, IH. reflexivity.
Qed.

Lemma trimmed_nth row row' j : trimmed row row' -> (Qabs (nth j row 0 - nth j row' 0) <= 1 # 100000000)%Q.
Proof.
  intros H. revert j. induction H as [|a b row row' Hab H IH]; intros j.
  - destruct j; cbn; unfold Qle; cbn; lia.
  - destruct j as [|j]; [|apply IH]. cbn. destruct Hab as [->|[Ha ->]].
    + assert (E : (Qabs (a - a) == 0)%Q) by (setoid_replace (a - a)%Q with 0%Q by ring; reflexivity). rewrite E. unfold Qle; cbn; lia.
    + assert (E : (Qabs (a - 0) == Qabs a)%Q) by (apply Qabs_wd; ring). rewrite E. exact Ha.
Qed.

Lemma weighted_trimmed ms : forall rows rows' j, Forall2 trimmed rows rows' -> Forall (fun m => (0 <= m)%Q) ms -> length ms = length rows ->
  (Qabs (weighted ms rows j - weighted ms rows' j) <= (1 # 100000000) * Qsum ms)%Q.
Proof.
  induction ms as [|m ms IH]; intros rows rows' j HF Hm HL.
  - destruct rows; [|discriminate]. inversion HF; subst. unfold weighted. cbn. unfold Qle; cbn; lia.
  - destruct rows as [|row rows]; [discriminate|]. inversion HF as [|? row' ? rows2 Ht HF']; subst. inversion Hm as [|? ? Hm0 Hm']; subst. cbn in HL. injection HL as HL.
    rewrite !weighted_cons. change (Qsum (m :: ms)) with (m + Qsum ms)%Q.
    setoid_replace (m * nth j row 0 + weighted ms rows j - (m * nth j row' 0 + weighted ms rows2 j))%Q with (m * (nth j row 0 - nth j row' 0) + (weighted ms rows j - weighted ms rows2 j))%Q by ring.
    eapply Qle_trans; [apply Qabs_triangle|]. setoid_replace ((1 # 100000000) * (m + Qsum ms))%Q with (m * (1 # 100000000) + (1 # 100000000) * Qsum ms)%Q by ring.
    apply Qplus_le_compat; [|apply IH; assumption]. rewrite Qabs_Qmult, (Qabs_pos m) by exact Hm0. rewrite (Qmult_comm m (Qabs _)), (Qmult_comm m (1 # 100000000)). apply Qmult_le_compat_r; [|exact Hm0]. apply trimmed_nth. exact Ht.
Qed.

(* --- rows of rebuilt reactions --- *)
Definition trim (row : list Q) : list Q := map (fun c => if Qle_bool (Qabs c) (1 # 100000000) then 0%Q else c) row.

Lemma trim_trimmed row : trimmed row (trim row).
Proof. unfold trimmed, trim. induction row as [|c row IH]; [constructor|]. cbn. constructor; [|exact IH]. destruct (Qle_bool (Qabs c) (1 # 100000000)) eqn:E; [right; split; [apply Qle_bool_iff; exact E|reflexivity]|left; reflexivity]. Qed.

Lemma set_nth_app {V} (pre : list V) x v l : set_nth (length pre) v (pre ++ x :: l) = Ok (pre ++ v :: l).
Proof. induction pre as [|p pre IH]; [reflexivity|]. cbn. rewrite IH. reflexivity. Qed.

Lemma fill_row : forall row pre,
  fold_left (fun acc ic => bind acc (set_nth (fst ic) (snd ic))) (filter (fun ic => negb (Qle_bool (Qabs (snd ic)) (1 # 100000000))) (combine (seq (length pre) (length row)) row)) (Ok (pre ++ repeat 0%Q (length row)))
  = Ok (pre ++ trim row).
Proof.
  induction row as [|c row IH]; intros pre; [reflexivity|]. cbn [length seq combine filter snd repeat trim map].
  assert (E1 : forall v, pre ++ v :: repeat 0%Q (length row) = (pre ++ [v]) ++ repeat 0%Q (length row)) by (intros v; rewrite <- app_assoc; reflexivity).
  assert (E2 : forall v, S (length pre) = length (pre ++ [v])) by (intros v; rewrite app_length; cbn; lia).
  destruct (Qle_bool (Qabs c) (1 # 100000000)); cbn [negb].
  - rewrite (E1 0%Q), (E2 0%Q), IH, <- app_assoc. reflexivity.
  - cbn [fold_left fst snd bind]. rewrite set_nth_app, E1, (E2 c), IH, <- app_assoc. reflexivity.
Qed.

Theorem rebuilt_row C ents row : length row = length ents -> (forall i e, nth_error ents i = Some e -> e_id e = i) ->
  get_entry_idx_vector (rebuild_computed C ents (large row)) (length ents) = Ok (trim row).
Proof.
  intros HL Hid. unfold get_entry_idx_vector, rebuild_computed, computed_init. cbn [c_entries c_base]. rewrite !map_length. cbn [basic_init coeffs]. rewrite map_length, Nat.eqb_refl. cbn [negb].
  pose proof (fill_row row []) as H. cbn [length app] in H. fold (large row) in H. rewrite <- HL, <- H.
  assert (Hr : forall ic, In ic (large row) -> fst ic < length ents).
  { intros [i c] Hin. unfold large in Hin. apply filter_In in Hin as [Hin _]. apply in_combine_l, in_seq in Hin. cbn. lia. }
  clear H. generalize (Ok (repeat 0%Q (length row))) as acc. induction (large row) as [|[i c] l IH]; intros acc; [reflexivity|]. cbn [map combine fold_left fst snd].
  assert (e_id (nth i ents {| e_id := 0; e_comp := 0; e_energy := 0%Q |}) = i) as ->.
  { apply Hid. apply nth_error_nth'. apply (Hr (i, c)). left. reflexivity. }
  apply IH. intros ic Hin. apply Hr. right. exact Hin.
Qed.

Lemma set_nth_length {V} i (v : V) l l' : set_nth i v l = Ok l' -> length l' = length l.
Proof. revert l l'. induction i as [|i IH]; intros [|x l] l' H; cbn in H; try discriminate; [injection H as <-; reflexivity|]. destruct (set_nth i v l) as [m|] eqn:E; [|discriminate]. injection H as <-. cbn. f_equal. apply IH. exact E. Qed.

Lemma vector_length r n v : get_entry_idx_vector r n = Ok v -> length v = n.
Proof.
  unfold get_entry_idx_vector. destruct (negb _); [discriminate|]. assert (H : forall l acc, (forall w, acc = Ok w -> length w = n) -> fold_left (fun acc ek => bind acc (set_nth (e_id (fst ek)) (snd ek))) l acc = Ok v -> length v = n).
  { induction l as [|ek l IH]; intros acc Ha; cbn; [apply Ha|]. apply IH. intros w Hw. destruct acc as [a|]; [|discriminate]. cbn in Hw. apply set_nth_length in Hw. rewrite Hw. apply Ha. reflexivity. }
  apply H. intros w Hw. injection Hw as <-. apply repeat_length.
Qed.

(* --- the reactions collected by the solver --- *)
Lemma existsb_map {A B} (f : B -> bool) (g : A -> B) l : existsb f (map g l) = existsb (fun x => f (g x)) l.
Proof. induction l as [|x l IH]; [reflexivity|]. cbn. rewrite IH. reflexivity. Qed.

Section Collect.
Context {R : Type} (req : R -> R -> bool).

Lemma add_all_spec l : forall acc, (forall r, req r r = true) ->
  let out := fold_left (add_new req) l acc in
  (exists ext, out = acc ++ ext /\ subseq ext l)
  /\ (forall s, In s acc \/ In s l -> exists t, In t out /\ req (fst s) (fst t) = true)
  /\ (fresh req acc -> fresh req out).
Proof.
  induction l as [|s l IH]; intros acc Hrefl; cbn [fold_left].
  - split; [exists []; split; [symmetry; apply app_nil_r|constructor]|]. split; [|auto]. intros s [Hs|[]]. exists s. split; [exact Hs|apply Hrefl].
  - cbv zeta in *. destruct (IH (add_new req acc s) Hrefl) as ((ext & E & Hsub) & Hall & Hfr). unfold add_new in *. unfold memb in *. rewrite existsb_map in *. destruct (existsb (fun x => req (fst s) (fst x)) acc) eqn:Em.
    + split; [exists ext; split; [exact E|apply subseq_skip; exact Hsub]|]. split; [|exact Hfr]. intros t [Ht|[<-|Ht]]; [apply Hall; left; exact Ht| |apply Hall; right; exact Ht].
      apply existsb_exists in Em as (t & Ht & Hr). exists t. split; [|exact Hr]. rewrite E. apply in_or_app. left. exact Ht.
    + split; [exists (s :: ext); split; [rewrite E, <- app_assoc; reflexivity|apply subseq_take; exact Hsub]|]. split.
      * intros t [Ht|[<-|Ht]]; apply Hall; [left; apply in_or_app; left; exact Ht|left; apply in_or_app; right; left; reflexivity|right; exact Ht].
      * intros Hacc. apply Hfr. intros l1 a l2 b l3 Eq. destruct l3 as [|c l3].
        { replace (l1 ++ a :: l2 ++ [b]) with ((l1 ++ a :: l2) ++ [b]) in Eq by (rewrite <- app_assoc; reflexivity). apply app_inj_tail in Eq as [-> ->].
          destruct (req (fst b) (fst a)) eqn:Er; [|reflexivity]. exfalso. apply not_true_iff_false in Em. apply Em. apply existsb_exists. exists a. split; [apply in_or_app; right; left; reflexivity|exact Er]. }
        { destruct (exists_last (l := c :: l3)) as (l4 & z & Ez); [discriminate|]. rewrite Ez in Eq. replace (l1 ++ a :: l2 ++ b :: l4 ++ [z]) with ((l1 ++ a :: l2 ++ b :: l4) ++ [z]) in Eq by (rewrite <- !app_assoc; cbn; rewrite <- app_assoc; reflexivity).
          apply app_inj_tail in Eq as [-> _]. eapply Hacc. reflexivity. }
Qed.

(* C77 *)
Theorem collected paths : (forall r, req r r = true) -> (forall p, In p paths -> length (p_costs p) = length (p_rxns p)) ->
  let out := solver_init req paths in
  subseq out (flat_map (fun p => combine (p_rxns p) (p_costs p)) paths)
  /\ fresh req out /\ forall p r, In p paths -> In r (p_rxns p) -> exists t, In t out /\ req r (fst t) = true.
Proof.
  intros Hrefl HL. cbv zeta. unfold solver_init. destruct (add_all_spec (flat_map (fun p => combine (p_rxns p) (p_costs p)) paths) [] Hrefl) as ((ext & E & Hsub) & Hall & Hfr).
  cbv zeta in *. split; [rewrite E; exact Hsub|]. split; [apply Hfr; intros l1 s l2 t l3 H; destruct l1; discriminate|].
  intros p r Hp Hr. assert (exists c, In (r, c) (combine (p_rxns p) (p_costs p))) as (c & Hc).
  { specialize (HL p Hp). clear - HL Hr. revert HL. generalize (p_costs p) as ks. induction (p_rxns p) as [|x l IH]; intros [|k ks] HL; cbn in HL; try discriminate; [destruct Hr|].
    destruct Hr as [->|Hr]; [exists k; left; reflexivity|]. destruct (IH Hr ks) as (c & Hc); [lia|]. exists c. right. exact Hc. }
  apply (Hall (r, c)). right. apply in_flat_map. exists p. split; assumption.
Qed.

Theorem intermediates_added cost rxns inter : (forall r, req r r = true) -> fresh req rxns ->
  let out := with_intermediates req cost rxns inter in
  (exists ext, out = rxns ++ ext /\ forall s, In s ext -> In (fst s) inter /\ snd s = cost (fst s))
  /\ fresh req out /\ forall r, In r inter -> exists t, In t out /\ req r (fst t) = true.
Proof.
  intros Hrefl Hf. cbv zeta. unfold with_intermediates. destruct (add_all_spec (map (fun r => (r, cost r)) inter) rxns Hrefl) as ((ext & E & Hsub) & Hall & Hfr). cbv zeta in *.
  split; [exists ext; split; [exact E|]|]. { intros s Hs. apply (subseq_In _ _ _ Hsub), in_map_iff in Hs as (r & <- & Hr). split; [exact Hr|reflexivity]. }
  split; [apply Hfr; exact Hf|]. intros r Hr. apply (Hall (r, cost r)). right. apply in_map_iff. exists r. split; [reflexivity|exact Hr].
Qed.
End Collect.
