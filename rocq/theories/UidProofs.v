(* Proofs about identifiers and reaction sets. *)
From Coq Require Import Permutation Lqa Qabs.
From Verif Require Import Prelude NumQ ListFacts UtilsModel ReactionModel GibbsModel GibbsSpec GibbsEntryProofs RxnSetBaseProofs UidModel UidSpec.
Open Scope nat_scope.

Lemma Forall2_on {A B} (R S : A -> B -> Prop) la lb : (forall a b, In b lb -> R a b -> S a b) -> Forall2 R la lb -> Forall2 S la lb.
Proof.
  intros H F. induction F as [|a b la lb X F IH]; constructor; [apply H; [left; reflexivity|exact X]|].
  apply IH. intros x y I. apply H. right. exact I.
Qed.

Section Ids.
Context {E U : Type} (same : E -> E -> bool) (uid : E -> U) (same_uid : U -> U -> bool).
Variable arrange : list E -> list E.
Hypothesis Harr : forall l, Permutation (arrange l) l.
Hypothesis Heq : equivalence same_uid.

Lemma pyset_in l : forall seen x, In x (pyset same l seen) -> In x l \/ In x seen.
Proof.
  induction l as [|e l IH]; intros seen x; cbn [pyset].
  - rewrite <- in_rev. auto.
  - intros H. apply IH in H. destruct H as [H|H]; [left; right; exact H|].
    destruct (existsb (fun s => same s e) seen); [right; exact H|].
    destruct H as [->|H]; [left; left; reflexivity|right; exact H].
Qed.
Lemma pyset_seen l : forall seen x, In x seen -> In x (pyset same l seen).
Proof.
  induction l as [|e l IH]; intros seen x H; cbn [pyset]; [rewrite <- in_rev; exact H|].
  apply IH. destruct (existsb _ seen); [exact H|right; exact H].
Qed.
Lemma pyset_keeps l : forall seen x, In x l -> exists z, In z (pyset same l seen) /\ (z = x \/ same z x = true).
Proof.
  induction l as [|e l IH]; intros seen x H; [destruct H|]. cbn [pyset]. destruct H as [->|H]; [|apply IH; exact H].
  destruct (existsb (fun s => same s x) seen) eqn:B.
  - apply existsb_exists in B. destruct B as (z & Z & S). exists z. split; [apply pyset_seen; exact Z|right; exact S].
  - exists x. split; [apply pyset_seen; left; reflexivity|left; reflexivity].
Qed.

Lemma position_spec u l : forall k found,
  match position uid same_uid u l k found with
  | Some i => (found = Some i /\ forall x, In x l -> same_uid u (uid x) = false)
              \/ exists e, i >= k /\ nth_error l (i - k) = Some e /\ same_uid u (uid e) = true
  | None => found = None /\ forall x, In x l -> same_uid u (uid x) = false
  end.
Proof.
  induction l as [|e l IH]; intros k found; cbn [position].
  - destruct found as [i|]; [left|]; (split; [reflexivity|intros x []]).
  - specialize (IH (S k) (if same_uid u (uid e) then Some k else found)).
    destruct (position uid same_uid u l (S k) _) as [i|].
    + destruct IH as [[F N]|(z & G & Nz & Sz)].
      * destruct (same_uid u (uid e)) eqn:B.
        -- right. exists e. injection F as <-. rewrite Nat.sub_diag. split; [lia|split; [reflexivity|exact B]].
        -- left. split; [exact F|]. intros x [<-|H]; [exact B|apply N; exact H].
      * right. exists z. split; [lia|]. replace (i - k) with (S (i - S k)) by lia. split; [exact Nz|exact Sz].
    + destruct IH as [F N]. destruct (same_uid u (uid e)) eqn:B; [discriminate|]. split; [exact F|].
      intros x [<-|H]; [exact B|apply N; exact H].
Qed.
Lemma position_some u l i : position uid same_uid u l 0 None = Some i -> exists e, nth_error l i = Some e /\ same_uid u (uid e) = true.
Proof.
  intros H. assert (S := position_spec u l 0 None). rewrite H in S. destruct S as [[? _]|(e & _ & N & S)]; [discriminate|].
  exists e. rewrite Nat.sub_0_r in N. split; assumption.
Qed.
Lemma position_none u l : position uid same_uid u l 0 None = None -> forall x, In x l -> same_uid u (uid x) = false.
Proof. intros H. assert (S := position_spec u l 0 None). rewrite H in S. apply S. Qed.
Lemma position_ext u v l : same_uid u v = true -> forall k found, position uid same_uid u l k found = position uid same_uid v l k found.
Proof.
  intros S. induction l as [|e l IH]; intros k found; cbn [position]; [reflexivity|].
  replace (same_uid u (uid e)) with (same_uid v (uid e)); [apply IH|].
  destruct Heq as (R & Sy & T). destruct (same_uid u (uid e)) eqn:B.
  - exact (T _ _ _ (Sy _ _ S) B).
  - destruct (same_uid v (uid e)) eqn:B'; [|reflexivity]. rewrite (T _ _ _ S B') in B. discriminate.
Qed.

(* the entry that is stored for an identifier *)
Definition stored (es : list E) (e z : E) : Prop :=
  exists i, position uid same_uid (uid e) es 0 None = Some i /\ nth_error es i = Some z.

Lemma rows_back es rxns rows : mapM (row_of uid same_uid es) rxns = Ok rows ->
  exists out, uids_get_rxns (es, rows) = Ok out /\ Forall2 (same_rxn (fun z e => stored es e z)) out rxns.
Proof.
  revert rows. induction rxns as [|r rxns IH]; intros rows; cbn [mapM].
  - intros H. injection H as <-. exists []. split; [reflexivity|constructor].
  - destruct (row_of uid same_uid es r) as [row|] eqn:R; [|discriminate]. cbn [bind].
    destruct (mapM (row_of uid same_uid es) rxns) as [rs|]; [|discriminate]. cbn [bind]. intros H. injection H as <-.
    destruct (IH rs eq_refl) as (out & O & F). unfold uids_get_rxns in *. cbn [fst snd mapM] in *.
    unfold row_of in R. destruct (mapM _ (u_entries r)) as [idx|] eqn:M; [|discriminate]. cbn [bind] in R. injection R as <-. cbn [fst snd].
    assert (G : exists zs, mapM (fun i => match nth_error es i with Some e => Ok e | None => Err IndexError end) idx = Ok zs
      /\ Forall2 (fun z e => stored es e z) zs (u_entries r)).
    { clear IH O F out. revert idx M. induction (u_entries r) as [|e l IH]; intros idx; cbn [mapM].
      - intros H. injection H as <-. exists []. split; [reflexivity|constructor].
      - destruct (position uid same_uid (uid e) es 0 None) as [i|] eqn:P; [|discriminate]. cbn [bind].
        destruct (mapM _ l) as [is|]; [|discriminate]. cbn [bind]. intros H. injection H as <-.
        destruct (IH is eq_refl) as (zs & Z & Fz). destruct (position_some _ _ _ P) as (z & N & S).
        exists (z :: zs). cbn [mapM]. rewrite N. cbn [bind]. rewrite Z. split; [reflexivity|]. constructor; [|exact Fz].
        exists i. split; assumption. }
    destruct G as (zs & Z & Fz). rewrite Z. cbn [bind]. rewrite O. cbn [bind].
    eexists. split; [reflexivity|]. constructor; [|exact F]. split; [exact Fz|reflexivity].
Qed.

Lemma rows_fail es rxns er : mapM (row_of uid same_uid es) rxns = Err er ->
  er = KeyError /\ exists r e, In r rxns /\ In e (u_entries r) /\ forall z, In z es -> same_uid (uid e) (uid z) = false.
Proof.
  induction rxns as [|r rxns IH]; cbn [mapM]; [discriminate|].
  destruct (row_of uid same_uid es r) as [row|e0] eqn:R; cbn [bind].
  - destruct (mapM _ rxns) as [rs|e1]; cbn [bind]; [discriminate|]. intros H. destruct (IH H) as (K & r' & e & I1 & I2 & N).
    split; [exact K|]. exists r', e. split; [right; exact I1|split; assumption].
  - intros H. injection H as <-. unfold row_of in R.
    assert (G : e0 = KeyError /\ exists e, In e (u_entries r) /\ forall z, In z es -> same_uid (uid e) (uid z) = false).
    { clear IH. destruct (mapM _ (u_entries r)) as [idx|e1] eqn:M; cbn [bind] in R; [discriminate|]. injection R as ->.
      induction (u_entries r) as [|e l IH]; cbn [mapM] in M; [discriminate|].
      destruct (position uid same_uid (uid e) es 0 None) as [i|] eqn:P; cbn [bind] in M.
      - destruct (mapM _ l) as [is|e2]; cbn [bind] in M; [discriminate|]. destruct (IH M) as (K & e' & I1 & N).
        split; [exact K|]. exists e'. split; [right; exact I1|exact N].
      - injection M as <-. split; [reflexivity|]. exists e. split; [left; reflexivity|apply position_none; exact P]. }
    destruct G as (K & e & I1 & N). split; [exact K|]. exists r, e. split; [left; reflexivity|split; assumption].
Qed.

Definition given_entries (rxns : list (urxn E)) (entries : list E) : list E :=
  match entries with [] => flat_map u_entries rxns | _ => entries end.
Definition kept (rxns : list (urxn E)) (entries : list E) : list E :=
  arrange (pyset same (match entries with [] => pyset same (flat_map u_entries rxns) [] | _ => entries end) []).

Lemma kept_in rxns entries z : In z (kept rxns entries) -> In z (given_entries rxns entries).
Proof.
  unfold kept, given_entries. intros H. apply (Permutation_in _ (Harr _)), pyset_in in H. destruct H as [H|[]].
  destruct entries; [|exact H]. apply pyset_in in H. destruct H as [H|[]]. exact H.
Qed.

(* whatever the identifiers are *)
Lemma by_id rxns entries s : uids_from_rxns same uid same_uid arrange rxns entries = Ok s ->
  exists out, uids_get_rxns s = Ok out
  /\ Forall2 (same_rxn (fun z e => In z (given_entries rxns entries) /\ same_uid (uid e) (uid z) = true)) out rxns
  /\ forall s1 s2 x y, In s1 out -> In s2 out -> In x (u_entries s1) -> In y (u_entries s2) -> same_uid (uid x) (uid y) = true -> x = y.
Proof.
  unfold uids_from_rxns. fold (kept rxns entries). destruct (mapM _ rxns) as [rows|] eqn:M; [|discriminate]. cbn [bind].
  intros H. injection H as <-. destruct (rows_back _ _ _ M) as (out & O & F). exists out. split; [exact O|].
  assert (S : forall e z, stored (kept rxns entries) e z -> In z (given_entries rxns entries) /\ same_uid (uid e) (uid z) = true).
  { intros e z (i & P & N). destruct (position_some _ _ _ P) as (z' & N' & Sz). rewrite N in N'. injection N' as <-.
    split; [|exact Sz]. apply kept_in. eapply nth_error_In. exact N. }
  split.
  - apply (Forall2_on _ _ _ _ (fun sa r _ (H : same_rxn _ sa r) => conj (Forall2_on _ _ _ _ (fun z e _ X => S e z X) (proj1 H)) (proj2 H)) F).
  - intros s1 s2 x y I1 I2 X Y Sxy.
    assert (G : forall s z, In s out -> In z (u_entries s) -> exists i, position uid same_uid (uid z) (kept rxns entries) 0 None = Some i /\ nth_error (kept rxns entries) i = Some z).
    { intros s z Is Iz. destruct (Forall2_In_l _ _ _ _ F Is) as (r & _ & Fr & _).
      destruct (Forall2_In_l _ _ _ _ Fr Iz) as (e & _ & St). destruct (S _ _ St) as [_ Su]. destruct St as (i & P & N).
      exists i. split; [|exact N]. rewrite <- (position_ext _ _ _ Su). exact P. }
    destruct (G _ _ I1 X) as (i & P1 & N1). destruct (G _ _ I2 Y) as (j & P2 & N2).
    rewrite (position_ext _ _ _ Sxy) in P1. rewrite P1 in P2. injection P2 as ->. rewrite N1 in N2. injection N2 as ->. reflexivity.
Qed.

Lemma key_error rxns er : uids_from_rxns same uid same_uid arrange rxns [] = Err er ->
  er = KeyError /\ exists x y, In x (flat_map u_entries rxns) /\ In y (flat_map u_entries rxns)
    /\ ((same x y = true \/ exists w, In w (flat_map u_entries rxns) /\ same x w = true /\ same w y = true)
        /\ same_uid (uid x) (uid y) = false).
Proof.
  unfold uids_from_rxns. destruct (mapM _ rxns) as [rows|e0] eqn:M; cbn [bind]; [discriminate|]. intros H. injection H as <-.
  destruct (rows_fail _ _ _ M) as (K & r & e & I1 & I2 & N). split; [exact K|]. clear M K.
  assert (Ie : In e (flat_map u_entries rxns)) by (apply in_flat_map; exists r; split; assumption).
  destruct (pyset_keeps (flat_map u_entries rxns) [] e Ie) as (w & W & Sw).
  destruct (pyset_keeps (pyset same (flat_map u_entries rxns) []) [] w W) as (z & Z & Sz).
  assert (Nz := N z (Permutation_in _ (Permutation_sym (Harr _)) Z)).
  assert (Iw : In w (flat_map u_entries rxns)) by (apply pyset_in in W; destruct W as [W|[]]; exact W).
  assert (Iz : In z (flat_map u_entries rxns)) by (apply pyset_in in Z; destruct Z as [Z|[]]; apply pyset_in in Z; destruct Z as [Z|[]]; exact Z).
  destruct Heq as (R & Sy & T).
  exists z, e. split; [exact Iz|]. split; [exact Ie|].
  split; [|destruct (same_uid (uid z) (uid e)) eqn:B; [rewrite (Sy _ _ B) in Nz; discriminate|reflexivity]].
  destruct Sz as [->|Sz]; destruct Sw as [->|Sw].
  - rewrite R in Nz. discriminate.
  - left. exact Sw.
  - left. exact Sz.
  - right. exists w. split; [exact Iw|split; assumption].
Qed.

Lemma told_round_trip rxns entries : told_apart same uid same_uid (entries ++ flat_map u_entries rxns) ->
  (entries = [] \/ forall e, In e (flat_map u_entries rxns) -> exists z, In z entries /\ same z e = true) ->
  exists s out, uids_from_rxns same uid same_uid arrange rxns entries = Ok s /\ uids_get_rxns s = Ok out
  /\ Forall2 (same_rxn (fun z e => same e z = true)) out rxns.
Proof.
  intros T G. destruct Heq as (R & Sy & Tr).
  assert (Hin : forall z, In z (given_entries rxns entries) -> In z (entries ++ flat_map u_entries rxns)).
  { intros z Hz. apply in_or_app. unfold given_entries in Hz. destruct entries; [right|left]; exact Hz. }
  destruct (uids_from_rxns same uid same_uid arrange rxns entries) as [s|er] eqn:F.
  - destruct (by_id _ _ _ F) as (out & O & B & _). exists s, out. split; [reflexivity|]. split; [exact O|].
    assert (I : forall r e, In r rxns -> In e (u_entries r) -> In e (entries ++ flat_map u_entries rxns)).
    { intros r e Ir Ie. apply in_or_app. right. apply in_flat_map. exists r. split; assumption. }
    apply (Forall2_on _ _ _ _ (fun sa r (Ir : In r rxns) (H : same_rxn _ sa r) =>
      conj (Forall2_on _ _ _ _ (fun z e Ie X => proj2 (T e z (I r e Ir Ie) (Hin z (proj1 X))) (proj2 X)) (proj1 H)) (proj2 H)) B).
  - exfalso. unfold uids_from_rxns in F. fold (kept rxns entries) in F. destruct (mapM _ rxns) as [rows|e0] eqn:M; cbn [bind] in F; [discriminate|].
    destruct (rows_fail _ _ _ M) as (_ & r & e & I1 & I2 & N).
    assert (Ie : In e (flat_map u_entries rxns)) by (apply in_flat_map; exists r; split; assumption).
    assert (Iall : In e (entries ++ flat_map u_entries rxns)) by (apply in_or_app; right; exact Ie).
    assert (W : exists w, In w (match entries with [] => pyset same (flat_map u_entries rxns) [] | _ => entries end) /\ (w = e \/ same w e = true)).
    { destruct G as [->|G]; [apply pyset_keeps; exact Ie|]. destruct (G e Ie) as (w & W & S). exists w. split; [|right; exact S].
      destruct entries; [destruct W|exact W]. }
    destruct W as (w & W & Sw). destruct (pyset_keeps _ [] w W) as (z & Z & Sz).
    assert (Zk : In z (kept rxns entries)) by (apply (Permutation_in _ (Permutation_sym (Harr _))); exact Z).
    assert (Nz := N z Zk). assert (Iz := Hin z (kept_in _ _ _ Zk)).
    assert (Iw : In w (entries ++ flat_map u_entries rxns)).
    { apply in_or_app. destruct entries; [right; apply pyset_in in W; destruct W as [W|[]]; exact W|left; exact W]. }
    assert (U1 : same_uid (uid w) (uid e) = true) by (destruct Sw as [->|Sw]; [apply R|apply (T w e Iw Iall); exact Sw]).
    assert (U2 : same_uid (uid z) (uid w) = true) by (destruct Sz as [->|Sz]; [apply R|apply (T z w Iz Iw); exact Sz]).
    rewrite (Sy _ _ (Tr _ _ _ U2 U1)) in Nz. discriminate.
Qed.
End Ids.

(* --- the classes --- *)
Lemma same_number_text_iff a b : same_number_text a b = true <->
  match a, b with PInt x, PInt y => x = y | PFloat x, PFloat y => (x == y)%Q | _, _ => False end.
Proof.
  destruct a as [x|x], b as [y|y]; cbn [same_number_text]; try (split; [discriminate|intros []]).
  - apply Z.eqb_eq.
  - apply Qeq_bool_iff.
Qed.
Lemma pair_uid_equivalence : equivalence (fun a b : nat * pynum => Nat.eqb (fst a) (fst b) && same_number_text (snd a) (snd b)).
Proof.
  assert (R : forall t, same_number_text t t = true) by (intros [z|q]; apply same_number_text_iff; reflexivity).
  assert (S : forall t u, same_number_text t u = true -> same_number_text u t = true).
  { intros t u H. apply same_number_text_iff in H. apply same_number_text_iff. destruct t, u; try contradiction; symmetry; exact H. }
  assert (T : forall t u v, same_number_text t u = true -> same_number_text u v = true -> same_number_text t v = true).
  { intros t u v H G. apply same_number_text_iff in H, G. apply same_number_text_iff. destruct t, u, v; try contradiction; rewrite H; exact G. }
  split; [|split].
  - intros u. rewrite Nat.eqb_refl, R. reflexivity.
  - intros u v H. apply andb_prop in H. destruct H as [H1 H2]. rewrite Nat.eqb_sym, H1, (S _ _ H2). reflexivity.
  - intros u v w H G. apply andb_prop in H, G. destruct H as [H1 H2], G as [G1 G2]. apply Nat.eqb_eq in H1, G1.
    rewrite H1, G1, Nat.eqb_refl, (T _ _ _ H2 G2). reflexivity.
Qed.
Lemma nat_uid_equivalence : equivalence Nat.eqb.
Proof.
  split; [apply Nat.eqb_refl|]. split; [intros u v H; rewrite Nat.eqb_sym; exact H|].
  intros u v w H G. apply Nat.eqb_eq in H, G. subst. apply Nat.eqb_refl.
Qed.

Lemma text_pyval a b : same_number_text a b = true -> (pyval a == pyval b)%Q.
Proof. intros H. apply same_number_text_iff in H. destruct a, b; try contradiction; cbn [pyval]; rewrite H; reflexivity. Qed.

Lemma gibbs_told ln C l :
  (forall x y, In x l -> In y l -> ge_id x = ge_id y -> (pyval (ge_temp x) == pyval (ge_temp y))%Q ->
     ge_comp x = ge_comp y /\ (gibbs_energy ln C x == gibbs_energy ln C y)%Q) ->
  (forall x, In x l -> is_int (ge_temp x)) \/ (forall x, In x l -> ~ is_int (ge_temp x)) ->
  told_apart (gibbs_same ln C) gibbs_uid same_gibbs_uid l.
Proof.
  intros D K x y Ix Iy. unfold gibbs_same, same_gibbs_uid, gibbs_uid. cbn [fst snd]. split.
  - intros H. repeat (apply andb_prop in H; destruct H as [H ?]). rename H1 into Ht, H2 into Hi. rewrite Hi. cbn [andb].
    apply Qeq_bool_iff in Ht. apply same_number_text_iff. destruct K as [K|K]; assert (Kx := K x Ix); assert (Ky := K y Iy);
      destruct (ge_temp x), (ge_temp y); cbn [is_int pyval] in *; try (exfalso; tauto).
    + apply inject_Z_injective. exact Ht.
    + exact Ht.
  - intros H. apply andb_prop in H. destruct H as [Hi Ht]. apply Nat.eqb_eq in Hi. apply text_pyval in Ht.
    destruct (D x y Ix Iy Hi Ht) as [Hc He]. unfold gibbs_eq. rewrite Hc, Hi, !Nat.eqb_refl, (proj2 (Qeq_bool_iff _ _) He), (proj2 (Qeq_bool_iff _ _) Ht),
      (isclose_equal _ _ He), (isclose_equal _ _ Ht).
    cbn [andb]; match goal with |- (if ?b then _ else _) = _ => destruct b end; reflexivity.
Qed.

Lemma math_isclose_equal a b : (a == b)%Q -> math_isclose a b = true.
Proof.
  intros E. unfold math_isclose. apply Qle_bool_iff. setoid_replace (a - b)%Q with 0%Q by (rewrite E; ring). change (Qabs 0) with 0%Q.
  destruct (Qle_bool (Qabs a) (Qabs b)); [assert (H := Qabs_nonneg b)|assert (H := Qabs_nonneg a)]; lra.
Qed.
Lemma exp_told ln C l :
  (forall x y, In x l -> In y l -> red C (xe_comp x) = red C (xe_comp y) -> (pyval (xe_temp x) == pyval (xe_temp y))%Q ->
     xe_comp x = xe_comp y /\ (correction ln (xe_adjs x) == correction ln (xe_adjs y))%Q) ->
  told_apart (exp_same ln C) (exp_uid C) same_exp_uid l.
Proof.
  intros D x y Ix Iy. unfold exp_same, same_exp_uid, exp_uid. cbn [fst snd]. split.
  - intros H. apply andb_prop in H. destruct H as [H _]. apply andb_prop in H. destruct H as [Hc Ht]. apply Nat.eqb_eq in Hc.
    rewrite Hc, Nat.eqb_refl, Ht. reflexivity.
  - intros H. apply andb_prop in H. destruct H as [Hr Ht]. apply Nat.eqb_eq in Hr. assert (Hp := text_pyval _ _ Ht).
    destruct (D x y Ix Iy Hr Hp) as [Hc He]. unfold exp_eq. rewrite Hc, !Nat.eqb_refl, Ht, (proj2 (Qeq_bool_iff _ _) Hp).
    cbn [andb]. apply math_isclose_equal. unfold exp_correction_per_atom. rewrite Hc, He. reflexivity.
Qed.
Lemma interp_told l :
  (forall x y, In x l -> In y l -> ie_id x = ie_id y -> ie_comp x = ie_comp y /\ (ie_energy x == ie_energy y)%Q) ->
  told_apart interp_same interp_uid Nat.eqb l.
Proof.
  intros D x y Ix Iy. unfold interp_same, interp_uid. split.
  - intros H. repeat (apply andb_prop in H; destruct H as [H ?]). assumption.
  - intros H. apply Nat.eqb_eq in H. destruct (D x y Ix Iy H) as [Hc He]. unfold interp_eq.
    rewrite Hc, H, !Nat.eqb_refl, (proj2 (Qeq_bool_iff _ _) He), (isclose_equal _ _ He). cbn [andb]; match goal with |- (if ?b then _ else _) = _ => destruct b end; reflexivity.
Qed.
Theorem default_told (formula_id : nat -> nat) (l : list (nat * Q)) :
  (forall a b, In a l -> In b l -> formula_id (fst a) = formula_id (fst b) -> fst a = fst b /\ (snd a == snd b)%Q) ->
  told_apart interp_same interp_uid Nat.eqb (map (fun ce => interp_init formula_id (fst ce) (snd ce) None) l).
Proof.
  intros H. apply interp_told. intros x y Ix Iy E. apply in_map_iff in Ix as (a & <- & Ia). apply in_map_iff in Iy as (b & <- & Ib). exact (H a b Ia Ib E).
Qed.

(* Two entries that differ only in the kind of number the temperature is *)
Lemma int_float ln C arrange a b z : (forall l, Permutation (arrange l) l) ->
  ge_comp b = ge_comp a -> (gibbs_energy ln C b == gibbs_energy ln C a)%Q -> ge_id b = ge_id a ->
  ge_temp a = PInt z -> ge_temp b = PFloat (inject_Z z) -> forall ca cb,
  gibbs_same ln C a b = true
  /\ uids_from_rxns (gibbs_same ln C) gibbs_uid same_gibbs_uid arrange
       [{| u_entries := [a]; u_coeffs := ca |}; {| u_entries := [b]; u_coeffs := cb |}] [] = Err KeyError.
Proof.
  intros Ha Hc He Hi Ta Tb ca cb.
  assert (S : gibbs_same ln C a b = true).
  { unfold gibbs_same, gibbs_eq. rewrite Hc, Hi, Ta, Tb. cbn [pyval]. rewrite !Nat.eqb_refl, (proj2 (Qeq_bool_iff _ _) (Qeq_sym _ _ He)),
      (isclose_equal _ _ (Qeq_sym _ _ He)), (proj2 (Qeq_bool_iff _ _) (Qeq_refl _)), (isclose_equal _ _ (Qeq_refl _)).
    cbn [andb]; match goal with |- (if ?b then _ else _) = _ => destruct b end; reflexivity. }
  split; [exact S|]. unfold uids_from_rxns. cbn [flat_map u_entries app pyset existsb]. rewrite S. cbn [orb rev app pyset existsb].
  rewrite (Permutation_length_1_inv (Permutation_sym (Ha [a]))). cbn [mapM row_of u_entries]. unfold row_of. cbn [mapM u_entries position].
  rewrite (proj1 pair_uid_equivalence (gibbs_uid a) : same_gibbs_uid (gibbs_uid a) (gibbs_uid a) = true). cbn [bind].
  assert (B : same_gibbs_uid (gibbs_uid b) (gibbs_uid a) = false).
  { unfold same_gibbs_uid, gibbs_uid. cbn [fst snd]. rewrite Ta, Tb. cbn [same_number_text]. apply andb_false_r. }
  rewrite B. reflexivity.
Qed.
