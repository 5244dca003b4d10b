(* Proofs about the domains of a chemical potential diagram: C98. *)
From Coq Require Import Lqa Sorted.
From Verif Require Import Prelude NumQ SumQ ListFacts UtilsModel ReactionModel ReactionBaseProofs RxnSetBaseProofs EntrySetModel EnumModel EnumProofs DiagModel DiagSpec.
Open Scope nat_scope.

(* --- sorted, groupby, min --- *)
Section Groups.
Variable key : nat -> nat.
Definition ordered (l : list nat) : Prop := StronglySorted (fun a b => key a <= key b) l.

Lemma insert_key_In x y l : In x (insert_key key y l) <-> x = y \/ In x l.
Proof. induction l as [|z l IH]; cbn [insert_key]; [cbn; intuition|]. destruct (Nat.leb (key y) (key z)); cbn; [intuition|]. rewrite IH. intuition. Qed.
Lemma insert_key_ordered x l : ordered l -> ordered (insert_key key x l).
Proof.
  unfold ordered. induction l as [|y l IH]; intros H; cbn [insert_key]; [repeat constructor|]. inversion H as [|? ? Hs Hf]; subst. rewrite Forall_forall in Hf.
  destruct (Nat.leb_spec (key x) (key y)) as [L|L].
  - constructor; [exact H|]. apply Forall_forall. intros z [<-|Hz]; [exact L|]. specialize (Hf z Hz). lia.
  - constructor; [apply IH; exact Hs|]. apply Forall_forall. intros z Hz. apply insert_key_In in Hz as [->|Hz]; [lia|apply Hf; exact Hz].
Qed.
Lemma sorted_key_spec l : ordered (sorted_key key l) /\ forall x, In x (sorted_key key l) <-> In x l.
Proof.
  unfold sorted_key. induction l as [|y l [IH1 IH2]]; cbn [fold_right]; [split; [constructor|tauto]|]. split; [apply insert_key_ordered; exact IH1|].
  intros x. rewrite insert_key_In, IH2. cbn. intuition.
Qed.

Lemma groupby_nonempty l g : In g (groupby key l) -> g <> [].
Proof.
  revert g. induction l as [|x l IH]; intros g; cbn [groupby]; [intros []|]. destruct (groupby key l) as [|[|y g0] gs].
  - intros [<-|[]]. discriminate.
  - intros [<-|H]; [discriminate|]. apply IH. exact H.
  - destruct (Nat.eqb (key x) (key y)); intros H; [destruct H as [<-|H]; [discriminate|]; apply IH; right; exact H|].
    destruct H as [<-|H]; [discriminate|]. apply IH. exact H.
Qed.
Lemma groupby_covers l x : In x l -> exists g, In g (groupby key l) /\ In x g.
Proof.
  induction l as [|y l IH]; intros H; [destruct H|]. cbn [groupby].
  destruct (groupby key l) as [|[|z g0] gs] eqn:E.
  - destruct H as [<-|H]; [exists [y]; cbn; tauto|]. destruct (IH H) as (g & [] & _).
  - exfalso. apply (groupby_nonempty l []); [rewrite E; left; reflexivity|reflexivity].
  - destruct (Nat.eqb (key y) (key z)).
    + destruct H as [<-|H]; [exists (y :: z :: g0); cbn; tauto|]. destruct (IH H) as (g & [<-|Hg] & Hx).
      * exists (y :: z :: g0). split; [left; reflexivity|right; exact Hx].
      * exists g. split; [right; exact Hg|exact Hx].
    + destruct H as [<-|H]; [exists [y]; cbn; tauto|]. destruct (IH H) as (g & Hg & Hx). exists g. split; [right; exact Hg|exact Hx].
Qed.
(* in an ordered list, a run holds all items of its key *)
Definition before (g g' : list nat) : Prop := forall x y, In x g -> In y g' -> key x < key y.
Definition constant (g : list nat) : Prop := forall x y, In x g -> In y g -> key x = key y.
Lemma groupby_structure l : ordered l -> StronglySorted before (groupby key l) /\ Forall constant (groupby key l) /\ concat (groupby key l) = l.
Proof.
  induction l as [|a l IH]; intros Ho; [cbn; repeat split; constructor|]. inversion Ho as [|? ? Hs Hf]; subst. rewrite Forall_forall in Hf.
  destruct (IH Hs) as (I1 & I2 & I3). cbn [groupby]. destruct (groupby key l) as [|[|b g0] gs] eqn:E.
  - cbn in I3. subst l. cbn. repeat split; repeat constructor. intros x y [<-|[]] [<-|[]]. reflexivity.
  - exfalso. apply (groupby_nonempty l []); [rewrite E; left; reflexivity|reflexivity].
  - inversion I1 as [|? ? J1 J2]; subst. inversion I2 as [|? ? K1 K2]; subst. rewrite Forall_forall in J2.
    assert (Hb : key a <= key b) by (apply Hf; left; reflexivity).
    destruct (Nat.eqb_spec (key a) (key b)) as [Eab|Nab].
    + split; [|split; [|reflexivity]].
      * constructor; [exact J1|]. apply Forall_forall. intros g' Hg' x y [<-|Hx] Hy; [|exact (J2 g' Hg' x y Hx Hy)]. rewrite Eab. apply (J2 g' Hg' b y (or_introl eq_refl) Hy).
      * constructor; [|exact K2]. intros x y [<-|Hx] [<-|Hy]; [reflexivity| | |apply K1; assumption]; rewrite Eab; [apply K1; [left; reflexivity|exact Hy]|apply K1; [exact Hx|left; reflexivity]].
    + split; [|split; [|reflexivity]].
      * constructor; [exact I1|]. apply Forall_forall. intros g' Hg' x y [<-|[]] Hy. destruct Hg' as [<-|Hg'].
        -- rewrite (K1 y b Hy (or_introl eq_refl)). lia.
        -- specialize (J2 g' Hg' b y (or_introl eq_refl) Hy). lia.
      * constructor; [|exact I2]. intros x y [<-|[]] [<-|[]]. reflexivity.
Qed.
Lemma sorted_pair {A} (R : A -> A -> Prop) l a b : StronglySorted R l -> In a l -> In b l -> a = b \/ R a b \/ R b a.
Proof.
  induction 1 as [|x l Hs IH Hf]; intros Ha Hb; [destruct Ha|]. rewrite Forall_forall in Hf. destruct Ha as [<-|Ha], Hb as [<-|Hb]; auto.
Qed.
Lemma groupby_runs l : ordered l -> forall g x y, In g (groupby key l) -> In x g -> (In y g <-> In y l /\ key y = key x).
Proof.
  intros Ho g x y Hg Hx. destruct (groupby_structure l Ho) as (S1 & S2 & S3). rewrite Forall_forall in S2. split.
  - intros Hy. split; [rewrite <- S3; apply in_concat; exists g; split; assumption|apply (S2 g Hg); assumption].
  - intros [Hy K]. rewrite <- S3 in Hy. apply in_concat in Hy as (g' & Hg' & Hy). destruct (sorted_pair before _ g g' S1 Hg Hg') as [->|[H|H]]; [exact Hy| |].
    + specialize (H x y Hx Hy). lia.
    + specialize (H y x Hy Hx). lia.
Qed.
End Groups.

Lemma min_by_spec (key : nat -> Q) l : forall x, In (min_by key x l) (x :: l) /\ forall y, In y (x :: l) -> (key (min_by key x l) <= key y)%Q.
Proof.
  induction l as [|z l IH]; intros x; cbn [min_by].
  - split; [left; reflexivity|]. intros y [<-|[]]. apply Qle_refl.
  - destruct (Qlt_bool (key z) (key x)) eqn:E.
    + apply Qlt_bool_iff' in E. destruct (IH z) as [I1 I2]. split; [destruct I1 as [I1|I1]; cbn; auto|]. intros y [<-|Hy]; [specialize (I2 z (or_introl eq_refl)); lra|apply I2; exact Hy].
    + assert (L : (key x <= key z)%Q) by (apply Qnot_lt_le; intros L; apply Qlt_bool_iff' in L; congruence).
      destruct (IH x) as [I1 I2]. split; [destruct I1 as [I1|I1]; cbn; auto|]. intros y [<-|[<-|Hy]]; [apply I2; left; reflexivity|specialize (I2 x (or_introl eq_refl)); lra|apply I2; right; exact Hy].
Qed.

Section Diagram.
Variable els : nat -> list nat.
Variable frac : nat -> nat -> Q.
Variable formula : nat -> nat.
Variable epa : nat -> Q.
Variable same : nat -> nat -> bool.
Variable entries : list nat.
Hypothesis F : fractions els frac formula entries.
Hypothesis Hsame : forall a b, In a entries -> In b entries -> same a b = true <-> a = b.

Let es := sorted_key formula entries.
Let elements := diagram_elements els es.
Let mins := least_entries formula epa es.
Notation ground := (ground_state formula epa entries).

Lemma es_In x : In x es <-> In x entries.
Proof. apply sorted_key_spec. Qed.
Lemma elements_In el : In el elements <-> exists e, In e entries /\ In el (els e).
Proof.
  unfold elements, diagram_elements. rewrite (proj2 (sorted_set_spec _)), in_flat_map. split; intros (e & H & I); exists e; [rewrite <- es_In|rewrite es_In]; split; assumption.
Qed.
Lemma sorted_NoDup l : StronglySorted lt l -> NoDup l.
Proof. induction 1 as [|x l Hs IH Hf]; constructor; [|exact IH]. intros H. rewrite Forall_forall in Hf. specialize (Hf x H). lia. Qed.
Lemma elements_NoDup : NoDup elements.
Proof. apply sorted_NoDup. apply sorted_set_spec. Qed.

Lemma mins_ground m : In m mins -> ground m.
Proof.
  unfold mins, least_entries. intros H. apply in_flat_map in H as (g & Hg & Hm). destruct g as [|x l]; [destruct Hm|]. destruct Hm as [<-|[]].
  destruct (min_by_spec epa l x) as [I1 I2]. pose proof (groupby_runs formula es (proj1 (sorted_key_spec formula entries)) _ _ (min_by epa x l) Hg I1) as R.
  apply R in I1 as [I1 _]. split; [apply es_In; exact I1|]. intros y Hy K. apply I2.
  pose proof (groupby_runs formula es (proj1 (sorted_key_spec formula entries)) _ _ y Hg (proj1 (min_by_spec epa l x))) as R'. apply R'. split; [apply es_In; exact Hy|exact K].
Qed.
Lemma mins_cover x : In x entries -> exists m, In m mins /\ formula m = formula x.
Proof.
  intros H. apply es_In in H. destruct (groupby_covers formula es x H) as (g & Hg & Hx). destruct g as [|a l]; [destruct Hx|].
  exists (min_by epa a l). split.
  - unfold mins, least_entries. apply in_flat_map. exists (a :: l). split; [exact Hg|left; reflexivity].
  - pose proof (groupby_runs formula es (proj1 (sorted_key_spec formula entries)) _ _ (min_by epa a l) Hg Hx) as R. apply R. apply min_by_spec.
Qed.
Lemma ground_epa a b : ground a -> ground b -> formula a = formula b -> (epa a == epa b)%Q.
Proof. intros [Ia Ha] [Ib Hb] E. pose proof (Ha b Ib (eq_sym E)). pose proof (Hb a Ia E). lra. Qed.

(* --- references --- *)
Notation rf := (refs els mins).
Lemma refs_In el e : In (el, e) rf -> In e mins /\ els e = [el].
Proof.
  intros H. apply dict_of_keys in H. apply in_flat_map in H as (m & Hm & H). destruct (els m) as [|x [|? ?]] eqn:E; [destruct H| |destruct H]. destruct H as [H|[]]. injection H as <- <-. split; assumption.
Qed.
Lemma refs_key el : In el (map fst rf) <-> exists x, In x entries /\ els x = [el].
Proof.
  unfold refs. rewrite (proj1 (proj2 (dict_of_keys _))). rewrite in_map_iff. split.
  - intros ([el' e] & <- & H). apply in_flat_map in H as (m & Hm & H). destruct (els m) as [|x [|? ?]] eqn:E; [destruct H| |destruct H]. destruct H as [H|[]]. injection H as <- <-. exists m. split; [apply (mins_ground m Hm)|exact E].
  - intros (x & Hx & E). destruct (mins_cover x Hx) as (m & Hm & K). exists (el, m). split; [reflexivity|]. apply in_flat_map. exists m. split; [exact Hm|].
    destruct (fr_formula _ _ _ _ F m x (proj1 (mins_ground m Hm)) Hx K) as [-> _]. rewrite E. left. reflexivity.
Qed.
Lemma refs_get el x : In x entries -> els x = [el] -> exists m, dict_get el rf = Some m /\ In (el, m) rf.
Proof.
  intros Hx E. destruct (dict_get_key el rf) as (m & Em); [apply refs_key; exists x; split; assumption|]. exists m. split; [exact Em|apply dict_get_In; exact Em].
Qed.

Lemma first_same_ok x l : incl l entries -> In x entries -> In x l -> exists i, first_same same x l = Ok i /\ nth_error l i = Some x.
Proof.
  induction l as [|y l IH]; intros Hi Hx H; [destruct H|]. cbn [first_same]. destruct (same y x) eqn:E.
  - apply Hsame in E; [|apply Hi; left; reflexivity|exact Hx]. subst y. exists 0. split; reflexivity.
  - destruct H as [->|H]; [rewrite (proj2 (Hsame x x Hx Hx) eq_refl) in E; discriminate|]. destruct (IH (fun z Hz => Hi z (or_intror Hz)) Hx H) as (i & Ei & Ni).
    exists (S i). rewrite Ei. split; [reflexivity|exact Ni].
Qed.
Lemma mins_incl : incl mins entries.
Proof. intros m Hm. apply mins_ground in Hm. apply Hm. Qed.

Definition rvec (el : nat) : Q := match dict_get el rf with Some e => epa e | None => 0%Q end.
Definition form (e : nat) : Q := (- (dotp (normal frac elements e) (map rvec elements) + (- epa e) * 1))%Q.
Definition the_planes : list nat := filter (fun e => Qlt_bool (form e) (- FORMATION_TOL)) mins ++ map snd rf.

Lemma planes_ok : has_references els entries -> hyperplane_entries els frac epa same elements mins = Ok the_planes.
Proof.
  intros HR. unfold hyperplane_entries.
  assert (V : mapM (fun el => match dict_get el rf with Some e => Ok (epa e) | None => Err KeyError end) elements = Ok (map rvec elements)).
  { apply (mapM_ok _ rvec). intros el Hel. apply elements_In in Hel as (e & He & Hel). destruct (HR e el He Hel) as (x & Hx & Ex).
    destruct (refs_get el x Hx Ex) as (m & Em & _). unfold rvec. rewrite Em. reflexivity. }
  rewrite V. cbn [bind].
  assert (G : exists idx, mapM (fun p : nat * nat => first_same same (snd p) mins) rf = Ok idx /\ mapM (fun i => match nth_error mins i with Some e => Ok e | None => Err IndexError end) idx = Ok (map snd rf)).
  { assert (A : forall p, In p rf -> In (snd p) mins) by (intros [el e] H; apply refs_In in H; apply H). revert A. generalize rf. intros l. induction l as [|p l IH]; intros A; [exists []; split; reflexivity|].
    destruct (first_same_ok (snd p) mins mins_incl (mins_incl _ (A p (or_introl eq_refl))) (A p (or_introl eq_refl))) as (i & Ei & Ni).
    destruct (IH (fun q Hq => A q (or_intror Hq))) as (idx & E1 & E2). exists (i :: idx). cbn [mapM map]. rewrite Ei, E1, Ni, E2. split; reflexivity. }
  destruct G as (idx & E1 & E2). rewrite E1. cbn [bind]. rewrite E2. reflexivity.
Qed.
Lemma missing_key e el : In e entries -> In el (els e) -> (forall x, In x entries -> els x <> [el]) ->
  hyperplane_entries els frac epa same elements mins = Err KeyError.
Proof.
  intros He Hel Hn. unfold hyperplane_entries.
  assert (V : mapM (fun el => match dict_get el rf with Some e => Ok (epa e) | None => Err KeyError end) elements = Err KeyError).
  { assert (I : In el elements) by (apply elements_In; exists e; split; assumption). revert I. generalize elements. intros l. induction l as [|y l IH]; intros I; [destruct I|]. cbn [mapM].
    destruct (dict_get y rf) as [m|] eqn:E; [|reflexivity]. destruct I as [->|I]; [|cbn [bind]; rewrite IH by exact I; reflexivity].
    exfalso. apply dict_get_In in E. apply refs_In in E as [Hm E]. exact (Hn m (mins_incl m Hm) E). }
  rewrite V. reflexivity.
Qed.

Lemma plane_ground e : In e the_planes -> ground e /\ In e mins.
Proof.
  unfold the_planes. rewrite in_app_iff, filter_In, in_map_iff. intros [[H _]|((el & x) & <- & H)]; [split; [apply mins_ground; exact H|exact H]|].
  apply refs_In in H as [H _]. split; [apply mins_ground; exact H|exact H].
Qed.

(* --- levels --- *)
Lemma side_level e p : (side (entry_halfspace frac epa elements e) p == level frac elements e p - epa e)%Q.
Proof.
  unfold side, entry_halfspace, level, normal. cbn [fst snd]. apply Qplus_comp; [|reflexivity]. generalize elements. intros l. revert p.
  induction l as [|x l IH]; intros [|m p]; try reflexivity. cbn [map combine]. rewrite !sumQ_cons. cbn [fst snd]. rewrite (IH p). reflexivity.
Qed.
Lemma dotp_level e v : (dotp (normal frac elements e) (map v elements) == sumQ (fun el => frac e el * v el) elements)%Q.
Proof.
  unfold dotp, normal. rewrite Qsum_sumQ, sumQ_map. generalize elements. intros l. induction l as [|x l IH]; [reflexivity|]. cbn [map combine]. rewrite !sumQ_cons. cbn [fst snd]. rewrite IH. reflexivity.
Qed.
Lemma level_ext e x p : In e entries -> In x entries -> formula e = formula x -> (level frac elements e p == level frac elements x p)%Q.
Proof. intros He Hx E. destruct (fr_formula _ _ _ _ F e x He Hx E) as [_ H]. apply sumQ_ext. intros xm _. rewrite (H (fst xm)). reflexivity. Qed.
(* the level of a pure phase is the potential of its element *)
Lemma level_alone_aux e el : In e entries -> els e = [el] -> forall l p m, NoDup l -> In (el, m) (combine l p) -> (sumQ (fun xm => frac e (fst xm) * snd xm) (combine l p) == m)%Q.
Proof.
  intros He E l. induction l as [|x l IH]; intros p m Hn H; [destruct H|]. destruct p as [|q p]; [destruct H|]. cbn [combine] in *. inversion Hn as [|? ? Nx Hn']; subst. rewrite sumQ_cons. cbn [fst snd].
  destruct H as [H|H].
  - injection H as -> ->. rewrite (fr_alone _ _ _ _ F e el He E). rewrite sumQ_all_zero; [ring|]. intros [y q'] Hy. apply in_combine_l in Hy. cbn [fst snd]. rewrite (fr_absent _ _ _ _ F e y He); [ring|]. rewrite E. intros [->|[]]. contradiction.
  - rewrite (IH p m Hn' H). rewrite (fr_absent _ _ _ _ F e x He); [ring|]. rewrite E. intros [->|[]]. apply Nx. apply in_combine_l in H. exact H.
Qed.
Lemma level_alone e el p m : In e entries -> els e = [el] -> In (el, m) (combine elements p) -> (level frac elements e p == m)%Q.
Proof. intros He E H. apply (level_alone_aux e el); auto. exact elements_NoDup. Qed.

Lemma below_refs e p : length p = length elements -> In e entries -> (forall el m, In (el, m) (combine elements p) -> (m <= rvec el)%Q) ->
  (level frac elements e p <= sumQ (fun el => frac e el * rvec el) elements)%Q.
Proof.
  intros Hl He. unfold level. revert p Hl. generalize elements. intros l. induction l as [|x l IH]; intros [|m p] Hl H; try discriminate Hl; [apply Qle_refl|].
  cbn [combine] in *. rewrite !sumQ_cons. cbn [fst snd]. assert (A := H x m (or_introl eq_refl)). injection Hl as Hl. specialize (IH p Hl (fun y q Hq => H y q (or_intror Hq))).
  assert (N := fr_nonneg _ _ _ _ F e x He). assert (B : (frac e x * m <= frac e x * rvec x)%Q) by (rewrite (Qmult_comm _ m), (Qmult_comm _ (rvec x)); apply Qmult_le_compat_r; assumption). lra.
Qed.

Variable borders : list halfspace.
Variable vs : list (list Q * list nat).
Hypothesis HR : has_references els entries.
Hypothesis HV : intersection (length elements) (all_halfspaces frac epa elements the_planes borders) vs.

Lemma vertex_bound p facet e : In (p, facet) vs -> In e entries -> (level frac elements e p <= epa e + FORMATION_TOL)%Q.
Proof.
  intros Hp He. destruct (HV p facet Hp) as (Hl & Hin & _).
  assert (P : forall m, In m the_planes -> (level frac elements m p <= epa m)%Q).
  { intros m Hm. assert (S := Hin (entry_halfspace frac epa elements m)). rewrite side_level in S. assert (T : (level frac elements m p - epa m <= 0)%Q); [|lra].
    apply S. unfold all_halfspaces. apply in_or_app. left. apply in_map. exact Hm. }
  destruct (mins_cover e He) as (m & Hm & K). assert (Im := mins_incl m Hm).
  rewrite (level_ext e m p He Im (eq_sym K)). assert (G := proj2 (mins_ground m Hm) e He (eq_sym K)).
  assert (T0 : (0 < FORMATION_TOL)%Q) by reflexivity.
  destruct (Qlt_bool (form m) (- FORMATION_TOL)) eqn:E.
  - assert (In m the_planes) by (apply in_or_app; left; apply filter_In; split; assumption). specialize (P m H). lra.
  - assert (L : (- FORMATION_TOL <= form m)%Q) by (apply Qnot_lt_le; intros L; apply Qlt_bool_iff' in L; congruence).
    assert (B : (level frac elements m p <= sumQ (fun el => frac m el * rvec el) elements)%Q).
    { apply below_refs; [exact Hl|exact Im|]. intros el q Hq. assert (Hel := in_combine_l _ _ _ _ Hq). apply elements_In in Hel as (x0 & Hx0 & Hel). destruct (HR x0 el Hx0 Hel) as (x & Hx & Ex).
      destruct (refs_get el x Hx Ex) as (r & Er & Ir). unfold rvec. rewrite Er. destruct (refs_In _ _ Ir) as [Ir1 Ir2].
      rewrite <- (level_alone r el p q (mins_incl r Ir1) Ir2 Hq). apply P. apply in_or_app. right. apply in_map_iff. exists (el, r). split; [reflexivity|exact Ir]. }
    unfold form in L. rewrite dotp_level in L. lra.
Qed.

(* --- the dictionary of domains --- *)
Definition in_range (planes : list nat) (nb : nat) (facet : list nat) : Prop := forall v, In v facet -> v < length planes + nb.
Definition found (planes : list nat) (vs : list (list Q * list nat)) (f : nat) (p : list Q) : Prop :=
  exists facet v e, In (p, facet) vs /\ In v facet /\ nth_error planes v = Some e /\ formula e = f.

Lemma dict_set_keys {V} k (v : V) d : In k (map fst d) -> map fst (dict_set k v d) = map fst d.
Proof.
  induction d as [|[k' v'] d IH]; intros H; [destruct H|]. cbn [dict_set]. destruct (Nat.eqb_spec k k') as [->|N]; [reflexivity|]. cbn [map fst]. f_equal. apply IH. destruct H as [H|H]; [cbn in H; congruence|exact H].
Qed.

Lemma put_points_ok planes nb p facet : forall d, (forall e, In e planes -> In (formula e) (map fst d)) -> in_range planes nb facet ->
  exists d', put_points formula planes nb p facet d = Ok d' /\ map fst d' = map fst d
  /\ forall f pts, dict_get f d = Some pts -> exists pts', dict_get f d' = Some pts'
       /\ forall q, In q pts' <-> In q pts \/ (q = p /\ exists v e, In v facet /\ nth_error planes v = Some e /\ formula e = f).
Proof.
  induction facet as [|v facet IH]; intros d Hk Hr; cbn [put_points].
  - exists d. split; [reflexivity|]. split; [reflexivity|]. intros f pts E. exists pts. split; [exact E|]. intros q. split; [tauto|]. intros [H|(_ & v & e & [] & _)]. exact H.
  - unfold put_point. assert (Hv := Hr v (or_introl eq_refl)). assert (Hr' : in_range planes nb facet) by (intros w Hw; apply Hr; right; exact Hw).
    destruct (Nat.leb_spec (length planes) v) as [L|L].
    + assert (Lt : Nat.ltb v (length planes + nb) = true) by (apply Nat.ltb_lt; exact Hv). rewrite Lt. cbn [andb bind].
      destruct (IH d Hk Hr') as (d' & E' & K' & H'). exists d'. split; [exact E'|]. split; [exact K'|]. intros f pts E. destruct (H' f pts E) as (pts' & G & M). exists pts'. split; [exact G|].
      intros q. rewrite M. split; intros [A|(-> & w & e & B1 & B2 & B3)]; auto.
      * right. split; [reflexivity|]. exists w, e. split; [right; exact B1|]. split; assumption.
      * destruct B1 as [->|B1]; [apply nth_error_None in L; congruence|]. right. split; [reflexivity|]. exists w, e. split; [exact B1|]. split; assumption.
    + cbn [andb]. destruct (nth_error planes v) as [e|] eqn:Ev; [|apply nth_error_None in Ev; lia]. assert (Ie := nth_error_In _ _ Ev).
      destruct (dict_get_key (formula e) d (Hk e Ie)) as (pts0 & E0). rewrite E0. cbn [bind].
      assert (K0 := dict_set_keys (formula e) (pts0 ++ [p]) d (Hk e Ie)).
      destruct (IH (dict_set (formula e) (pts0 ++ [p]) d)) as (d' & E' & K' & H'); [intros x Hx; rewrite K0; apply Hk; exact Hx|exact Hr'|].
      exists d'. split; [exact E'|]. split; [congruence|]. intros f pts E. pose proof (H' f) as Hf. clear H'. rename Hf into H'. rewrite dict_get_set in H'. destruct (Nat.eqb_spec f (formula e)) as [->|N].
      * destruct (H' _ eq_refl) as (pts' & G & M). exists pts'. split; [exact G|]. assert (pts0 = pts) by congruence. subst pts0. intros q. rewrite M, in_app_iff. cbn [In]. split.
        -- intros [[A|[A|[]]]|(-> & w & x & B1 & B2 & B3)]; [left; exact A| |].
           ++ right. split; [symmetry; exact A|]. exists v, e. split; [left; reflexivity|]. split; [exact Ev|reflexivity].
           ++ right. split; [reflexivity|]. exists w, x. split; [right; exact B1|]. split; assumption.
        -- intros [A|(-> & w & x & B1 & B2 & B3)]; [left; left; exact A|]. destruct B1 as [->|B1]; [left; right; left; reflexivity|]. right. split; [reflexivity|]. exists w, x. split; [exact B1|]. split; assumption.
      * destruct (H' pts E) as (pts' & G & M). exists pts'. split; [exact G|]. intros q. rewrite M. split; intros [A|(-> & w & x & B1 & B2 & B3)]; auto.
        -- right. split; [reflexivity|]. exists w, x. split; [right; exact B1|]. split; assumption.
        -- destruct B1 as [->|B1]; [congruence|]. right. split; [reflexivity|]. exists w, x. split; [exact B1|]. split; assumption.
Qed.
Lemma put_vertices_ok planes nb ws : forall d, (forall e, In e planes -> In (formula e) (map fst d)) -> (forall p facet, In (p, facet) ws -> in_range planes nb facet) ->
  exists d', put_vertices formula planes nb ws d = Ok d' /\ map fst d' = map fst d
  /\ forall f pts, dict_get f d = Some pts -> exists pts', dict_get f d' = Some pts' /\ forall q, In q pts' <-> In q pts \/ found planes ws f q.
Proof.
  induction ws as [|[p facet] ws IH]; intros d Hk Hr; cbn [put_vertices].
  - exists d. split; [reflexivity|]. split; [reflexivity|]. intros f pts E. exists pts. split; [exact E|]. intros q. split; [tauto|]. intros [H|(facet & v & e & [] & _)]. exact H.
  - destruct (put_points_ok planes nb p facet d Hk (Hr p facet (or_introl eq_refl))) as (d1 & E1 & K1 & H1). rewrite E1. cbn [bind].
    destruct (IH d1) as (d' & E' & K' & H'); [intros e He; rewrite K1; apply Hk; exact He|intros q fc Hq; apply (Hr q fc); right; exact Hq|].
    exists d'. split; [exact E'|]. split; [congruence|]. intros f pts E. destruct (H1 f pts E) as (pts1 & G1 & M1). destruct (H' f pts1 G1) as (pts' & G & M). exists pts'. split; [exact G|].
    intros q. rewrite M, M1. split.
    + intros [[A|(-> & v & e & B1 & B2 & B3)]|(fc & v & e & B0 & B1 & B2 & B3)]; [left; exact A| |].
      * right. exists facet, v, e. split; [left; reflexivity|]. split; [exact B1|]. split; assumption.
      * right. exists fc, v, e. split; [right; exact B0|]. split; [exact B1|]. split; assumption.
    + intros [A|(fc & v & e & [B0|B0] & B1 & B2 & B3)]; [left; left; exact A| |].
      * injection B0 as <- <-. left. right. split; [reflexivity|]. exists v, e. split; [exact B1|]. split; assumption.
      * right. exists fc, v, e. split; [exact B0|]. split; [exact B1|]. split; assumption.
Qed.
Lemma get_domains_ok planes nb ws : (forall p facet, In (p, facet) ws -> in_range planes nb facet) ->
  exists d, get_domains formula planes nb ws = Ok d /\ NoDup (map fst d)
  /\ (forall f pts, In (f, pts) d -> pts <> [] /\ forall p, In p pts -> found planes ws f p)
  /\ forall f p, found planes ws f p -> exists pts, In (f, pts) d /\ In p pts.
Proof.
  intros Hr. unfold get_domains. set (d0 := dict_of (map (fun e => (formula e, [])) planes)).
  destruct (dict_of_keys (map (fun e => (formula e, []:list (list Q))) planes)) as (N0 & K0 & I0). fold d0 in N0, K0, I0.
  assert (Hk : forall e, In e planes -> In (formula e) (map fst d0)) by (intros e He; apply K0; rewrite map_map; apply in_map_iff; exists e; split; [reflexivity|exact He]).
  assert (Z : forall f pts, dict_get f d0 = Some pts -> pts = []).
  { intros f pts E. apply dict_get_In in E. apply I0 in E. apply in_map_iff in E as (e & E & _). congruence. }
  destruct (put_vertices_ok planes nb ws d0 Hk Hr) as (d & E & K & H). rewrite E. cbn [bind]. eexists. split; [reflexivity|].
  assert (Nd : NoDup (map fst d)) by (rewrite K; exact N0). split; [|split].
  - clear -Nd. induction d as [|[k v] d IH]; [constructor|]. inversion Nd as [|? ? Nk Nd']; subst. cbn [filter]. destruct (negb _); [|apply IH; exact Nd']. constructor; [|apply IH; exact Nd'].
    intros Hk. apply Nk. apply in_map_iff in Hk as (x & Ex & Hx). apply filter_In in Hx as [Hx _]. apply in_map_iff. exists x. split; assumption.
  - intros f pts Hin. apply filter_In in Hin as [Hin Hne]. cbn [snd] in Hne. split; [intros ->; discriminate|]. intros p Hp.
    assert (Kf : In f (map fst d0)) by (rewrite <- K; apply (in_map fst) in Hin; exact Hin). destruct (dict_get_key f d0 Kf) as (pts0 & E0). destruct (H f pts0 E0) as (pts' & G & M).
    rewrite (dict_get_nodup f pts d Nd Hin) in G. injection G as <-. apply M in Hp as [Hp|Hp]; [rewrite (Z f pts0 E0) in Hp; destruct Hp|exact Hp].
  - intros f p Hf. destruct Hf as (facet & v & e & B0 & B1 & B2 & B3). assert (Ie := nth_error_In _ _ B2). destruct (dict_get_key (formula e) d0 (Hk e Ie)) as (pts0 & E0). rewrite B3 in E0.
    destruct (H f pts0 E0) as (pts' & G & M). exists pts'. assert (Hp : In p pts') by (apply M; right; exists facet, v, e; auto). split; [|exact Hp]. apply filter_In. split; [apply dict_get_In; exact G|]. cbn [snd]. destruct pts'; [destruct Hp|reflexivity].
Qed.
Lemma vs_range p facet : In (p, facet) vs -> in_range the_planes (length borders) facet.
Proof.
  intros Hp v Hv. destruct (HV p facet Hp) as (_ & _ & H). destruct (H v Hv) as (h & Eh & _). assert (L : nth_error (all_halfspaces frac epa elements the_planes borders) v <> None) by congruence.
  apply nth_error_Some in L. unfold all_halfspaces in L. rewrite app_length, map_length in L. exact L.
Qed.

Lemma found_level f p : found the_planes vs f p -> exists e, ground e /\ formula e = f /\ (level frac elements e p == epa e)%Q.
Proof.
  intros (facet & v & e & B0 & B1 & B2 & B3). exists e. split; [apply plane_ground; eapply nth_error_In; exact B2|]. split; [exact B3|].
  destruct (HV p facet B0) as (_ & _ & H). destruct (H v B1) as (h & Eh & S). assert (Ee : nth_error (all_halfspaces frac epa elements the_planes borders) v = Some (entry_halfspace frac epa elements e)).
  { unfold all_halfspaces. rewrite nth_error_app1 by (rewrite map_length; apply nth_error_Some; congruence). rewrite nth_error_map, B2. reflexivity. }
  rewrite Ee in Eh. injection Eh as <-. rewrite side_level in S. lra.
Qed.
Theorem domains_sound : exists d, get_domains formula the_planes (length borders) vs = Ok d /\ NoDup (map fst d)
  /\ forall f pts, In (f, pts) d -> pts <> [] /\ forall p, In p pts -> (exists facet, In (p, facet) vs)
     /\ (exists e, ground e /\ formula e = f /\ (level frac elements e p == epa e)%Q)
     /\ forall x, In x entries -> (level frac elements x p <= epa x + FORMATION_TOL)%Q.
Proof.
  destruct (get_domains_ok the_planes (length borders) vs vs_range) as (d & E & N & H1 & _). exists d. split; [exact E|]. split; [exact N|]. intros f pts Hin. destruct (H1 f pts Hin) as [Hne H]. split; [exact Hne|].
  intros p Hp. specialize (H p Hp). destruct (found_level f p H) as (e & G1 & G2 & G3). destruct H as (facet & v & e' & B0 & B1 & B2 & B3). split; [exists facet; exact B0|]. split; [exists e; auto|].
  intros x Hx. exact (vertex_bound p facet x B0 Hx).
Qed.

(* the entries with a hyperplane *)
Definition stable_form (ref : nat -> nat) (e : nat) : Prop :=
  (exists el, els e = [el]) \/ (epa e + FORMATION_TOL < sumQ (fun el => frac e el * epa (ref el)) elements)%Q.
Lemma stable_plane ref e : references els formula epa entries ref -> ground e -> stable_form ref e -> exists m, In m the_planes /\ formula m = formula e.
Proof.
  intros Hr Hg [(el & E)|L].
  - destruct (refs_get el e (proj1 Hg) E) as (m & Em & Im). exists m. split; [apply in_or_app; right; apply in_map_iff; exists (el, m); split; [reflexivity|exact Im]|].
    destruct (refs_In _ _ Im) as [I1 I2]. apply (fr_element _ _ _ _ F m e el); [apply mins_incl; exact I1|apply Hg|exact I2|exact E].
  - destruct (mins_cover e (proj1 Hg)) as (m & Hm & K). exists m. split; [|exact K]. apply in_or_app. left. apply filter_In. split; [exact Hm|]. apply Qlt_bool_iff'. unfold form. rewrite dotp_level.
    rewrite (ground_epa e m Hg (mins_ground m Hm) (eq_sym K)) in L.
    assert (S : (sumQ (fun el => frac e el * epa (ref el)) elements == sumQ (fun el => frac m el * rvec el) elements)%Q).
    { apply sumQ_ext. intros el Hel. apply elements_In in Hel as (x0 & Hx0 & Hel). destruct (Hr x0 el Hx0 Hel) as [G1 G2]. destruct (refs_get el _ (proj1 G1) G2) as (r & Er & Ir). unfold rvec. rewrite Er. destruct (refs_In _ _ Ir) as [R1 R2].
      destruct (fr_formula _ _ _ _ F m e (mins_incl m Hm) (proj1 Hg) K) as [_ Fq]. rewrite (Fq el). rewrite (ground_epa (ref el) r G1 (mins_ground r R1)); [reflexivity|]. apply (fr_element _ _ _ _ F _ _ el (proj1 G1) (mins_incl r R1) G2 R2). }
    rewrite S in L. lra.
Qed.
Theorem domains_complete ref : references els formula epa entries ref -> all_named (all_halfspaces frac epa elements the_planes borders) vs ->
  exists d, get_domains formula the_planes (length borders) vs = Ok d
  /\ forall e p facet, ground e -> stable_form ref e -> In (p, facet) vs -> (level frac elements e p == epa e)%Q -> exists pts, In (formula e, pts) d /\ In p pts.
Proof.
  intros Hr Ha. destruct (get_domains_ok the_planes (length borders) vs vs_range) as (d & E & N & _ & H2). exists d. split; [exact E|]. intros e p facet Hg Hs Hp Hl.
  destruct (stable_plane ref e Hr Hg Hs) as (m & Hm & K). apply H2. destruct (In_nth_error _ _ Hm) as (v & Ev). exists facet, v, m. split; [exact Hp|]. split; [|split; [exact Ev|exact K]].
  apply (Ha p facet v (entry_halfspace frac epa elements m) Hp).
  - unfold all_halfspaces. rewrite nth_error_app1 by (rewrite map_length; apply nth_error_Some; congruence). rewrite nth_error_map, Ev. reflexivity.
  - rewrite side_level. destruct (plane_ground m Hm) as [Gm _]. rewrite (level_ext m e p (proj1 Gm) (proj1 Hg) K), Hl, (ground_epa m e Gm Hg K). ring.
Qed.
End Diagram.

(* --- building the diagram --- *)
Section Build.
Variable els : nat -> list nat.
Variable frac : nat -> nat -> Q.
Variable formula : nat -> nat.
Variable epa : nat -> Q.
Variable same : nat -> nat -> bool.
Variable entries : list nat.
Hypothesis F : fractions els frac formula entries.
Hypothesis Hsame : forall a b, In a entries -> In b entries -> same a b = true <-> a = b.
Let es := sorted_key formula entries.
Let elements := diagram_elements els es.
Let mins := least_entries formula epa es.
Notation init := (diagram_init els frac formula epa same entries).

Lemma mins_nonempty : entries <> [] -> mins <> [].
Proof.
  intros Hne H. assert (X : exists e, In e entries) by (clear -Hne; destruct entries as [|e l]; [contradiction|]; exists e; left; reflexivity). destruct X as (e & He).
  destruct (mins_cover formula epa entries e He) as (m & Hm & _). fold es in Hm. fold mins in Hm. rewrite H in Hm. destruct Hm.
Qed.

Lemma refs_number : has_references els entries -> length (refs els mins) = length elements.
Proof.
  intros HR. rewrite <- (map_length fst). apply Permutation_length. apply NoDup_Permutation; [apply dict_of_keys|apply elements_NoDup|].
  intros el. unfold mins, es. rewrite (refs_key els frac formula epa entries F el). unfold elements, es. rewrite elements_In. split.
  - intros (x & Hx & E). exists x. rewrite E. split; [exact Hx|left; reflexivity].
  - intros (e & He & Hel). exact (HR e el He Hel).
Qed.
Lemma build_ok : has_references els entries -> entries <> [] -> 2 <= length elements ->
  init = Ok (elements, mins, the_planes els frac formula epa entries).
Proof.
  intros HR Hne Hd. unfold diagram_init. fold es. fold elements. fold mins. assert (Hm := mins_nonempty Hne).
  assert (P := planes_ok els frac formula epa same entries F Hsame HR). fold es in P. fold elements in P. fold mins in P. rewrite P. cbn [bind].
  rewrite (refs_number HR), Nat.eqb_refl. rewrite (proj2 (Nat.ltb_ge _ _) Hd). destruct mins; [contradiction|reflexivity].
Qed.
Lemma build_few : has_references els entries -> length elements < 2 -> init = Err ValueError.
Proof.
  intros HR Hd. unfold diagram_init. fold es. fold elements. fold mins. assert (P := planes_ok els frac formula epa same entries F Hsame HR). fold es in P. fold elements in P. fold mins in P. rewrite P. cbn [bind].
  rewrite (proj2 (Nat.ltb_lt _ _) Hd). destruct mins; reflexivity.
Qed.
Lemma build_missing e el : In e entries -> In el (els e) -> (forall x, In x entries -> els x <> [el]) -> init = Err KeyError.
Proof.
  intros He Hel Hn. unfold diagram_init. fold es. fold elements. fold mins. assert (Hm : mins <> []) by (apply mins_nonempty; intros E; rewrite E in He; destruct He).
  assert (P := missing_key els frac formula epa same entries e el He Hel Hn). fold es in P. fold elements in P. fold mins in P. rewrite P. destruct mins; [contradiction|reflexivity].
Qed.
Lemma build_inv el' ms ps : init = Ok (el', ms, ps) -> has_references els entries /\ el' = elements /\ ps = the_planes els frac formula epa entries.
Proof.
  intros H. assert (HR : has_references els entries).
  { intros e el He Hel. destruct (find (fun x => if list_eq_dec Nat.eq_dec (els x) [el] then true else false) entries) as [x|] eqn:E.
    - apply find_some in E as [E1 E2]. exists x. split; [exact E1|]. destruct (list_eq_dec _ _ _); [assumption|discriminate].
    - exfalso. rewrite (build_missing e el He Hel) in H; [discriminate|]. intros x Hx E'. pose proof (find_none _ _ E x Hx) as Nf. cbn beta in Nf. destruct (list_eq_dec _ _ _); [discriminate|contradiction]. }
  split; [exact HR|]. destruct (Nat.lt_ge_cases (length elements) 2) as [L|L]; [rewrite (build_few HR L) in H; discriminate|].
  assert (Hne : entries <> []) by (intros E; subst elements es; rewrite E in L; cbn in L; lia). rewrite (build_ok HR Hne L) in H. injection H as <- <- <-. split; reflexivity.
Qed.

Theorem diagram_sound elements' ms planes borders vs : init = Ok (elements', ms, planes) ->
  intersection (length elements') (all_halfspaces frac epa elements' planes borders) vs ->
  exists d, get_domains formula planes (length borders) vs = Ok d /\ NoDup (map fst d)
  /\ forall f pts, In (f, pts) d -> pts <> [] /\ forall p, In p pts -> (exists facet, In (p, facet) vs)
     /\ (exists e, ground_state formula epa entries e /\ formula e = f /\ (level frac elements' e p == epa e)%Q)
     /\ forall x, In x entries -> (level frac elements' x p <= epa x + FORMATION_TOL)%Q.
Proof. intros H HV. destruct (build_inv _ _ _ H) as (HR & -> & ->). exact (domains_sound els frac formula epa entries F borders vs HR HV). Qed.

Theorem diagram_complete elements' ms planes borders vs ref : init = Ok (elements', ms, planes) ->
  intersection (length elements') (all_halfspaces frac epa elements' planes borders) vs -> all_named (all_halfspaces frac epa elements' planes borders) vs ->
  references els formula epa entries ref ->
  exists d, get_domains formula planes (length borders) vs = Ok d
  /\ forall e p facet, ground_state formula epa entries e ->
     (exists el, els e = [el]) \/ (epa e + FORMATION_TOL < sumQ (fun el => frac e el * epa (ref el)) elements')%Q ->
     In (p, facet) vs -> (level frac elements' e p == epa e)%Q -> exists pts, In (formula e, pts) d /\ In p pts.
Proof. intros H HV Ha Hr. destruct (build_inv _ _ _ H) as (HR & -> & ->). exact (domains_complete els frac formula epa entries F borders vs HV ref Hr Ha). Qed.

Theorem diagram_built : has_references els entries ->
  (2 <= length elements -> exists r, init = Ok r) /\ (length elements < 2 -> init = Err ValueError).
Proof.
  intros HR. split; [|apply build_few; exact HR]. intros L. assert (Hne : entries <> []) by (intros E; subst elements es; rewrite E in L; cbn in L; lia). rewrite (build_ok HR Hne L). eexists. reflexivity.
Qed.
End Build.

(* --- an entry with a domain is on the hull --- *)
Lemma level_mix frac elements p e (ws : list (nat * Q)) : (forall el, (frac e el == sumQ (fun xw => snd xw * frac (fst xw) el) ws)%Q) ->
  (level frac elements e p == sumQ (fun xw => snd xw * level frac elements (fst xw) p) ws)%Q.
Proof.
  intros H. unfold level. transitivity (sumQ (fun xm => sumQ (fun xw => snd xw * (frac (fst xw) (fst xm) * snd xm)) ws) (combine elements p))%Q.
  - apply sumQ_ext. intros xm _. rewrite (H (fst xm)), <- sumQ_scale_r. apply sumQ_ext. intros xw _. ring.
  - rewrite sumQ_swap. apply sumQ_ext. intros xw _. rewrite sumQ_scale_l. reflexivity.
Qed.
Lemma domain_on_hull frac elements epa entries p e ws : (level frac elements e p == epa e)%Q ->
  (forall x, In x entries -> (level frac elements x p <= epa x + FORMATION_TOL)%Q) -> mixture frac entries e ws ->
  (epa e <= sumQ (fun xw => snd xw * epa (fst xw)) ws + FORMATION_TOL)%Q.
Proof.
  intros He Hx (H1 & H2 & H3). rewrite <- He, (level_mix frac elements p e ws H3).
  assert (E : (sumQ (fun xw => snd xw * epa (fst xw)) ws + FORMATION_TOL == sumQ (fun xw => snd xw * (epa (fst xw) + FORMATION_TOL)) ws)%Q).
  { transitivity (sumQ (fun xw => snd xw * epa (fst xw)) ws + sumQ (fun xw => snd xw * FORMATION_TOL) ws)%Q.
    - rewrite sumQ_scale_r, H2. ring.
    - rewrite <- sumQ_add. apply sumQ_ext. intros xw _. ring. }
  rewrite E. apply sumQ_le. intros [x w] Hin. cbn [fst snd]. destruct (H1 x w Hin) as [Ix Hw]. rewrite (Qmult_comm w), (Qmult_comm w). apply Qmult_le_compat_r; [apply Hx; exact Ix|exact Hw].
Qed.
Theorem diagram_on_hull els frac formula epa same entries elements' ms planes borders vs : fractions els frac formula entries ->
  (forall a b, In a entries -> In b entries -> same a b = true <-> a = b) ->
  diagram_init els frac formula epa same entries = Ok (elements', ms, planes) ->
  intersection (length elements') (all_halfspaces frac epa elements' planes borders) vs ->
  exists d, get_domains formula planes (length borders) vs = Ok d
  /\ forall f, In f (map fst d) -> exists e, ground_state formula epa entries e /\ formula e = f
     /\ forall ws, mixture frac entries e ws -> (epa e <= sumQ (fun xw => snd xw * epa (fst xw)) ws + FORMATION_TOL)%Q.
Proof.
  intros F Hs H HV. destruct (diagram_sound els frac formula epa same entries F Hs elements' ms planes borders vs H HV) as (d & E & _ & D). exists d. split; [exact E|]. intros f Hf.
  apply in_map_iff in Hf as ([f' pts] & <- & Hin). destruct (D f' pts Hin) as [Hne Hp]. destruct pts as [|p pts]; [contradiction|]. destruct (Hp p (or_introl eq_refl)) as (_ & (e & G1 & G2 & G3) & B).
  exists e. split; [exact G1|]. split; [exact G2|]. intros ws Hw. exact (domain_on_hull frac elements' epa entries p e ws G3 B Hw).
Qed.
