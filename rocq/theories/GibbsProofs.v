From Coq Require Import Lqa Qround Sorted.
From Verif Require Import Prelude NumQ ListFacts SumQ UtilsModel ReactionModel ReactionSpec SolverModel SolverSolveProofs ParetoProofs RxnSetBaseProofs GibbsModel GibbsSpec.
Open Scope nat_scope.

(* --- interpolation --- *)
Lemma segment_spec x x1 y1 x2 y2 l2 : forall l1,
  StronglySorted (fun a b => (fst a < fst b)%Q) (l1 ++ (x1, y1) :: (x2, y2) :: l2) -> (x1 <= x)%Q -> (x <= x2)%Q ->
  exists y, segment x (l1 ++ (x1, y1) :: (x2, y2) :: l2) = Ok y /\ (y == on_line x1 y1 x2 y2 x)%Q.
Proof.
  induction l1 as [|[x0 y0] l1 IH]; intros S H1 H2.
  - cbn. rewrite (proj2 (Qle_bool_iff x x2) H2). eexists. split; [reflexivity|]. unfold on_line.
    apply StronglySorted_inv in S as [_ F]. inversion F as [|a b F1 F2]; subst. cbn in F1. field. lra.
  - apply StronglySorted_inv in S as [S F].
    destruct l1 as [|[xa ya] l1].
    + cbn [app segment]. cbn [app] in F. inversion F as [|a b F1 F2]; subst. cbn in F1.
      destruct (Qle_bool x x1) eqn:Hb.
      * apply Qle_bool_iff in Hb. assert (Hx : (x == x1)%Q) by lra.
        eexists. split; [reflexivity|]. unfold on_line. inversion F2 as [|a b F3 F4]; subst. cbn in F3.
        apply StronglySorted_inv in S as [_ F']. inversion F' as [|a b F5 F6]; subst. cbn in F5.
        rewrite Hx. field. split; lra.
      * apply (IH S H1 H2).
    + cbn [app segment]. cbn [app] in *. destruct (Qle_bool x xa) eqn:Hb; [|apply (IH S H1 H2)].
      apply Qle_bool_iff in Hb. exfalso. apply StronglySorted_inv in S as [_ F'].
      rewrite Forall_forall in F'. specialize (F' (x1, y1)). cbn in F'. assert (xa < x1)%Q by (apply F'; apply in_or_app; right; left; reflexivity). lra.
Qed.

Lemma FOP_in {A} (R : A -> A -> Prop) l a b : (forall x y, R x y -> R y x) -> ForallOrdPairs R l -> In a l -> In b l -> a = b \/ R a b.
Proof. intros Hs H Ha Hb. destruct (ForallOrdPairs_In H a b Ha Hb) as [E|[E|E]]; auto. Qed.

Lemma FOP_perm {A} (R : A -> A -> Prop) l l' : (forall x y, R x y -> R y x) -> Permutation l l' -> ForallOrdPairs R l -> ForallOrdPairs R l'.
Proof.
  intros Hs P. induction P as [|x l l' P IH|x y l|l l' l'' P1 IH1 P2 IH2]; intros H; auto.
  - inversion H; subst. constructor; [|apply IH; assumption]. eapply Permutation_Forall; [exact P|assumption].
  - inversion H as [|a b F1 F2]; subst. inversion F2 as [|a b F3 F4]; subst. inversion F1 as [|a b F5 F6]; subst.
    constructor; [constructor; [apply Hs; exact F5|exact F3]|constructor; assumption].
Qed.

Lemma strictly_sorted (l : list (Q * Q)) : distinct_abscissae l -> StronglySorted (fun a b => (fst a <= fst b)%Q) l ->
  StronglySorted (fun a b => (fst a < fst b)%Q) l.
Proof.
  intros D S. induction S as [|a l S IH F]; [constructor|]. inversion D as [|x y F1 F2]; subst. constructor; [apply IH; exact F2|].
  rewrite Forall_forall in *. intros b Hb. specialize (F b Hb). specialize (F1 b Hb). destruct (Qlt_le_dec (fst a) (fst b)); [assumption|exfalso; apply F1; lra].
Qed.

Lemma Qneq_sym (a b : Q * Q) : ~ (fst a == fst b)%Q -> ~ (fst b == fst a)%Q.
Proof. intros H E. apply H. rewrite E. reflexivity. Qed.

Lemma interp1d_spec pts x1 y1 x2 y2 x : distinct_abscissae pts -> In (x1, y1) pts -> In (x2, y2) pts -> (x1 < x2)%Q ->
  (forall p, In p pts -> (fst p <= x1)%Q \/ (x2 <= fst p)%Q) -> (x1 <= x)%Q -> (x <= x2)%Q ->
  exists y, interp1d pts x = Ok y /\ (y == on_line x1 y1 x2 y2 x)%Q.
Proof.
  intros D I1 I2 L12 Gap H1 H2. unfold interp1d.
  assert (P := sort_by_perm pts). assert (S := sort_by_sorted pts).
  apply (FOP_perm _ _ _ Qneq_sym (Permutation_sym P)) in D.
  assert (J1 : In (x1, y1) (sort_by pts)) by (eapply Permutation_in; [apply Permutation_sym; exact P|exact I1]).
  assert (J2 : In (x2, y2) (sort_by pts)) by (eapply Permutation_in; [apply Permutation_sym; exact P|exact I2]).
  assert (G : forall p, In p (sort_by pts) -> (fst p <= x1)%Q \/ (x2 <= fst p)%Q) by (intros p Hp; apply Gap; eapply Permutation_in; [exact P|exact Hp]).
  set (s := sort_by pts) in *. clearbody s. clear P I1 I2 Gap.
  apply (strictly_sorted s D) in S.
  apply in_split in J1 as (l1 & r & ->).
  assert (J2' : In (x2, y2) r).
  { apply in_app_or in J2 as [J2|[E|J2]]; [|inversion E; subst; exfalso; lra|exact J2].
    exfalso. clear - S J2 L12. induction l1 as [|a l1 IH]; [destruct J2|]. cbn in S. apply StronglySorted_inv in S as [S F].
    destruct J2 as [->|J2]; [|apply IH; assumption]. rewrite Forall_forall in F. assert (Hx := F (x1, y1) (in_or_app _ _ _ (or_intror (in_eq _ _)))). cbn in Hx. lra. }
  assert (Sr : StronglySorted (fun a b => (fst a < fst b)%Q) ((x1, y1) :: r)).
  { clear - S. induction l1 as [|a l1 IH]; [exact S|]. apply IH. cbn in S. apply StronglySorted_inv in S. tauto. }
  destruct r as [|[xa ya] r]; [destruct J2'|].
  apply StronglySorted_inv in Sr as [Sr Fr].
  assert (Ea : (xa, ya) = (x2, y2)).
  { destruct J2' as [E|J2']; [exact E|exfalso].
    apply StronglySorted_inv in Sr as [_ Fa]. rewrite Forall_forall in Fa. assert (Ha := Fa _ J2'). cbn in Ha.
    rewrite Forall_forall in Fr. assert (Hb := Fr (xa, ya) (or_introl eq_refl)). cbn in Hb.
    destruct (G (xa, ya)) as [g|g]; [apply in_or_app; right; right; left; reflexivity| |]; cbn in g; lra. }
  inversion Ea; subst xa ya.
  destruct (segment_spec x x1 y1 x2 y2 r l1 S H1 H2) as (y & Ey & Hy).
  exists y. split; [|exact Hy].
  destruct (l1 ++ (x1, y1) :: (x2, y2) :: r) as [|[x0 y0] rest] eqn:El; [destruct l1; discriminate El|].
  assert (Hlt : Qlt_bool x x0 = false).
  { apply Qlt_bool_false_iff. destruct l1 as [|b l1]; cbn in El; inversion El; subst; [exact H1|].
    apply StronglySorted_inv in S as [_ F]. rewrite Forall_forall in F. assert (Hx := F (x1, y1) (in_or_app _ _ _ (or_intror (in_eq _ _)))). cbn in Hx. lra. }
  rewrite Hlt. exact Ey.
Qed.

Lemma on_line_between x1 y1 x2 y2 x : (x1 < x2)%Q -> (x1 <= x)%Q -> (x <= x2)%Q ->
  (Qmin y1 y2 <= on_line x1 y1 x2 y2 x)%Q /\ (on_line x1 y1 x2 y2 x <= Qmax y1 y2)%Q.
Proof.
  intros L H1 H2. unfold on_line.
  assert (E : ((x - x1) / (x2 - x1) == 1 - (x2 - x) / (x2 - x1))%Q) by (field; lra).
  assert (A : (0 <= (x2 - x) / (x2 - x1))%Q) by (apply Qle_shift_div_l; lra).
  assert (B : ((x2 - x) / (x2 - x1) <= 1)%Q) by (apply Qle_shift_div_r; lra).
  set (t := ((x2 - x) / (x2 - x1))%Q) in *. clearbody t. rewrite E.
  assert (M1 := Q.le_min_l y1 y2). assert (M2 := Q.le_min_r y1 y2).
  assert (N1 := Q.le_max_l y1 y2). assert (N2 := Q.le_max_r y1 y2).
  set (mn := Qmin y1 y2) in *. set (mx := Qmax y1 y2) in *. clearbody mn mx. split; nra.
Qed.

(* --- the elemental table --- *)
Lemma floor_grid k : Qfloor (inject_Z (100 * k) / 100) = k.
Proof.
  assert (E : (inject_Z (100 * k) / 100 == inject_Z k)%Q) by (rewrite inject_Z_mult; change (inject_Z 100) with 100%Q; field).
  rewrite E. apply Qfloor_Z.
Qed.

Lemma mod_nonneg q : (0 <= pymod100 q)%Q.
Proof.
  unfold pymod100. assert (H := Qfloor_le (q / 100)).
  assert (E : (q == 100 * (q / 100))%Q) by field. rewrite E at 1. lra.
Qed.

Lemma off_grid_iff t : off_grid t = true <-> ~ on_grid t.
Proof.
  unfold off_grid. rewrite Qlt_bool_iff. assert (N := mod_nonneg (pyval t)). split.
  - intros H [k E]. unfold pymod100 in H. assert (F : Qfloor (pyval t / 100) = k) by (rewrite E; apply floor_grid). rewrite F in H. rewrite inject_Z_mult in E. change (inject_Z 100) with 100%Q in E. lra.
  - intros H. destruct (Qlt_le_dec 0 (pymod100 (pyval t))) as [|Hle]; [assumption|]. exfalso. apply H.
    exists (Qfloor (pyval t / 100)). rewrite inject_Z_mult. change (inject_Z 100) with 100%Q. unfold pymod100 in *. lra.
Qed.

Lemma off_grid_false t : off_grid t = false <-> on_grid t.
Proof.
  destruct (off_grid t) eqn:E; split; intros H; auto; try discriminate.
  - apply off_grid_iff in E. contradiction.
  - unfold off_grid in E. apply Qlt_bool_false_iff in E. exists (Qfloor (pyval t / 100)). assert (N := mod_nonneg (pyval t)).
    rewrite inject_Z_mult. change (inject_Z 100) with 100%Q. unfold pymod100 in *. lra.
Qed.

(* The two neighbours on the grid. *)
Lemma grid_cell t k : in_range t -> ~ on_grid t -> k = Qfloor (pyval t / 100) ->
  (3 <= k <= 19)%Z /\ (inject_Z (100 * k) < pyval t)%Q /\ (pyval t < inject_Z (100 * (k + 1)))%Q.
Proof.
  intros [R1 R2] Ng ->. set (q := pyval t) in *. set (k := Qfloor (q / 100)).
  assert (Hl := Qfloor_le (q / 100)). assert (Hu := Qlt_floor (q / 100)). fold k in Hl, Hu.
  assert (E : (q == 100 * (q / 100))%Q) by field.
  assert (L : (inject_Z (100 * k) <= q)%Q) by (rewrite inject_Z_mult; change (inject_Z 100) with 100%Q; lra).
  assert (U : (q < inject_Z (100 * (k + 1)))%Q) by (rewrite inject_Z_mult; change (inject_Z 100) with 100%Q; lra).
  assert (L' : (inject_Z (100 * k) < q)%Q).
  { destruct (Qlt_le_dec (inject_Z (100 * k)) q) as [|H]; [assumption|]. exfalso. apply Ng. exists k. fold q. lra. }
  split; [|split; assumption]. split.
  - assert (inject_Z 300 < inject_Z (100 * (k + 1)))%Q by (change (inject_Z 300) with 300%Q; lra). rewrite <- Zlt_Qlt in H. lia.
  - assert (inject_Z (100 * k) < inject_Z 2000)%Q by (change (inject_Z 2000) with 2000%Q; lra). rewrite <- Zlt_Qlt in H. lia.
Qed.

Lemma dict_get_in {V} (d : list (nat * V)) k v : NoDup (map fst d) -> In (k, v) d -> dict_get k d = Some v.
Proof.
  induction d as [|[k' v'] d IH]; intros N I; [destruct I|]. cbn in *. inversion N; subst.
  destruct I as [E|I].
  - inversion E; subst. rewrite Nat.eqb_refl. reflexivity.
  - destruct (Nat.eqb_spec k k') as [->|]; [|apply IH; assumption]. exfalso. apply H1. apply (in_map fst) in I. exact I.
Qed.

Section Table.
Variable table : list (Z * list (nat * Q)).
Variable els : list nat.
Variable val : Z -> nat -> Q.
Hypothesis T : tabulates table els val.

Lemma elem_item_ok z g e : In (z, g) table -> In e els -> elem_item e g = Ok (val z e).
Proof.
  intros Hg He. unfold elem_item. rewrite (dict_get_in _ e (val z e)); [reflexivity|apply (tb_cols _ _ _ T _ _ Hg)|apply (tb_vals _ _ _ T _ _ _ Hg He)].
Qed.

Lemma find_key_ok z : In z (map fst table) -> exists g, In (z, g) table /\ find_key z table = Ok g.
Proof.
  intros Hz. unfold find_key. destruct (find (fun kv => Z.eqb z (fst kv)) table) as [[z' g]|] eqn:F.
  - apply find_some in F as [I E]. cbn in E. apply Z.eqb_eq in E as <-. exists g. split; [exact I|reflexivity].
  - exfalso. apply in_map_iff in Hz as ([z' g] & E & I). cbn in E. subst z'. apply (find_none _ _ F) in I. cbn in I. rewrite Z.eqb_refl in I. discriminate.
Qed.

Lemma key_in k : (3 <= k <= 20)%Z -> In (100 * k)%Z (map fst table).
Proof. intros H. apply (tb_keys _ _ _ T). exists k. split; [exact H|reflexivity]. Qed.

Lemma tabulated_ok e k : In e els -> (3 <= k <= 20)%Z -> g_tabulated table e (PInt (100 * k)) = Ok (val (100 * k) e).
Proof.
  intros He Hk. unfold g_tabulated. destruct (find_key_ok _ (key_in k Hk)) as (g & I & ->). cbn [bind]. apply elem_item_ok; assumption.
Qed.

Lemma rows_ok e : In e els -> forall l, incl l table -> mapM (fun kv => elem_item e (snd kv)) l = Ok (map (fun kv => val (fst kv) e) l).
Proof.
  intros He. induction l as [|[z g] l IH]; intros Hl; [reflexivity|]. cbn. rewrite (elem_item_ok z g e) by (try assumption; apply Hl; left; reflexivity).
  rewrite IH by (intros x Hx; apply Hl; right; exact Hx). reflexivity.
Qed.

Lemma combine_map2 {A B D} (f : A -> B) (g : A -> D) l : combine (map f l) (map g l) = map (fun a => (f a, g a)) l.
Proof. induction l as [|a l IH]; [reflexivity|]. cbn. rewrite IH. reflexivity. Qed.

Lemma interpolated_ok e t k : In e els -> in_range t -> ~ on_grid t -> k = Qfloor (pyval t / 100) ->
  exists g, g_interpolated table e t = Ok g
    /\ (g == on_line (inject_Z (100 * k)) (val (100 * k) e) (inject_Z (100 * (k + 1))) (val (100 * (k + 1)) e) (pyval t))%Q.
Proof.
  intros He R Ng Ek. destruct (grid_cell t k R Ng Ek) as (Hk & L & U). clear Ek.
  unfold g_interpolated. rewrite (rows_ok e He table (incl_refl _)). cbn [bind]. rewrite combine_map2.
  assert (row : forall j, (3 <= j <= 20)%Z -> In (inject_Z (100 * j), val (100 * j) e) (map (fun kv => (inject_Z (fst kv), val (fst kv) e)) table)).
  { intros j Hj. apply key_in in Hj. apply in_map_iff in Hj as ([z g] & E & I). cbn in E. subst z. apply in_map_iff. exists ((100 * j)%Z, g). split; [reflexivity|exact I]. }
  apply interp1d_spec.
  - assert (N := tb_rows _ _ _ T). clear - N. unfold distinct_abscissae. induction table as [|[z g] l IH]; cbn in *; [constructor|].
    inversion N; subst. constructor; [|apply IH; assumption]. rewrite Forall_map. rewrite Forall_forall. intros [z' g'] I E. cbn in E.
    apply H1. rewrite inject_Z_injective in E. subst z'. apply (in_map fst) in I. exact I.
  - apply row. lia.
  - apply row. lia.
  - rewrite <- Zlt_Qlt. lia.
  - intros p Hp. apply in_map_iff in Hp as ([z g] & <- & I). cbn [fst]. apply (in_map fst) in I. cbn [fst] in I. apply (tb_keys _ _ _ T) in I as (j & Hj & ->).
    rewrite <- !Zle_Qle. lia.
  - lra.
  - lra.
Qed.

(* _sum_g_i at a grid point given as an integer, and between grid points. *)
Lemma sum_grid items k : (forall ea, In ea items -> In (fst ea) els) -> (3 <= k <= 20)%Z ->
  exists s, sum_g_i table items (PInt (100 * k)) = Ok s /\ (s == weighted (val (100 * k)) items)%Q.
Proof.
  intros Hi Hk. unfold sum_g_i.
  assert (O : off_grid (PInt (100 * k)) = false) by (apply off_grid_false; exists k; cbn; reflexivity). rewrite O.
  rewrite (mapM_ok _ (fun ea => snd ea * val (100 * k)%Z (fst ea))%Q).
  - cbn [bind]. eexists. split; [reflexivity|]. rewrite Qsum_sumQ, sumQ_map. reflexivity.
  - intros ea Hea. rewrite tabulated_ok; [reflexivity|apply Hi; exact Hea|exact Hk].
Qed.

Lemma sum_between items t k : (forall ea, In ea items -> In (fst ea) els) -> in_range t -> ~ on_grid t -> k = Qfloor (pyval t / 100) ->
  exists s, sum_g_i table items t = Ok s
    /\ (s == on_line (inject_Z (100 * k)) (weighted (val (100 * k)) items) (inject_Z (100 * (k + 1))) (weighted (val (100 * (k + 1))) items) (pyval t))%Q.
Proof.
  intros Hi R Ng Ek. unfold sum_g_i. assert (O : off_grid t = true) by (apply off_grid_iff; exact Ng). rewrite O.
  assert (H : exists l, mapM (fun ea => bind (g_interpolated table (fst ea) t) (fun g => Ok (snd ea * g)%Q)) items = Ok l
     /\ (Qsum l == on_line (inject_Z (100 * k)) (weighted (val (100 * k)) items) (inject_Z (100 * (k + 1))) (weighted (val (100 * (k + 1))) items) (pyval t))%Q).
  { induction items as [|[e a] items IH].
    - exists []. split; [reflexivity|]. unfold on_line, weighted, Qsum. cbn [sumQ fold_right]. ring.
    - destruct IH as (l & E & V); [intros ea Hea; apply Hi; right; exact Hea|].
      destruct (interpolated_ok e t k (Hi (e, a) (or_introl eq_refl)) R Ng Ek) as (g & Eg & Vg).
      exists ((a * g)%Q :: l). split; [cbn; rewrite Eg; cbn [bind]; rewrite E; reflexivity|].
      change (Qsum ((a * g)%Q :: l)) with (a * g + Qsum l)%Q. rewrite V, Vg. unfold on_line, weighted. rewrite !sumQ_cons. cbn [fst snd]. ring. }
  destruct H as (l & E & V). rewrite E. cbn [bind]. exists (Qsum l). split; [reflexivity|exact V].
Qed.
End Table.
