(* Proofs about the table of elemental chemical potentials. *)
From Coq Require Import Lqa Qround.
From Verif Require Import Prelude NumQ ListFacts SumQ UtilsModel ReactionModel ReactionSpec GibbsModel GibbsSpec GibbsProofs GibbsMassProofs GibbsEntryProofs MuModel MuSpec.
Open Scope nat_scope.

(* --- what the table looks like, by computation --- *)
Definition row_shape (kv : Z * list (nat * Q)) : bool :=
  forallb (fun e => match nth_error (snd kv) e with
                    | Some (e', v) => Nat.eqb e e' && Z.eqb (Qnum v) (Qnum (mu (fst kv) e)) && Pos.eqb (Qden v) (Qden (mu (fst kv) e))
                    | None => false end) (seq 0 83)
  && Nat.eqb (length (snd kv)) 83.
Definition grid : list Z := map (fun k => (100 * Z.of_nat k)%Z) (seq 3 18).
Lemma table_rows : map fst mu_table = grid.
Proof. vm_compute. reflexivity. Qed.
Lemma table_shape : forallb row_shape mu_table = true.
Proof. vm_compute. reflexivity. Qed.
Lemma table_keys : forallb (fun kv => forallb (fun ab => Nat.eqb (fst ab) (snd ab)) (combine (map fst (snd kv)) (seq 0 83))) mu_table = true.
Proof. vm_compute. reflexivity. Qed.
Definition falls (k : Z) : bool := forallb (fun e => Qlt_bool (mu (100 * (k + 1)) e) (mu (100 * k) e)) (seq 0 83).
Lemma table_falls : forallb (fun n => falls (Z.of_nat n)) (seq 3 17) = true.
Proof. vm_compute. reflexivity. Qed.
Lemma table_negative : forallb (fun e => Qlt_bool (mu 300 e) 0) (seq 0 83) = true.
Proof. vm_compute. reflexivity. Qed.

Lemma nth_error_combine_seq (l : list (nat * Q)) n : map fst l = seq n (length l) -> NoDup (map fst l).
Proof. intros ->. apply seq_NoDup. Qed.

Lemma row_fst kv : In kv mu_table -> map fst (snd kv) = seq 0 83.
Proof.
  intros I. assert (H := table_shape). rewrite forallb_forall in H. apply H in I. unfold row_shape in I. apply andb_prop in I. destruct I as [I L].
  apply Nat.eqb_eq in L. rewrite forallb_forall in I.
  apply (nth_ext _ _ 0 0); [rewrite map_length, seq_length; exact L|]. intros n Hn. rewrite map_length, L in Hn. rewrite seq_nth by exact Hn.
  assert (J := I n (proj2 (in_seq 83 0 n) (conj (Nat.le_0_l n) Hn))). destruct (nth_error (snd kv) n) as [[e' v]|] eqn:E; [|discriminate].
  apply andb_prop in J. destruct J as [J _]. apply andb_prop in J. destruct J as [J _]. apply Nat.eqb_eq in J. subst e'.
  apply nth_error_nth with (d := (0, 0%Q)) in E.
  change (nth n (map fst (snd kv)) 0) with (nth n (map fst (snd kv)) (fst (0, 0%Q))). rewrite (map_nth fst (snd kv) (0, 0%Q) n), E. reflexivity.
Qed.
Lemma row_val kv e : In kv mu_table -> e < 83 -> In (e, mu (fst kv) e) (snd kv).
Proof.
  intros I He. assert (H := table_shape). rewrite forallb_forall in H. apply H in I. unfold row_shape in I. apply andb_prop in I. destruct I as [I _].
  rewrite forallb_forall in I. assert (J := I e (proj2 (in_seq 83 0 e) (conj (Nat.le_0_l e) He))).
  destruct (nth_error (snd kv) e) as [[e' v]|] eqn:E; [|discriminate]. apply andb_prop in J. destruct J as [J D]. apply andb_prop in J. destruct J as [J N].
  apply Nat.eqb_eq in J. apply Z.eqb_eq in N. apply Pos.eqb_eq in D. subst e'. apply nth_error_In in E.
  replace (mu (fst kv) e) with v; [exact E|]. destruct v as [a b], (mu (fst kv) e) as [a' b']. cbn [Qnum Qden] in *. subst. reflexivity.
Qed.

Lemma mu_tabulates els : (forall e, In e els -> in_table e) -> tabulates mu_table els mu.
Proof.
  intros H. split.
  - rewrite table_rows. unfold grid. apply FinFun.Injective_map_NoDup; [intros a b E; lia|apply seq_NoDup].
  - intros z. rewrite table_rows. unfold grid. rewrite in_map_iff. split.
    + intros (k & <- & I). apply in_seq in I. exists (Z.of_nat k). split; [lia|reflexivity].
    + intros (k & Hk & ->). exists (Z.to_nat k). split; [lia|]. apply in_seq. lia.
  - intros z g I. rewrite (row_fst _ I : map fst g = _). apply seq_NoDup.
  - intros z g e I He. exact (row_val _ e I (H e He)).
Qed.

Lemma mu_step k e : (3 <= k <= 19)%Z -> in_table e -> (mu (100 * (k + 1)) e < mu (100 * k) e)%Q.
Proof.
  intros Hk He. assert (H := table_falls). rewrite forallb_forall in H. assert (J := H (Z.to_nat k) (proj2 (in_seq 17 3 (Z.to_nat k)) ltac:(lia))).
  rewrite Z2Nat.id in J by lia. unfold falls in J. rewrite forallb_forall in J. assert (K := J e (proj2 (in_seq 83 0 e) (conj (Nat.le_0_l e) He))).
  unfold Qlt_bool in K. destruct (Qlt_le_dec (mu (100 * (k + 1)) e) (mu (100 * k) e)) as [L|L]; [exact L|].
  apply Qle_bool_iff in L. rewrite L in K. discriminate.
Qed.
Lemma mu_first e : in_table e -> (mu 300 e < 0)%Q.
Proof.
  intros He. assert (H := table_negative). rewrite forallb_forall in H. assert (K := H e (proj2 (in_seq 83 0 e) (conj (Nat.le_0_l e) He))).
  unfold Qlt_bool in K. destruct (Qlt_le_dec (mu 300 e) 0) as [L|L]; [exact L|]. apply Qle_bool_iff in L. rewrite L in K. discriminate.
Qed.

(* --- sums over a composition fall with temperature --- *)
Section Falls.
Variable W : Z -> Q.
Hypothesis WF : forall k, (3 <= k <= 19)%Z -> (W (k + 1) < W k)%Q.
Lemma W_le a b : (3 <= a)%Z -> (a <= b)%Z -> (b <= 20)%Z -> (W b <= W a)%Q.
Proof.
  intros Ha Hab Hb. replace b with (a + Z.of_nat (Z.to_nat (b - a)))%Z in * by lia. revert Hb. generalize (Z.to_nat (b - a)). intros n.
  induction n as [|n IH]; intros Hb; [rewrite Z.add_0_r; apply Qle_refl|].
  replace (a + Z.of_nat (S n))%Z with ((a + Z.of_nat n) + 1)%Z in * by lia.
  assert (X := WF (a + Z.of_nat n) ltac:(lia)). assert (Y := IH ltac:(lia)). lra.
Qed.
Lemma line_open x1 y1 x2 y2 x : (x1 < x2)%Q -> (x1 < x)%Q -> (x < x2)%Q -> (y2 < y1)%Q -> (y2 < on_line x1 y1 x2 y2 x)%Q /\ (on_line x1 y1 x2 y2 x < y1)%Q.
Proof.
  intros L H1 H2 Hy. unfold on_line.
  assert (E : ((x - x1) / (x2 - x1) == 1 - (x2 - x) / (x2 - x1))%Q) by (field; lra).
  assert (A : (0 < (x2 - x) / (x2 - x1))%Q) by (apply Qlt_shift_div_l; lra).
  assert (B : ((x2 - x) / (x2 - x1) < 1)%Q) by (apply Qlt_shift_div_r; lra).
  rewrite E. set (t := ((x2 - x) / (x2 - x1))%Q) in *. clearbody t. split; nra.
Qed.
Lemma line_falls x1 y1 x2 y2 x x' : (x1 < x2)%Q -> (x < x')%Q -> (y2 < y1)%Q -> (on_line x1 y1 x2 y2 x' < on_line x1 y1 x2 y2 x)%Q.
Proof.
  intros L H Hy. unfold on_line.
  assert (D : (y1 * ((x2 - x) / (x2 - x1)) + y2 * ((x - x1) / (x2 - x1)) - (y1 * ((x2 - x') / (x2 - x1)) + y2 * ((x' - x1) / (x2 - x1)))
               == (y1 - y2) * ((x' - x) / (x2 - x1)))%Q) by (field; lra).
  assert (A : (0 < (x' - x) / (x2 - x1))%Q) by (apply Qlt_shift_div_l; lra). nra.
Qed.

(* f takes the values W on the grid and lies on the lines between *)
Variable f : Q -> Q.
Definition follows (q : Q) (v : Q) : Prop :=
  (exists k, (3 <= k <= 20)%Z /\ (q == inject_Z (100 * k))%Q /\ (v == W k)%Q)
  \/ (exists k, (3 <= k <= 19)%Z /\ (inject_Z (100 * k) < q)%Q /\ (q < inject_Z (100 * (k + 1)))%Q
      /\ (v == on_line (inject_Z (100 * k)) (W k) (inject_Z (100 * (k + 1))) (W (k + 1)) q)%Q).
Lemma grid_lt a b : (inject_Z (100 * a) < inject_Z (100 * b))%Q -> (a < b)%Z.
Proof. rewrite <- Zlt_Qlt. lia. Qed.
Lemma grid_lt' a b : (a < b)%Z -> (inject_Z (100 * a) < inject_Z (100 * b))%Q.
Proof. rewrite <- Zlt_Qlt. lia. Qed.
Lemma follows_falls q1 q2 v1 v2 : follows q1 v1 -> follows q2 v2 -> (q1 < q2)%Q -> (v2 < v1)%Q.
Proof.
  intros [(k & Hk & Q1 & V1)|(k & Hk & L1 & U1 & V1)] [(j & Hj & Q2 & V2)|(j & Hj & L2 & U2 & V2)] H.
  - assert (K : (k < j)%Z) by (apply grid_lt; lra). assert (A := W_le (k + 1) j ltac:(lia) ltac:(lia) ltac:(lia)). assert (B := WF k ltac:(lia)). lra.
  - assert (K : (k <= j)%Z). { assert (X : (k < j + 1)%Z) by (apply grid_lt; lra). lia. }
    assert (A := W_le k j ltac:(lia) ltac:(lia) ltac:(lia)).
    assert (B := line_open _ (W j) _ (W (j + 1)) q2 (grid_lt' j (j + 1) ltac:(lia)) L2 U2 (WF j Hj)). lra.
  - assert (K : (k + 1 <= j)%Z). { assert (X : (k < j)%Z) by (apply grid_lt; lra). lia. }
    assert (A := W_le (k + 1) j ltac:(lia) ltac:(lia) ltac:(lia)).
    assert (B := line_open _ (W k) _ (W (k + 1)) q1 (grid_lt' k (k + 1) ltac:(lia)) L1 U1 (WF k Hk)). lra.
  - assert (K : (k <= j)%Z). { assert (X : (k < j + 1)%Z) by (apply grid_lt; lra). lia. }
    assert (B := line_open _ (W k) _ (W (k + 1)) q1 (grid_lt' k (k + 1) ltac:(lia)) L1 U1 (WF k Hk)).
    destruct (Z.eq_dec k j) as [->|N].
    + assert (X := line_falls _ (W j) _ (W (j + 1)) q1 q2 (grid_lt' j (j + 1) ltac:(lia)) H (WF j Hj)). lra.
    + assert (A := W_le (k + 1) j ltac:(lia) ltac:(lia) ltac:(lia)).
      assert (B' := line_open _ (W j) _ (W (j + 1)) q2 (grid_lt' j (j + 1) ltac:(lia)) L2 U2 (WF j Hj)). lra.
Qed.
Lemma follows_below q v : follows q v -> (v <= W 3)%Q.
Proof.
  intros [(k & Hk & _ & V)|(k & Hk & L & U & V)].
  - assert (A := W_le 3 k ltac:(lia) ltac:(lia) ltac:(lia)). lra.
  - assert (A := W_le 3 k ltac:(lia) ltac:(lia) ltac:(lia)).
    assert (B := line_open _ (W k) _ (W (k + 1)) q (grid_lt' k (k + 1) ltac:(lia)) L U (WF k Hk)). lra.
Qed.
End Falls.

Lemma sum_follows items t s : (forall ea, In ea items -> in_table (fst ea)) -> in_range t -> sum_g_i mu_table items t = Ok s -> items <> [] ->
  follows (fun k => weighted (mu (100 * k)) items) (pyval t) s.
Proof.
  intros Hi R E Ne. assert (T := mu_tabulates (map fst items) (fun e I => match proj1 (in_map_iff _ _ _) I with ex_intro _ x (conj X Y) => eq_ind _ in_table (Hi x Y) _ X end)).
  assert (Hin : forall ea, In ea items -> In (fst ea) (map fst items)) by (intros ea I; apply in_map; exact I).
  destruct (off_grid t) eqn:O.
  - apply off_grid_iff in O. right. destruct (sum_between _ _ _ T items t _ Hin R O eq_refl) as (s' & E' & V). rewrite E in E'. injection E' as <-.
    destruct (grid_cell t _ R O eq_refl) as (K & L & U). exists (Qfloor (pyval t / 100)). split; [exact K|]. split; [exact L|]. split; [exact U|exact V].
  - left. destruct t as [z|q].
    + apply off_grid_false in O. destruct (proj1 (int_on_grid z) O) as [k ->]. assert (K : (3 <= k <= 20)%Z).
      { destruct R as [R1 R2]. cbn [pyval] in *. change 300%Q with (inject_Z 300) in R1. change 2000%Q with (inject_Z 2000) in R2. rewrite <- Zle_Qle in R1, R2. lia. }
      destruct (sum_grid _ _ _ T items k Hin K) as (s' & E' & V). rewrite E in E'. injection E' as <-. exists k. split; [exact K|]. split; [reflexivity|exact V].
    + exfalso. unfold sum_g_i in E. rewrite O in E. destruct items as [|[e a] l]; [congruence|]. cbn in E. discriminate.
Qed.

Lemma weighted_falls items k : (forall ea, In ea items -> in_table (fst ea) /\ (0 < snd ea)%Q) -> items <> [] -> (3 <= k <= 19)%Z ->
  (weighted (mu (100 * (k + 1))) items < weighted (mu (100 * k)) items)%Q.
Proof.
  intros H N K. unfold weighted. apply sumQ_lt; [exact N|]. intros [e a] I. destruct (H _ I) as [He Ha]. cbn [fst snd] in *.
  assert (S := mu_step k e K He). nra.
Qed.
Lemma sum_falls items t1 t2 s1 s2 : (forall ea, In ea items -> in_table (fst ea) /\ (0 < snd ea)%Q) -> items <> [] -> in_range t1 -> in_range t2 ->
  (pyval t1 < pyval t2)%Q -> sum_g_i mu_table items t1 = Ok s1 -> sum_g_i mu_table items t2 = Ok s2 -> (s2 < s1)%Q /\ (s1 < 0)%Q.
Proof.
  intros H N R1 R2 L E1 E2.
  assert (F1 := sum_follows items t1 s1 (fun ea I => proj1 (H ea I)) R1 E1 N). assert (F2 := sum_follows items t2 s2 (fun ea I => proj1 (H ea I)) R2 E2 N).
  assert (WF := fun k K => weighted_falls items k H N K). split.
  - exact (follows_falls _ WF _ _ _ _ F1 F2 L).
  - assert (B := follows_below _ WF _ _ F1). cbn beta in B. change (100 * 3)%Z with 300%Z in B.
    assert (Z0 : (weighted (mu 300) items < 0)%Q); [|lra].
    assert (X : (sumQ (fun ea => snd ea * mu 300 (fst ea)) items < sumQ (fun _ => 0) items)%Q).
    { apply sumQ_lt; [exact N|]. intros [e a] I. destruct (H _ I) as [He Ha]. cbn [fst snd] in *. assert (S := mu_first e He). nra. }
    rewrite sumQ_zero in X. exact X.
Qed.

(* --- an element that is not in the table --- *)
Lemma not_listed kv e : In kv mu_table -> ~ in_table e -> elem_item e (snd kv) = Err KeyError.
Proof.
  intros I N. unfold elem_item. destruct (dict_get e (snd kv)) as [v|] eqn:D; [|reflexivity]. exfalso. apply N.
  assert (J : In e (map fst (snd kv))).
  { clear - D. induction (snd kv) as [|[k w] l IH]; cbn in D; [discriminate|]. destruct (Nat.eqb_spec e k) as [->|]; [left; reflexivity|right; apply IH; exact D]. }
  rewrite (row_fst _ I) in J. apply in_seq in J. unfold in_table. lia.
Qed.
Lemma not_interpolated e t : ~ in_table e -> g_interpolated mu_table e t = Err KeyError.
Proof.
  intros N. unfold g_interpolated. destruct mu_table as [|kv l] eqn:E; [discriminate|]. cbn [mapM].
  rewrite not_listed; [reflexivity|rewrite E; left; reflexivity|exact N].
Qed.
Lemma not_tabulated e t : in_range t -> ~ in_table e -> off_grid t = false -> g_tabulated mu_table e t = Err KeyError.
Proof.
  intros R N O. destruct t as [z|q]; [|reflexivity]. unfold g_tabulated. apply off_grid_false in O. destruct (proj1 (int_on_grid z) O) as [k ->].
  assert (T := mu_tabulates [] (fun e I => match I with end)).
  assert (K : (3 <= k <= 20)%Z).
  { destruct R as [R1 R2]. cbn [pyval] in *. change 300%Q with (inject_Z 300) in R1. change 2000%Q with (inject_Z 2000) in R2. rewrite <- Zle_Qle in R1, R2. lia. }
  destruct (find_key_ok mu_table _ (key_in _ _ _ T k K)) as (g & I & ->). cbn [bind]. exact (not_listed _ e I N).
Qed.
Lemma listed_or_key_error e t : in_range t -> (exists g, (if off_grid t then g_interpolated mu_table e t else g_tabulated mu_table e t) = Ok g)
  \/ (if off_grid t then g_interpolated mu_table e t else g_tabulated mu_table e t) = Err KeyError.
Proof.
  intros R. destruct (Nat.ltb_spec e 83) as [L|L].
  - assert (T := mu_tabulates [e] (fun x I => match I with or_introl E => eq_ind _ in_table L _ E | or_intror F => match F with end end)).
    destruct (off_grid t) eqn:O.
    + apply off_grid_iff in O. destruct (interpolated_ok _ _ _ T e t _ (or_introl eq_refl) R O eq_refl) as (g & E & _). left. exists g. exact E.
    + destruct t as [z|q]; [|right; reflexivity]. apply off_grid_false in O. destruct (proj1 (int_on_grid z) O) as [k ->].
      assert (K : (3 <= k <= 20)%Z).
      { destruct R as [R1 R2]. cbn [pyval] in *. change 300%Q with (inject_Z 300) in R1. change 2000%Q with (inject_Z 2000) in R2. rewrite <- Zle_Qle in R1, R2. lia. }
      left. eexists. exact (tabulated_ok _ _ _ T e k (or_introl eq_refl) K).
  - right. assert (N : ~ in_table e) by (unfold in_table; lia). destruct (off_grid t) eqn:O; [apply not_interpolated; exact N|apply not_tabulated; assumption].
Qed.
Lemma sum_missing items t : in_range t -> (exists ea, In ea items /\ ~ in_table (fst ea)) -> sum_g_i mu_table items t = Err KeyError.
Proof.
  intros R (ea & I & N). unfold sum_g_i. 
  assert (G : mapM (fun ea => bind (if off_grid t then g_interpolated mu_table (fst ea) t else g_tabulated mu_table (fst ea) t) (fun g => Ok (snd ea * g)%Q)) items = Err KeyError); [|rewrite G; reflexivity].
  induction items as [|x items IH]; [destruct I|]. cbn [mapM]. destruct (listed_or_key_error (fst x) t R) as [(g & E)|E]; rewrite E; cbn [bind]; [|reflexivity].
  destruct I as [->|I].
  - exfalso. destruct (off_grid t) eqn:O; [rewrite (not_interpolated _ t N) in E|rewrite (not_tabulated _ t R N O) in E]; discriminate.
  - rewrite (IH I). reflexivity.
Qed.

Section Entries.
Variable ln : Q -> Q.
Variable C : chem.
Variable mass : nat -> Q.
Variable default_id : nat -> Q -> nat.
Hypothesis W : wf_chem C.

Lemma mu_init c dhf v t adjs id : elems C c <> [] -> (forall e, In e (elems C c) -> in_table e /\ (0 < mass e)%Q) -> in_range t ->
  (is_int t \/ ~ on_grid t \/ is_element C c = true) -> exists e, gibbs_init ln C mass mu_table default_id c dhf v t adjs id = Ok e /\ ge_temp e = t.
Proof.
  intros N H R K. apply (init_succeeds ln C mass mu_table default_id mu W); try assumption.
  - apply mu_tabulates. intros e I. exact (proj1 (H e I)).
  - intros e I. exact (proj2 (H e I)).
Qed.
Lemma mu_missing c dhf v t adjs id : 2 <= length (elems C c) -> (forall e, In e (elems C c) -> (0 < mass e)%Q) -> in_range t ->
  (exists e, In e (elems C c) /\ ~ in_table e) -> gibbs_init ln C mass mu_table default_id c dhf v t adjs id = Err KeyError.
Proof.
  intros N Pm R (e & I & Ne). unfold gibbs_init. rewrite (proj2 (range_bool t) R). unfold gibbs_adjustment.
  assert (El : is_element C c = false) by (unfold is_element; apply Nat.eqb_neq; lia). rewrite El.
  destruct (reduced_mass_value mass C c W N Pm) as (rm & E & _). rewrite E. cbn [bind].
  rewrite sum_missing; [reflexivity|exact R|]. exists (e, amt C c e). split; [|exact Ne]. unfold el_amts. apply in_map_iff. exists e. split; [reflexivity|exact I].
Qed.
End Entries.
