(* The rank of the composition matrix and the ways to react. *)
From Coq Require Import Lqa Lia.
From Verif Require Import Prelude NumQ SumQ ListFacts UtilsModel UtilsSpec UtilsProofs ReactionModel ReactionSpec ReactionBaseProofs ReactionBalanceProofs LinModel LinSpec LinProofs LinBalanceProofs CoefProofs FreeSpec.
Open Scope nat_scope.

Definition null (m : nat) (vs : list vec) (x : vec) : Prop := length x = length vs /\ forall w, (dot (lincomb m x vs) w == 0)%Q.
Definition mix (ts : list Q) (ws : list vec) (j : nat) : Q := sumQ (fun tw => fst tw * nth j (snd tw) 0)%Q (combine ts ws).

Lemma mix_under ts ws j : (mix ts (map (cons 0%Q) ws) (S j) == mix ts ws j)%Q.
Proof. unfold mix. revert ws. induction ts as [|t ts IH]; intros [|w ws]; try reflexivity. cbn [map combine]. rewrite !sumQ_cons, IH. reflexivity. Qed.
Lemma mix_head ts ws : (mix ts (map (cons 0%Q) ws) 0 == 0)%Q.
Proof. unfold mix. revert ws. induction ts as [|t ts IH]; intros [|w ws]; try reflexivity. cbn [map combine]. rewrite !sumQ_cons, IH. cbn [fst snd nth]. ring. Qed.
Lemma mix_cons t ts w ws j : (mix (t :: ts) (w :: ws) j == t * nth j w 0 + mix ts ws j)%Q.
Proof. unfold mix. cbn [combine]. rewrite sumQ_cons. reflexivity. Qed.

Lemma null_dot m x vs v w : (forall v, In v vs -> length v = m) -> length v = m -> forall a, (dot (lincomb m (a :: x) (v :: vs)) w == a * dot v w + dot (lincomb m x vs) w)%Q.
Proof. intros H L a. cbn [lincomb]. rewrite dot_add by (rewrite scale_length, lincomb_length by exact H; exact L). rewrite dot_scale. reflexivity. Qed.
Lemma null_under m v vs x : (forall v, In v vs -> length v = m) -> length v = m -> null m (v :: vs) (0%Q :: x) <-> null m vs x.
Proof.
  intros H L. unfold null. cbn [length]. split; intros (E & Z); (split; [lia|]); intros w; specialize (Z w); rewrite null_dot in * by assumption; [rewrite <- Z|rewrite Z]; ring.
Qed.
(* x + t y *)
Lemma lincomb_plus m vs w t : (forall v, In v vs -> length v = m) -> forall x y, length x = length vs -> length y = length vs ->
  (dot (lincomb m (map (fun ab => fst ab + t * snd ab) (combine x y)) vs) w == dot (lincomb m x vs) w + t * dot (lincomb m y vs) w)%Q.
Proof.
  induction vs as [|v vs IH]; intros H [|a x] [|b y] Lx Ly; try discriminate; [cbn [combine map lincomb]; rewrite dot_zeros; ring|].
  cbn [combine map]. rewrite !null_dot by (try (intros u Hu; apply H; right; exact Hu); apply H; left; reflexivity). cbn [fst snd]. cbn in Lx, Ly. rewrite IH by (try lia; intros u Hu; apply H; right; exact Hu). ring.
Qed.
Lemma nth_plus t x : forall y j, length x = length y -> (nth j (map (fun ab => fst ab + t * snd ab) (combine x y)) 0 == nth j x 0 + t * nth j y 0)%Q.
Proof.
  induction x as [|a x IH]; intros [|b y] [|j] L; try discriminate; cbn [combine map nth fst snd]; try ring. apply IH. cbn in L. lia.
Qed.

(* lia with one name for the type of vectors *)
Ltac vlia := unfold vec in *; lia.

Lemma null_basis m vs : (forall v, In v vs -> length v = m) ->
  exists ws, length ws + span_rank m vs = length vs /\ Forall (null m vs) ws
  /\ (forall x, null m vs x -> exists ts, length ts = length ws /\ forall j, (nth j x 0 == mix ts ws j)%Q)
  /\ forall ts, length ts = length ws -> (forall j, j < length vs -> (mix ts ws j == 0)%Q) -> Forall (fun t => t == 0)%Q ts.
Proof.
  induction vs as [|v vs IH]; intros H.
  - exists []. split; [reflexivity|]. split; [constructor|]. split.
    + intros x (L & _). destruct x; [|discriminate]. exists []. split; [reflexivity|]. intros [|j]; reflexivity.
    + intros [|t ts] L _; [constructor|discriminate].
  - assert (H' : forall v, In v vs -> length v = m) by (intros u Hu; apply H; right; exact Hu). assert (Lv : length v = m) by (apply H; left; reflexivity).
    destruct (IH H') as (ws & Lw & Nw & Sp & In1). cbn [span_rank length]. fold (rest m vs v). set (pr := project m vs v). assert (Lp : length pr = length vs) by apply project_length.
    assert (Rd : forall w, (dot v w == dot (rest m vs v) w + dot (lincomb m pr vs) w)%Q).
    { intros w. unfold rest. fold pr. rewrite dot_sub by (rewrite lincomb_length by exact H'; exact Lv). ring. }
    destruct (Qeq_bool (dot (rest m vs v) (rest m vs v)) 0) eqn:E.
    + apply Qeq_bool_iff in E. pose proof (dot_zero _ E) as Z. exists ((1%Q :: map Qopp pr) :: map (cons 0%Q) ws). cbn [length]. rewrite map_length. split; [vlia|]. split; [constructor|split].
      * split; [cbn [length]; rewrite map_length, Lp; reflexivity|]. intros w. rewrite (sub_lincomb m _ vs v H' Lv Lp). fold (rest m vs v). apply Z.
      * apply Forall_forall. intros x I. apply in_map_iff in I as (y & <- & I). apply null_under; [exact H'|exact Lv|]. rewrite Forall_forall in Nw. exact (Nw y I).
      * intros x (L & N). destruct x as [|a x]; [discriminate|]. cbn in L. set (y := map (fun ab => fst ab + a * snd ab)%Q (combine x pr)).
        destruct (Sp y) as (ts & Lt & Et).
        { split; [unfold y; rewrite map_length, combine_length; vlia|]. intros w. unfold y. rewrite lincomb_plus by (try exact H'; vlia). specialize (N w). rewrite null_dot, Rd, Z in N by assumption. lra. }
        exists (a :: ts). cbn [length]. split; [vlia|]. intros [|j]; rewrite mix_cons; cbn [nth]; [rewrite mix_head; ring|]. rewrite mix_under, <- Et. unfold y. rewrite nth_plus by vlia.
        rewrite nth_opp. ring.
      * intros [|t ts] L Hz; [discriminate|]. cbn in L. assert (T : (t == 0)%Q) by (specialize (Hz 0 ltac:(vlia)); rewrite mix_cons, mix_head in Hz; cbn [nth] in Hz; lra).
        constructor; [exact T|]. apply In1; [vlia|]. intros j Hj. specialize (Hz (S j) ltac:(vlia)). rewrite mix_cons, mix_under, T in Hz. rewrite <- Hz. ring.
    + assert (E' : ~ (dot (rest m vs v) (rest m vs v) == 0)%Q) by (intros K; apply Qeq_bool_iff in K; congruence).
      exists (map (cons 0%Q) ws). rewrite map_length. split; [vlia|]. split; [|split].
      * apply Forall_forall. intros x I. apply in_map_iff in I as (y & <- & I). apply null_under; [exact H'|exact Lv|]. rewrite Forall_forall in Nw. exact (Nw y I).
      * intros x (L & N). destruct x as [|a x]; [discriminate|]. cbn in L. assert (A : (a == 0)%Q).
        { specialize (N (rest m vs v)). assert (O : forall y, (dot (lincomb m y vs) (rest m vs v) == 0)%Q) by (intros y; apply lincomb_orth; [exact H'|]; apply (project_orth m vs H' v Lv)).
          rewrite null_dot, Rd, !O in N by assumption. destruct (Qmult_integral a (dot (rest m vs v) (rest m vs v))) as [K|K]; [lra|exact K|contradiction]. }
        destruct (Sp x) as (ts & Lt & Et).
        { split; [vlia|]. intros w. specialize (N w). rewrite null_dot, A in N by assumption. lra. }
        exists ts. split; [exact Lt|]. intros [|j]; cbn [nth]; [rewrite mix_head; exact A|rewrite mix_under; apply Et].
      * intros ts L Hz. apply In1; [exact L|]. intros j Hj. rewrite <- mix_under. apply Hz. vlia.
Qed.

Lemma columns_null (sys : list (vec * Q)) n x : (forall q, In q sys -> length (fst q) = n) -> length x = n -> (forall q, In q sys -> (dot (fst q) x == 0)%Q) -> null (length sys) (columns sys n) x.
Proof.
  intros Hs Lx Z. split; [unfold columns; rewrite map_length, seq_length; exact Lx|]. apply dot_zero.
  set (u := lincomb (length sys) x (columns sys n)). assert (Lu : length u = length sys) by (apply lincomb_length; intros v Hv; apply in_map_iff in Hv as (j & <- & _); apply map_length).
  assert (G : forall w, length w = length sys -> (dot u w == 0)%Q); [|apply G; exact Lu].
  intros w Lw. set (sys2 := map (fun qb : (vec * Q) * Q => (fst (fst qb), snd qb)) (combine sys w)).
  assert (E1 : map fst sys2 = map fst sys).
  { unfold sys2. rewrite map_map. cbn [fst]. rewrite <- (map_map fst fst). f_equal. clear -Lw. revert w Lw. induction sys as [|q sys IH]; intros [|b w] L; try discriminate; [reflexivity|]. cbn. rewrite IH by (cbn in L; lia). reflexivity. }
  assert (E2 : map snd sys2 = w).
  { unfold sys2. rewrite map_map. cbn [snd]. clear -Lw. revert w Lw. induction sys as [|q sys IH]; intros [|b w] L; try discriminate; [reflexivity|]. cbn. rewrite IH by (cbn in L; lia). reflexivity. }
  assert (E3 : columns sys2 n = columns sys n).
  { unfold columns. apply map_ext. intros j. unfold column. transitivity (map (fun v => nth j v 0%Q) (map fst sys2)); [rewrite map_map; reflexivity|]. rewrite E1, map_map. reflexivity. }
  assert (Hs2 : forall q, In q sys2 -> exists q', In q' sys /\ fst q' = fst q).
  { intros q I. apply (in_map fst) in I. rewrite E1 in I. apply in_map_iff in I as (q' & E & I). exists q'. split; [exact I|exact E]. }
  assert (L2 : length sys2 = length sys) by (rewrite <- (map_length fst), E1, map_length; reflexivity).
  unfold u. rewrite <- E3, <- L2, <- E2. rewrite columns_dot; [|intros q I; destruct (Hs2 q I) as (q' & I' & <-); exact (Hs q' I')|exact Lx].
  apply sumQ_all_zero. intros q I. destruct (Hs2 q I) as (q' & I' & <-). rewrite (Z q' I'). ring.
Qed.

Section Ways.
Variable C : chem.
Hypothesis W : wf_chem C.
Variable form : nat -> nat.

Lemma cancels_list l w : cancels C form l w <-> conserves C (map form l) (map w l).
Proof.
  unfold cancels, conserves. rewrite !map_length. setoid_rewrite (net_self C form w l). split; [intros H; split; [reflexivity|exact H]|intros (_ & H); exact H].
Qed.
Lemma null_iff cs x : null (length (element_rows C cs)) (columns (element_rows C cs) (length cs)) x <-> conserves C cs x.
Proof.
  assert (Hs : forall q, In q (element_rows C cs) -> length (fst q) = length cs) by (intros q Hq; apply in_map_iff in Hq as (e & <- & _); apply map_length).
  split.
  - intros (L & Z). unfold columns in L. rewrite map_length, seq_length in L. apply (null_conserves C W); [exact L|apply Z].
  - intros (L & H). apply columns_null; [exact Hs|exact L|]. intros q Hq. apply in_map_iff in Hq as (e & <- & _). cbn [fst]. rewrite <- net_dot. apply H.
Qed.

Lemma coef_list l v : NoDup l -> length v = length l -> forall i j, nth_error l j = Some i -> (coef l v i == nth j v 0)%Q.
Proof.
  intros N L i j E. apply (coef_nth l v j i _ N L E). rewrite (nth_error_nth' v 0%Q); [reflexivity|]. rewrite L. apply nth_error_Some. rewrite E. discriminate.
Qed.
Lemma cancels_coef l v : NoDup l -> conserves C (map form l) v -> cancels C form l (coef l v).
Proof.
  intros N (L & H) el. rewrite map_length in L. specialize (H el). rewrite net_form, (sum_coef (fun i => amt C (form i) el) l v N L) in H. exact H.
Qed.
Lemma blend_coef l ws : NoDup l -> Forall (fun v => length v = length l) ws -> forall ts i j, nth_error l j = Some i -> (blend ts (map (coef l) ws) i == mix ts ws j)%Q.
Proof.
  intros N F. unfold blend, mix. induction F as [|v ws L F IH]; intros [|t ts] i j E; try reflexivity. cbn [map combine]. rewrite !sumQ_cons, (IH ts i j E). cbn [fst snd]. rewrite (coef_list l v N L i j E). reflexivity.
Qed.

Lemma ways_rank rs ps l : NoDup l -> map form l = rs ++ ps -> exact_rank C rs ps <= length rs + length ps /\ independent_ways C form l (length rs + length ps - exact_rank C rs ps).
Proof.
  intros N El. unfold exact_rank. rewrite <- El. set (cs := map form l). set (sys := element_rows C cs).
  assert (Ln : length rs + length ps = length l) by (rewrite <- app_length, <- El, map_length; reflexivity).
  destruct (null_basis (length sys) (columns sys (length cs))) as (ws & Lw & Nw & Sp & Ind); [intros v Hv; apply in_map_iff in Hv as (j & <- & _); apply map_length|].
  assert (Lc : length (columns sys (length cs)) = length l) by (unfold columns, cs; rewrite map_length, seq_length, map_length; reflexivity). rewrite Ln.
  assert (Lw' : length ws + span_rank (length sys) (columns sys (length cs)) = length l) by (rewrite <- Lc; exact Lw). split; [vlia|].
  replace (length l - span_rank (length sys) (columns sys (length cs))) with (length ws) by vlia.
  assert (Fl : Forall (fun v => length v = length l) ws) by (eapply Forall_impl; [|exact Nw]; intros v (L & _); rewrite L; exact Lc).
  exists (map (coef l) ws). split; [apply map_length|]. split; [|split].
  - apply Forall_forall. intros w I. apply in_map_iff in I as (v & <- & I). apply cancels_coef; [exact N|]. apply null_iff. rewrite Forall_forall in Nw. exact (Nw v I).
  - intros w Hw. apply cancels_list, null_iff in Hw. destruct (Sp _ Hw) as (ts & Lt & Et). exists ts. split; [exact Lt|]. intros i I. apply In_nth_error in I as (j & E).
    rewrite (blend_coef l ws N Fl ts i j E), <- Et. rewrite (nth_error_nth (map w l) j 0%Q (x := w i)); [reflexivity|]. rewrite nth_error_map, E. reflexivity.
  - intros ts Lt Hz. apply Ind; [exact Lt|]. intros j Hj. assert (Hj' : j < length l) by (rewrite <- Lc; exact Hj). destruct (nth_error l j) as [i|] eqn:E; [|apply nth_error_None in E; lia].
    rewrite <- (blend_coef l ws N Fl ts i j E). apply Hz. exact (nth_error_In _ _ E).
Qed.

Lemma ways_perm l l' d : Permutation l l' -> independent_ways C form l d -> independent_ways C form l' d.
Proof.
  intros P (ws & L & F & Sp & Ind).
  assert (Cp : forall w, cancels C form l w <-> cancels C form l' w) by (intros w; unfold cancels; split; intros H el; [rewrite <- (sumQ_perm _ _ _ P)|rewrite (sumQ_perm _ _ _ P)]; apply H).
  exists ws. split; [exact L|]. split; [eapply Forall_impl; [|exact F]; intros w; apply Cp|]. split.
  - intros w H. apply Cp in H. destruct (Sp w H) as (ts & Lt & E). exists ts. split; [exact Lt|]. intros i I. apply E. exact (Permutation_in _ (Permutation_sym P) I).
  - intros ts Lt H. apply Ind; [exact Lt|]. intros i I. apply H. exact (Permutation_in _ P I).
Qed.
Lemma ways_one l d : d <= 1 -> independent_ways C form l d -> one_way C form l.
Proof.
  intros Hd (ws & L & F & Sp & _) v w Hv Hw (i0 & I0 & N0). destruct (Sp v Hv) as (ts & Lt & Et), (Sp w Hw) as (us & Lu & Eu).
  destruct ws as [|b [|c ws]]; cbn in L; [| |lia]; subst d.
  - destruct ts; [|discriminate]. exfalso. apply N0. rewrite (Et i0 I0). reflexivity.
  - destruct ts as [|t [|]]; try discriminate. destruct us as [|u [|]]; try discriminate.
    assert (Bl : forall q i, (blend [q] [b] i == q * b i)%Q) by (intros q i; unfold blend; cbn [combine]; rewrite sumQ_cons; cbn; ring).
    setoid_rewrite Bl in Et. setoid_rewrite Bl in Eu. assert (T : ~ (t == 0)%Q) by (intros T; apply N0; rewrite (Et i0 I0), T; ring).
    exists (u / t)%Q. intros i I. rewrite (Eu i I), (Et i I). field. exact T.
Qed.
Lemma constraints_max nr np rank : num_constraints nr np rank = Nat.max 1 (nr + np - rank).
Proof. unfold num_constraints. destruct (Nat.leb_spec 2 (nr + np - rank)); lia. Qed.
End Ways.

Lemma one_way_same C f g l : (forall i, In i l -> f i = g i) -> one_way C f l -> one_way C g l.
Proof.
  intros E H. assert (Cs : forall w, cancels C g l w -> cancels C f l w).
  { intros w K el. rewrite <- (K el). apply sumQ_ext. intros i I. rewrite (E i I). reflexivity. }
  intros v w Hv Hw. apply H; apply Cs; assumption.
Qed.

Lemma number_of_ways C : wf_chem C -> forall form r p, NoDup (r ++ p) ->
  exists d, independent_ways C form (r ++ p) d /\ num_constraints (length r) (length p) (exact_rank C (map form r) (map form p)) = Nat.max 1 d.
Proof.
  intros W form r p N. destruct (ways_rank C W form (map form r) (map form p) (r ++ p) N (map_app _ _ _)) as [_ H]. rewrite !map_length in H. eexists. split; [exact H|apply constraints_max].
Qed.
