(* C102: the uncertainty of reaction energies. *)
From Coq Require Import Setoid Lqa.
From Verif Require Import Prelude NumQ UtilsModel SumQ ReactionModel ReactionSpec ReactionBaseProofs ReactionOpsProofs UncertModel UncertSpec.
Open Scope nat_scope.

Section Uncert.
Variable C : chem.

(* --- the loop over the entries --- *)
Definition holds (es : list entry) (d : list (nat * ufloat)) : Prop := forall c,
  (dict_get c d = None /\ ~ In c (map (fun e => red C (e_comp e)) es))
  \/ exists u p e, dict_get c d = Some u /\ stands_for C es c p /\ nth_error es p = Some e
     /\ nominal u = per_unit C e /\ form u = [(p, 1 / fac C (e_comp e))%Q].

Lemma stands_more es e c p : stands_for C es c p ->
  (red C (e_comp e) = c -> forall e0, nth_error es p = Some e0 -> (per_unit C e0 <= per_unit C e)%Q) ->
  stands_for C (es ++ [e]) c p.
Proof.
  intros (e0 & N0 & R0 & L0 & F0) H. exists e0.
  assert (Hp : p < length es) by (apply nth_error_Some; congruence).
  split; [rewrite nth_error_app1 by exact Hp; exact N0|]. split; [exact R0|]. split.
  - intros e' I R. apply in_app_or in I as [I|[<-|[]]]; [auto|]. exact (H R _ N0).
  - intros q e' Hq N R. rewrite nth_error_app1 in N by lia. exact (F0 q e' Hq N R).
Qed.

Lemma stands_new es e :
  (forall e', In e' es -> red C (e_comp e') = red C (e_comp e) -> (per_unit C e < per_unit C e')%Q) ->
  stands_for C (es ++ [e]) (red C (e_comp e)) (length es).
Proof.
  intros H. exists e. split; [rewrite nth_error_app2, Nat.sub_diag by lia; reflexivity|]. split; [reflexivity|]. split.
  - intros e' I R. apply in_app_or in I as [I|[<-|[]]]; [apply Qlt_le_weak; auto|apply Qle_refl].
  - intros q e' Hq N R. rewrite nth_error_app1 in N by lia. apply nth_error_In in N. auto.
Qed.

Lemma calc_holds es : forall done d, holds done d -> holds (done ++ es) (calc_ufloats C (length done) es d).
Proof.
  induction es as [|e es IH]; intros done d H; [rewrite app_nil_r; exact H|].
  cbn [calc_ufloats]. replace (done ++ e :: es) with ((done ++ [e]) ++ es) by (rewrite <- app_assoc; reflexivity).
  replace (S (length done)) with (length (done ++ [e])) by (rewrite app_length; cbn; lia).
  apply IH. clear IH. intros c. rewrite dict_get_set.
  destruct (Nat.eqb_spec c (red C (e_comp e))) as [->|N].
  - right. destruct (H (red C (e_comp e))) as [[-> No]|(w & p & e0 & -> & St & N0 & W1 & W2)].
    + eexists _, (length done), e. split; [reflexivity|]. split; [|split; [|split; reflexivity]].
      * apply stands_new. intros e' I R. destruct No. rewrite <- R. apply (in_map (fun e => red C (e_comp e))). exact I.
      * rewrite nth_error_app2, Nat.sub_diag by lia. reflexivity.
    + cbn [nominal udiv]. change (e_energy e / fac C (e_comp e))%Q with (per_unit C e). rewrite W1.
      destruct St as (e1 & N1 & R1 & L1 & F1). assert (e1 = e0) by congruence. subst e1.
      destruct (Qlt_bool (per_unit C e) (per_unit C e0)) eqn:E.
      * apply Qlt_bool_iff' in E. eexists _, (length done), e. split; [reflexivity|]. split; [|split; [|split; reflexivity]].
        { apply stands_new. intros e' I R. specialize (L1 e' I R). lra. }
        { rewrite nth_error_app2, Nat.sub_diag by lia. reflexivity. }
      * apply Qlt_bool_false in E. exists w, p, e0. split; [reflexivity|]. split; [|split; [|split; assumption]].
        { apply stands_more; [exists e0; auto|]. intros _ e2 N2. assert (e2 = e0) by congruence. subst e2. exact E. }
        { rewrite nth_error_app1; [exact N0|]. apply nth_error_Some. congruence. }
  - destruct (H c) as [[-> No]|(w & p & e0 & -> & St & N0 & W1 & W2)].
    + left. split; [reflexivity|]. rewrite map_app, in_app_iff. cbn. intros [I|[I|[]]]; [auto|congruence].
    + right. exists w, p, e0. split; [reflexivity|]. split; [|split; [|split; assumption]].
      * apply stands_more; [exact St|]. intros R. congruence.
      * rewrite nth_error_app1; [exact N0|]. apply nth_error_Some. congruence.
Qed.

Lemma calc_all es : holds es (calc_ufloats C 0 es []).
Proof. apply (calc_holds es [] []). intros c. left. split; [reflexivity|intros []]. Qed.

Lemma stands_unique es c c' p : stands_for C es c p -> stands_for C es c' p -> c = c'.
Proof. intros (e & N & R & _) (e' & N' & R' & _). congruence. Qed.

(* --- sums over positions --- *)
Lemma sum_on (F : nat -> Q) l all : NoDup l -> NoDup all -> incl l all -> (forall i, In i all -> ~ In i l -> (F i == 0)%Q) ->
  (sumQ F all == sumQ F l)%Q.
Proof.
  intros Nl Na I Z.
  assert (P : Permutation l (filter (fun i => if in_dec Nat.eq_dec i l then true else false) all)).
  { apply NoDup_Permutation; [exact Nl|apply NoDup_filter; exact Na|]. intros i. rewrite filter_In.
    destruct (in_dec Nat.eq_dec i l) as [J|J]; split; intros K; [auto|exact J|contradiction|destruct K; discriminate]. }
  rewrite (sumQ_perm F _ _ P), sumQ_filter. apply sumQ_ext. intros i Hi.
  destruct (in_dec Nat.eq_dec i l) as [J|J]; cbn [ind]; [lra|]. rewrite (Z i Hi J). lra.
Qed.

Lemma NoDup_map_on (g : nat -> nat) l : NoDup l -> (forall a b, In a l -> In b l -> g a = g b -> a = b) -> NoDup (map g l).
Proof.
  induction l as [|a l IH]; intros N H; [constructor|]. inversion N; subst. cbn. constructor.
  - intros I. apply in_map_iff in I as (b & E & I). assert (b = a) by (apply H; [right|left|]; auto). subst. contradiction.
  - apply IH; [assumption|]. intros x y Ix Iy. apply H; right; assumption.
Qed.

Lemma fold_form us : forall acc, form (fold_left uadd us acc) = form acc ++ flat_map form us.
Proof.
  induction us as [|u us IH]; intros acc; [cbn; rewrite app_nil_r; reflexivity|].
  cbn [fold_left flat_map]. rewrite IH. cbn [uadd form]. rewrite app_assoc. reflexivity.
Qed.

Lemma nth_std unc es p e : nth_error es p = Some e -> nth p (map (std unc) es) 0%Q = std unc e.
Proof. intros N. apply nth_error_nth. rewrite nth_error_map, N. reflexivity. Qed.

(* The position that stands for c. *)
Definition pos (d : list (nat * ufloat)) (c : nat) : nat :=
  match dict_get c d with Some u => match form u with (p, _) :: _ => p | [] => 0 end | None => 0 end.
Definition unit_of (d : list (nat * ufloat)) (c : nat) : ufloat :=
  match dict_get c d with Some u => u | None => {| nominal := 0; form := [] |} end.

Theorem variance_spec : forall unc es ks n, es <> [] -> ks <> [] ->
  let r := computed_init C es ks n in let sp := species (c_base r) in
  exists v g, energy_variance C unc r = Ok v
  /\ (forall c, In c (map fst sp) -> stands_for C es c (g c))
  /\ (v == sumQ (fun c => square (net_of sp c * spread C unc es (g c))) (nodup Nat.eq_dec (map fst sp)))%Q.
Proof.
  intros unc es ks n He Hk r sp. set (d := calc_ufloats C 0 es []). pose proof (calc_all es : holds es d) as H.
  assert (Hsp : sp = combine (map (fun e => red C (e_comp e)) es) ks) by reflexivity.
  assert (Hin : forall c, In c (map fst sp) -> exists p e, dict_get c d = Some (unit_of d c) /\ pos d c = p /\ stands_for C es c p
       /\ nth_error es p = Some e /\ form (unit_of d c) = [(p, 1 / fac C (e_comp e))%Q]).
  { intros c I. destruct (H c) as [[_ No]|(u & p & e & G & St & Np & _ & F)].
    - destruct No. rewrite Hsp in I. apply in_map_iff in I as ([c' k] & <- & I). exact (in_combine_l _ _ _ _ I).
    - exists p, e. unfold pos, unit_of. rewrite G, F. auto. }
  set (us := map (fun kc => umul (fst kc) (unit_of d (snd kc))) (combine ks (map (fun e => red C (e_comp e)) es))).
  assert (Hus : uterms d (combine ks (map (fun e => red C (e_comp e)) es)) = Ok us).
  { unfold uterms, us. apply mapM_map_Ok. intros [k c] I. cbn [fst snd]. destruct (Hin c) as (p & e & -> & _); [|reflexivity].
    rewrite Hsp. rewrite combine_swap in I. apply in_map_iff in I as ([c' k'] & E & I). cbn in E. inversion E; subst. apply in_map_iff. exists (c, k). auto. }
  exists (variance (map (std unc) es) (fold_left uadd us {| nominal := 0; form := [] |})), (pos d). split; [|split].
  - unfold energy_variance. cbn [c_entries r computed_init]. change (coeffs (c_base r)) with ks. change (comps (c_base r)) with (map (fun e => red C (e_comp e)) es).
    fold d. rewrite Hus. cbn [bind]. destruct es; [congruence|]. destruct ks; [congruence|]. reflexivity.
  - intros c I. destruct (Hin c I) as (p & e & _ & -> & St & _). exact St.
  - unfold variance. rewrite Qsum_sumQ, sumQ_map. rewrite map_length.
    rewrite fold_form. cbn [form]. rewrite app_nil_l.
    assert (FM : forall i, (Qsum (map snd (filter (fun t => fst t =? i) (flat_map form us))) * nth i (map (std unc) es) 0
         == sumQ (fun ck => ind (pos d (fst ck) =? i) * (snd ck * spread C unc es (pos d (fst ck)))) sp)%Q).
    { intros i. rewrite Qsum_sumQ, sumQ_map, sumQ_filter. unfold us. rewrite sumQ_flat_map, sumQ_map, combine_swap, sumQ_map.
      rewrite <- Hsp. rewrite <- sumQ_scale_r. apply sumQ_ext. intros [c k] I. cbn [fst snd].
      destruct (Hin c) as (p & e & _ & -> & St & Np & F); [apply in_map_iff; exists (c, k); auto|].
      cbn [umul form]. rewrite F. cbn [map fst snd]. rewrite sumQ_cons. cbn [fst snd].
      unfold sumQ. cbn [map Qsum fold_right]. destruct (Nat.eqb_spec p i) as [<-|Npi]; cbn [ind]; [|lra].
      rewrite (nth_std _ _ _ _ Np). unfold spread. rewrite Np. unfold std, Qdiv. ring. }
    rewrite (sumQ_ext _ (fun i => square (sumQ (fun ck => ind (pos d (fst ck) =? i) * (snd ck * spread C unc es (pos d (fst ck)))) sp))%Q)
      by (intros i _; unfold square; rewrite FM; reflexivity).
    rewrite (sum_on _ (map (pos d) (nodup Nat.eq_dec (map fst sp)))).
    + rewrite sumQ_map. apply sumQ_ext. intros c I. apply nodup_In in I.
      assert (E : (sumQ (fun ck => ind (pos d (fst ck) =? pos d c) * (snd ck * spread C unc es (pos d (fst ck)))) sp
        == net_of sp c * spread C unc es (pos d c))%Q).
      { unfold net_of. rewrite sumQ_filter, <- sumQ_scale_r. apply sumQ_ext. intros [c' k'] I'. cbn [fst snd].
        destruct (Nat.eqb_spec c' c) as [->|N]; [rewrite Nat.eqb_refl; cbn [ind]; ring|].
        destruct (Nat.eqb_spec (pos d c') (pos d c)) as [E|_]; cbn [ind]; [|lra]. exfalso. apply N.
        assert (I'' : In c' (map fst sp)) by (apply in_map_iff; exists (c', k'); auto).
        destruct (Hin c I) as (p & e & _ & P1 & St & _). destruct (Hin c' I'') as (p' & e' & _ & P2 & St' & _).
        apply (stands_unique es c' c p); [congruence|exact St]. }
      unfold square. rewrite E. reflexivity.
    + apply NoDup_map_on; [apply NoDup_nodup|]. intros a b Ia Ib E. apply nodup_In in Ia, Ib.
      destruct (Hin a Ia) as (p & e & _ & P1 & St & _). destruct (Hin b Ib) as (p' & e' & _ & P2 & St' & _).
      apply (stands_unique es a b p); [exact St|congruence].
    + apply seq_NoDup.
    + intros i I. apply in_map_iff in I as (c & <- & I). apply nodup_In in I. destruct (Hin c I) as (p & e & _ & -> & _ & Np & _).
      apply in_seq. split; [lia|]. cbn. apply nth_error_Some. congruence.
    + intros i _ No. unfold square. rewrite sumQ_all_zero; [ring|]. intros [c k] I. cbn [fst snd].
      destruct (Nat.eqb_spec (pos d c) i) as [<-|_]; cbn [ind]; [|lra]. exfalso. apply No. apply in_map. apply nodup_In. apply in_map_iff. exists (c, k). auto.
Qed.

Lemma stands_pos es c p p' : stands_for C es c p -> stands_for C es c p' -> p = p'.
Proof.
  intros (e & N & R & L & F) (e' & N' & R' & L' & F'). destruct (Nat.lt_trichotomy p p') as [H|[H|H]]; [|exact H|]; exfalso.
  - specialize (F' p e H N R). specialize (L e' (nth_error_In _ _ N') R'). lra.
  - specialize (F p' e' H N' R'). specialize (L' e (nth_error_In _ _ N) R). lra.
Qed.

Lemma fails_empty unc es ks n : es = [] \/ ks = [] -> energy_variance C unc (computed_init C es ks n) = Err AttributeError.
Proof.
  intros H. unfold energy_variance. change (coeffs (c_base (computed_init C es ks n))) with ks.
  change (comps (c_base (computed_init C es ks n))) with (map (fun e => red C (e_comp e)) es).
  replace (combine ks (map (fun e => red C (e_comp e)) es)) with (@nil (Q * nat)); [reflexivity|].
  destruct H as [-> | ->]; [|reflexivity]. destruct ks; reflexivity.
Qed.

Theorem variance_nonneg unc es ks n v : energy_variance C unc (computed_init C es ks n) = Ok v -> (0 <= v)%Q.
Proof.
  intros E. destruct es as [|e0 es0]; [rewrite fails_empty in E by auto; discriminate E|].
  destruct ks as [|k0 ks0]; [rewrite fails_empty in E by auto; discriminate E|].
  edestruct (variance_spec unc (e0 :: es0) (k0 :: ks0) n) as (w & g & E' & _ & S); [discriminate|discriminate|].
  assert (w = v) by congruence. subst w. rewrite S. apply sumQ_nonneg. intros c _. unfold square.
  destruct (Qlt_le_dec (net_of (species (c_base (computed_init C (e0 :: es0) (k0 :: ks0) n))) c * spread C unc (e0 :: es0) (g c)) 0); nra.
Qed.

Lemma net_scaled s (cs : list nat) ks c : (net_of (combine cs (map (fun q => q * s) ks)) c == s * net_of (combine cs ks) c)%Q.
Proof.
  unfold net_of. rewrite combine_map_r, filter_map, sumQ_map. cbn [fst snd]. rewrite sumQ_scale_r. ring.
Qed.

Lemma fst_scaled (f : Q -> Q) (cs : list nat) ks : map fst (combine cs (map f ks)) = map fst (combine cs ks).
Proof. rewrite combine_map_r, map_map. reflexivity. Qed.

Theorem variance_scaled unc es ks n n' s :
  same_value (energy_variance C unc (computed_init C es (map (fun q => q * s)%Q ks) n'))
             (bind (energy_variance C unc (computed_init C es ks n)) (fun v => Ok (square s * v)%Q)).
Proof.
  destruct es as [|e0 es0]; [rewrite !fails_empty by auto; reflexivity|].
  destruct ks as [|k0 ks0]; [rewrite !fails_empty by auto; reflexivity|].
  remember (e0 :: es0) as es eqn:Ee. remember (k0 :: ks0) as ks eqn:Ek.
  edestruct (variance_spec unc es ks n) as (w & g & E & G & S); [congruence|congruence|].
  edestruct (variance_spec unc es (map (fun q => q * s)%Q ks) n') as (w' & g' & E' & G' & S'); [congruence|subst; discriminate|].
  rewrite E, E'. cbn [bind same_value]. rewrite S, S'.
  change (species (c_base (computed_init C es (map (fun q => q * s)%Q ks) n'))) with (combine (map (fun e => red C (e_comp e)) es) (map (fun q => q * s)%Q ks)) in *.
  change (species (c_base (computed_init C es ks n))) with (combine (map (fun e => red C (e_comp e)) es) ks) in *.
  rewrite fst_scaled in *. rewrite <- sumQ_scale_l. apply sumQ_ext. intros c I. apply nodup_In in I.
  rewrite (stands_pos es c _ _ (G' c I) (G c I)). unfold square. rewrite net_scaled. ring.
Qed.

Theorem variance_per_atom unc es ks n n' s : (0 < s)%Q ->
  same_value (energy_variance_per_atom C unc (computed_init C es (map (fun q => q * s)%Q ks) n'))
             (energy_variance_per_atom C unc (computed_init C es ks n)).
Proof.
  intros Hs. unfold energy_variance_per_atom. pose proof (variance_scaled unc es ks n n' s) as V.
  assert (A : (num_atoms C (c_base (computed_init C es (map (fun q => q * s)%Q ks) n')) == s * num_atoms C (c_base (computed_init C es ks n)))%Q)
    by exact (num_atoms_scaled C _ _ ks None n None n' s Hs).
  set (a' := num_atoms C (c_base (computed_init C es (map (fun q => q * s)%Q ks) n'))) in *.
  set (a := num_atoms C (c_base (computed_init C es ks n))) in *. clearbody a a'.
  destruct (energy_variance C unc (computed_init C es ks n)) as [v|x], (energy_variance C unc (computed_init C es (map (fun q => q * s)%Q ks) n')) as [v'|x'];
    cbn [bind same_value] in *; try contradiction; [|exact V].
  destruct (Qeq_bool a 0) eqn:E.
  - apply Qeq_bool_iff in E. assert (E' : Qeq_bool a' 0 = true) by (apply Qeq_bool_iff; rewrite A, E; ring). rewrite E'. reflexivity.
  - assert (Na : ~ (a == 0)%Q) by (intros Z; apply Qeq_bool_iff in Z; congruence).
    destruct (Qeq_bool a' 0) eqn:E'.
    + apply Qeq_bool_iff in E'. rewrite A in E'. apply Qmult_integral in E' as [Z|Z]; [lra|contradiction].
    + cbn [same_value]. rewrite V, A. unfold square. field. split; [exact Na|lra].
Qed.

Lemma net_single (l : list (nat * Q)) c k : NoDup (map fst l) -> In (c, k) l -> (net_of l c == k)%Q.
Proof.
  unfold net_of. induction l as [|[c' k'] l IH]; intros N I; [destruct I|]. cbn [map fst] in N. inversion N; subst.
  cbn [filter fst]. destruct (Nat.eqb_spec c' c) as [->|Nc].
  - assert (k' = k). { destruct I as [I|I]; [congruence|]. exfalso. apply H1. apply in_map_iff. exists (c, k). auto. } subst k'.
    rewrite sumQ_cons. cbn [snd].
    replace (filter (fun ck => fst ck =? c) l) with (@nil (nat * Q)); [cbn; lra|]. symmetry.
    clear IH I H2 N. induction l as [|[c' k'] l IH]; [reflexivity|]. cbn [filter fst]. destruct (Nat.eqb_spec c' c) as [->|Nc]; [destruct H1; left; reflexivity|].
    apply IH. intros I. apply H1. right. exact I.
  - apply IH; [assumption|]. destruct I as [I|I]; [congruence|exact I].
Qed.

Lemma sum_pairs (F : nat -> Q -> Q) unc es ks : length ks = length es ->
  (forall i e k, nth_error es i = Some e -> nth_error ks i = Some k -> (F (red C (e_comp e)) k == square (k * (std unc e / fac C (e_comp e))))%Q) ->
  (sumQ (fun ck => F (fst ck) (snd ck)) (combine (map (fun e => red C (e_comp e)) es) ks) == sumQ (fun ek => square (snd ek * (std unc (fst ek) / fac C (e_comp (fst ek))))) (combine es ks))%Q.
Proof.
  revert ks. induction es as [|e es IH]; intros [|k ks] Hl H; try discriminate Hl; [reflexivity|].
  cbn [map combine]. rewrite !sumQ_cons. cbn [fst snd]. rewrite (H 0 e k eq_refl eq_refl). rewrite IH; [reflexivity|cbn in Hl; lia|].
  intros i e' k' He Hk. exact (H (S i) e' k' He Hk).
Qed.

Theorem variance_distinct unc es ks n v : NoDup (map (fun e => red C (e_comp e)) es) -> length ks = length es ->
  energy_variance C unc (computed_init C es ks n) = Ok v ->
  (v == sumQ (fun ek => square (snd ek * (match unc (fst ek) with Some s => s | None => 0 end / fac C (e_comp (fst ek))))) (combine es ks))%Q.
Proof.
  intros N Hl E. destruct es as [|e0 es0]; [rewrite fails_empty in E by auto; discriminate E|].
  destruct ks as [|k0 ks0]; [discriminate Hl|]. remember (e0 :: es0) as es eqn:Ee. remember (k0 :: ks0) as ks eqn:Ek.
  edestruct (variance_spec unc es ks n) as (w & g & E' & G & S); [congruence|congruence|].
  assert (w = v) by congruence. subst w. rewrite S.
  change (species (c_base (computed_init C es ks n))) with (combine (map (fun e => red C (e_comp e)) es) ks) in *.
  assert (Hf : map fst (combine (map (fun e => red C (e_comp e)) es) ks) = map (fun e => red C (e_comp e)) es) by (apply combine_fst; rewrite map_length; lia).
  rewrite Hf in *. rewrite nodup_fixed_point by exact N.
  rewrite <- Hf at 1. rewrite sumQ_map.
  rewrite (sumQ_ext _ (fun ck => square (snd ck * spread C unc es (g (fst ck))))%Q).
  - apply (sum_pairs (fun c k => square (k * spread C unc es (g c)))%Q unc es ks); [exact Hl|].
    intros i e k He Hk. assert (I : In (red C (e_comp e)) (map (fun e => red C (e_comp e)) es)) by (apply (in_map (fun e => red C (e_comp e))); exact (nth_error_In _ _ He)).
    destruct (G _ I) as (e' & N' & R' & _). unfold spread. rewrite N'.
    assert (g (red C (e_comp e)) = i).
    { apply (proj1 (NoDup_nth_error (map (fun e => red C (e_comp e)) es)) N).
      - rewrite map_length. apply nth_error_Some. congruence.
      - rewrite !nth_error_map, N', He. cbn. congruence. }
    assert (e' = e) by congruence. subst e'. unfold square, std. reflexivity.
  - intros [c k] I. cbn [fst snd]. unfold square. rewrite (net_single _ c k); [reflexivity|rewrite Hf; exact N|exact I].
Qed.
End Uncert.
