(* Looking for reactions between the intermediates. *)
From Coq Require Import Lqa.
From Verif Require Import Prelude NumQ SumQ ListFacts UtilsModel UtilsSpec ReactionModel ReactionSpec ReactionBaseProofs ReactionLawProofs ReactionOpsProofs RxnSetModel RxnSetSpec RxnSetBaseProofs PathModel SolverModel SolverSpec SolverInterProofs
  SolveJobModel SolveJobSpec EnumModel EnumSpec EnumProofs EnumLinkModel LinModel LinSpec LinProofs LinBalanceProofs CoefProofs FreeSpec FreeProofs NetJobSpec ChainSpec ChainFindSpec ChainFindProofs JoinModel JoinSpec JoinProofs FreeJoinProofs IntModel IntSpec.
From Verif Require EntrySetModel EntrySetProofs NetJobProofs.
Open Scope nat_scope.

(* --- the reaction of phases that determine it --- *)
Section Exact.
Variable C : chem.
Hypothesis W : wf_chem C.
Variable ent : nat -> entry.
Hypothesis Hid : forall i, e_id (ent i) = i.
Notation form0 := (fun i => red C (e_comp (ent i))).
Notation here := (in_set C ent).

Lemma amount_here x l ks i : x_entries x = map here l -> x_coeffs x = ks -> (amount x i == coef l ks i)%Q.
Proof. intros E1 E2. unfold amount. rewrite E1, E2. unfold coef. rewrite combine_map_l, sumQ_map. reflexivity. Qed.
Lemma coef_multiple t l v w i : multiple t v w -> (coef l w i == t * coef l v i)%Q.
Proof. intros M. revert l. induction M as [|a b v w E M IH]; intros [|j l]; try (unfold coef; cbn; ring). rewrite !coef_cons, IH. destruct (Nat.eqb j i); [rewrite E|]; ring. Qed.
Lemma coef_self l (f : nat -> Q) i : NoDup l -> In i l -> (coef l (map f l) i == f i)%Q.
Proof.
  intros N I. destruct (In_nth_error _ _ I) as (j & E). apply (coef_nth l (map f l) j i (f i) N); [apply map_length|exact E|]. rewrite nth_error_map, E. reflexivity.
Qed.
Lemma nodup_here l : NoDup l -> NoDup (map here l).
Proof. apply FinFun.Injective_map_NoDup. intros a b E. injection E. auto. Qed.
Lemma uid_here l (a b : sentry) : In a (map here l) -> In b (map here l) -> uid a = uid b -> a = b.
Proof. intros Ia Ib E. apply in_map_iff in Ia as (i & <- & _), Ib as (j & <- & _). cbn in E. congruence. Qed.

Lemma exact_object {D} r0 p0 (t : D) l x r p v : react_objects C ent (entry_solve C ent) (entry_rank C ent) r0 p0 t = Ok l -> In x l -> r0 <> [] -> p0 <> [] -> r <> [] -> NoDup (r ++ p) -> Permutation (r ++ p) (r0 ++ p0) ->
  turns C ent r p (set_rxn C x) -> only_combination C (map form0 (r ++ p)) v -> LinSpec.sides (length r) v ->
  exists k, (0 < k)%Q /\ forall i, (amount (set_rxn C x) i == k * coef (r ++ p) v i)%Q.
Proof.
  intros E I Hr0 Hp0 Hr N P T O S. pose proof (Permutation_NoDup P N) as N0. pose proof (only_perm C form0 _ _ v N P O) as O0. set (v0 := map (coef (r ++ p) v) (r0 ++ p0)) in *.
  assert (L2 : 2 <= length r0 + length p0) by (destruct r0; [contradiction|]; destruct p0; [contradiction|]; cbn [length]; lia).
  rewrite map_app in O0. pose proof (exact_rank_bound C W (map form0 r0) (map form0 p0) v0 O0) as Rk. assert (L2' : 2 <= length (map form0 r0) + length (map form0 p0)) by (rewrite !map_length; exact L2).
  destruct (determined_coeffs C W (map form0 r0) (map form0 p0) v0 (entry_solve C ent r0 p0) (entry_rank C ent r0 p0) O0 L2' Rk) as (ks & m & t0 & Eb & Tn & M & _).
  { intros c Hc. exact (exact_fits C _ _ _ c Hc). }
  assert (Ex : exists s, x_entries (set_rxn C x) = map here (r0 ++ p0) /\ multiple s v0 (x_coeffs (set_rxn C x))).
  { unfold react_objects, real_balance, computed_balance in E. rewrite !map_map in E. rewrite Eb in E.
    replace (Nat.eqb (length (map ent r0) + length (map ent p0)) 1) with false in E by (symmetry; apply Nat.eqb_neq; rewrite !map_length; lia). cbn [bind] in E. injection E as <-.
    assert (Es : map (set_entry C) (map ent r0 ++ map ent p0) = map here (r0 ++ p0)) by (rewrite <- map_app, map_map; apply map_ext; intros i; apply set_entry_here; exact Hid).
    destruct I as [<-|[<-|[]]]; unfold set_rxn, computed_reverse, computed_init; cbn [ro_rxn c_entries c_base coeffs basic_init x_entries x_coeffs].
    - exists t0. split; [exact Es|exact M].
    - exists (- t0)%Q. split; [exact Es|]. clear -M. induction M as [|a b v1 w1 E1 M IH]; cbn; constructor; [rewrite E1; ring|exact IH]. }
  destruct Ex as (s & Ee & M'). assert (A : forall i, (amount (set_rxn C x) i == s * coef (r ++ p) v i)%Q).
  { intros i. rewrite (amount_here _ _ _ i Ee eq_refl), (coef_multiple s _ _ _ i M'). destruct (in_dec Nat.eq_dec i (r0 ++ p0)) as [Hi|Hi].
    - unfold v0. rewrite coef_self by assumption. reflexivity.
    - rewrite (coef_none (r0 ++ p0) v0 i Hi), coef_none by (intros H; apply Hi; exact (Permutation_in _ P H)). ring. }
  exists s. split; [|exact A]. destruct r as [|i r']; [contradiction|]. destruct T as (U & _). destruct (proj2 (U (here i)) (ex_intro _ i (conj (or_introl eq_refl) eq_refl))) as (c & Tc & Hc).
  assert (Ac : (amount (set_rxn C x) i == c)%Q). { change i with (uid (here i)). apply amount_of; [rewrite Ee; apply nodup_here; exact N0|rewrite Ee; apply uid_here|exact Tc]. }
  destruct O as ((Lv & _) & _). rewrite map_length in Lv. destruct v as [|k v]; [discriminate|]. assert (Ck : (coef ((i :: r') ++ p) (k :: v) i == k)%Q) by (apply (coef_nth _ _ 0); [exact N|exact Lv|reflexivity|reflexivity]).
  destruct (S 0 k eq_refl) as [Sk _]. cbn [length] in Sk. specialize (Sk ltac:(lia)). rewrite A, Ck in Ac. destruct (Qlt_le_dec 0 s) as [G|G]; [exact G|]. nra.
Qed.
End Exact.

(* --- energies --- *)
Section Energy.
Variable C : chem.
Hypothesis W : wf_chem C.

Lemma atoms_all els c : NoDup els -> incl (ReactionModel.elems C c) els -> (atoms C els c == natoms C c)%Q.
Proof.
  intros N I. unfold atoms, natoms. rewrite Qsum_map.
  assert (P : Permutation (ReactionModel.elems C c) (filter (fun e => memb Nat.eqb e (ReactionModel.elems C c)) els)).
  { apply NoDup_Permutation; [apply (wf_nodup C W)|apply NoDup_filter; exact N|]. intros e. rewrite filter_In, memb_iff. split; [intros H; split; [apply I; exact H|exact H]|tauto]. }
  rewrite (sumQ_perm _ _ _ P), sumQ_filter. apply sumQ_ext. intros e _. unfold ind. destruct (memb Nat.eqb e (ReactionModel.elems C c)) eqn:E; [ring|]. apply memb_false in E. rewrite (wf_zero C W c e E). ring.
Qed.
Lemma natoms_pos c : ReactionModel.elems C c <> [] -> (0 < natoms C c)%Q.
Proof.
  intros H. unfold natoms. rewrite Qsum_map. pose proof (wf_pos C W c) as P. destruct (ReactionModel.elems C c) as [|e l]; [contradiction|]. rewrite sumQ_cons.
  assert (0 <= sumQ (amt C c) l)%Q by (apply sumQ_nonneg; intros a Ia; apply Qlt_le_weak, P; right; exact Ia). specialize (P e (or_introl eq_refl)). lra.
Qed.

(* The energy is there whatever the formulas are. *)
Lemma some_atoms es ks : length es = length ks -> (forall e, In e es -> ReactionModel.elems C (e_comp e) <> []) -> (exists k, In k ks /\ (0 < k)%Q) -> (0 < num_atoms C (c_base (computed_init C es ks None)))%Q.
Proof.
  intros L Hel (k & Ik & Pk). set (b := c_base (computed_init C es ks None)). set (l := filter (fun kv => Qlt_bool 0 (snd kv)) (combine (map (fun e => red C (e_comp e)) es) ks)).
  assert (Ep : product_coeffs b = dict_of l) by reflexivity. destruct (dict_of_keys l) as (_ & Hkeys & Hin).
  assert (Some_one : exists cq, In cq (dict_of l)).
  { apply In_nth_error in Ik as (j & Ej). destruct (nth_error es j) as [e|] eqn:Ee; [|apply nth_error_None in Ee; assert (j < length ks) by (apply nth_error_Some; rewrite Ej; discriminate); lia].
    assert (Il : In (red C (e_comp e), k) l). { unfold l. apply filter_In. split; [|apply Qlt_bool_iff'; exact Pk]. apply (nth_error_In _ j), nth_combine. rewrite nth_error_map, Ee. split; [reflexivity|exact Ej]. }
    assert (Ic : In (red C (e_comp e)) (map fst (dict_of l))) by (apply Hkeys, in_map_iff; eexists; split; [|exact Il]; reflexivity). apply in_map_iff in Ic as (cq & _ & Ic). exists cq. exact Ic. }
  assert (Pos : forall cq, In cq (dict_of l) -> (0 < snd cq * Qsum (map (amt C (fst cq)) (elements C b)))%Q).
  { intros (c & q) I. apply Hin in I. unfold l in I. apply filter_In in I as [I Q0]. cbn [fst snd] in *. apply Qlt_bool_iff' in Q0. apply in_combine_l in I. apply Qmult_lt_0_compat; [exact Q0|]. rewrite Qsum_map.
    assert (Ea : (sumQ (amt C c) (elements C b) == natoms C c)%Q). { apply atoms_all; [apply NoDup_nodup|]. intros a Ia. apply in_elements. exists c. split; [exact I|exact Ia]. }
    rewrite Ea. apply in_map_iff in I as (e & <- & Ie). apply natoms_pos. rewrite (wf_red_elems C W). apply Hel. exact Ie. }
  unfold num_atoms, num_atoms_of. rewrite Qsum_map, Ep. destruct Some_one as (cq & I). apply in_split in I as (l1 & l2 & E). rewrite E in *. rewrite sumQ_app, sumQ_cons.
  assert (P0 := Pos cq ltac:(apply in_elt)).
  assert (P1 : (0 <= sumQ (fun kv => snd kv * Qsum (map (amt C (fst kv)) (elements C b))) l1)%Q) by (apply sumQ_nonneg; intros x Ix; apply Qlt_le_weak, Pos, in_or_app; left; exact Ix).
  assert (P2 : (0 <= sumQ (fun kv => snd kv * Qsum (map (amt C (fst kv)) (elements C b))) l2)%Q) by (apply sumQ_nonneg; intros x Ix; apply Qlt_le_weak, Pos, in_or_app; right; right; exact Ix).
  lra.
Qed.
Lemma energy_some es ks : length es = length ks -> (forall e, In e es -> ReactionModel.elems C (e_comp e) <> []) -> (exists k, In k ks /\ (0 < k)%Q) -> exists v, computed_energy_per_atom C (computed_init C es ks None) = Ok v.
Proof.
  intros L Hel K. destruct (computed_energy_spec C es ks None) as (e & g & Ee & _ & _). unfold computed_energy_per_atom. rewrite Ee. cbn [bind]. unfold per_atom. pose proof (some_atoms es ks L Hel K) as P.
  replace (Qeq_bool (num_atoms C (c_base (computed_init C es ks None))) 0) with false; [eexists; reflexivity|]. symmetry. apply not_true_iff_false. intros E. apply Qeq_bool_iff in E. rewrite E in P. lra.
Qed.

Lemma energy_value es ks : NoDup (map (fun e => red C (e_comp e)) es) -> length es = length ks -> (forall e, In e es -> ReactionModel.elems C (e_comp e) <> []) -> (exists k, In k ks /\ (0 < k)%Q) ->
  exists v, computed_energy_per_atom C (computed_init C es ks None) = Ok v /\ (0 < atoms_made C (combine es ks))%Q /\ (v == heat C (combine es ks) / atoms_made C (combine es ks))%Q.
Proof.
  intros N L Hel (k0 & I0 & K0). destruct (computed_energy_spec C es ks None) as (e & g & Ee & Es & Hg). unfold computed_energy_per_atom. rewrite Ee. cbn [bind].
  set (f := fun e => red C (e_comp e)) in *.
  assert (Hh : (e == heat C (combine es ks))%Q).
  { rewrite Es. unfold species, computed_init, heat. cbn [c_base comps coeffs basic_init]. fold f. rewrite combine_map_l, sumQ_map. apply sumQ_ext. intros [x k] I. cbn [fst snd]. pose proof (in_combine_l _ _ _ _ I) as Ix.
    destruct (Hg (f x)) as ((y & Iy & Fy & Ey) & _); [unfold computed_init; cbn [c_base comps basic_init]; apply in_map_iff; exists x; split; [reflexivity|exact Ix]|].
    assert (y = x) by (apply (mapped_once f es); assumption). subst y. rewrite Ey. reflexivity. }
  assert (Hn : (num_atoms C (c_base (computed_init C es ks None)) == atoms_made C (combine es ks))%Q).
  { unfold num_atoms. unfold computed_init at 2. cbn [c_base]. rewrite num_atoms_value; [|exact N|rewrite map_length; exact L]. fold f. rewrite sumQ_filter, combine_map_l, sumQ_map. unfold atoms_made. apply sumQ_ext. intros [x k] I. cbn [fst snd].
    pose proof (in_combine_l _ _ _ _ I) as Ix. rewrite atoms_all.
    - unfold f; destruct (Qlt_bool 0 k); unfold ind; ring.
    - apply NoDup_nodup.
    - intros a Ia. apply in_elements. exists (f x). split; [|exact Ia]. unfold computed_init. cbn [c_base comps basic_init]. apply in_map. exact Ix. }
  assert (Pos : (0 < atoms_made C (combine es ks))%Q).
  { clear -L Hel I0 K0 W. unfold atoms_made. revert ks L I0. induction es as [|x es IH]; intros [|k ks] L I0; try discriminate; [destruct I0|]. cbn [combine]. rewrite sumQ_cons. cbn [fst snd].
    assert (Hx : (0 < natoms C (red C (e_comp x)))%Q) by (apply natoms_pos; rewrite (wf_red_elems C W); apply Hel; left; reflexivity).
    assert (Rest : (0 <= sumQ (fun ek : entry * Q => if Qlt_bool 0 (snd ek) then snd ek * natoms C (red C (e_comp (fst ek))) else 0) (combine es ks))%Q).
    { apply sumQ_nonneg. intros [y q] I. cbn [fst snd]. destruct (Qlt_bool 0 q) eqn:Eq; [|lra]. apply Qlt_bool_iff' in Eq. apply Qlt_le_weak, Qmult_lt_0_compat; [exact Eq|]. apply natoms_pos. rewrite (wf_red_elems C W). apply Hel. right. exact (in_combine_l _ _ _ _ I). }
    destruct I0 as [->|I0].
    - replace (Qlt_bool 0 k0) with true by (symmetry; apply Qlt_bool_iff'; exact K0). assert (0 < k0 * natoms C (red C (e_comp x)))%Q by (apply Qmult_lt_0_compat; assumption). lra.
    - specialize (IH (fun y Iy => Hel y (or_intror Iy)) ks ltac:(cbn in L; lia) I0). destruct (Qlt_bool 0 k) eqn:Ek; [|lra]. apply Qlt_bool_iff' in Ek. assert (0 < k * natoms C (red C (e_comp x)))%Q by (apply Qmult_lt_0_compat; assumption). lra. }
  unfold per_atom. replace (Qeq_bool (num_atoms C (c_base (computed_init C es ks None))) 0) with false.
  - eexists. split; [reflexivity|]. split; [exact Pos|]. rewrite Hh, Hn. reflexivity.
  - symmetry. apply not_true_iff_false. intros E. apply Qeq_bool_iff in E. rewrite Hn in E. lra.
Qed.

Lemma low_iff es ks v cutoff : (0 < atoms_made C (combine es ks))%Q -> (v == heat C (combine es ks) / atoms_made C (combine es ks))%Q -> ((v < cutoff)%Q <-> low C cutoff (combine es ks)).
Proof.
  intros P E. unfold low. rewrite E. split; intros H.
  - apply (Qmult_lt_r _ _ (atoms_made C (combine es ks)) P) in H. unfold Qdiv in H. rewrite <- Qmult_assoc, (Qmult_comm (/ _)), Qmult_inv_r, Qmult_1_r in H by lra. exact H.
  - apply (Qmult_lt_r _ _ (atoms_made C (combine es ks)) P). unfold Qdiv. rewrite <- Qmult_assoc, (Qmult_comm (/ _)), Qmult_inv_r, Qmult_1_r by lra. exact H.
Qed.
End Energy.

(* --- multiples --- *)
Lemma multiples_amount a b : multiples a b -> exists k, (0 < k)%Q /\ forall u, (amount b u == k * amount a u)%Q.
Proof.
  intros (k & l & Hk & [A1 A2] & H). exists k. split; [exact Hk|]. intros u. unfold amount. rewrite <- (sumQ_perm _ _ _ A1), <- (sumQ_perm _ _ _ A2), !sumQ_map, <- sumQ_scale_l. apply sumQ_ext. intros [[e x] y] I. cbn [fst snd]. specialize (H e x y I).
  destruct (Nat.eqb (uid e) u); [exact H|ring].
Qed.

(* --- low under scaling --- *)
Lemma sum_coef_with (G : nat -> Q -> Q) l v : (forall i a b, (a == b)%Q -> (G i a == G i b)%Q) -> NoDup l -> length v = length l -> (sumQ (fun ik => G (fst ik) (snd ik)) (combine l v) == sumQ (fun i => G i (coef l v i)) l)%Q.
Proof.
  intros P N L. pose proof (coef_all l N v L) as F. clear N L. revert F. generalize (coef l v) as f. intros f F. induction F as [|a b l' v' E F IH]; [reflexivity|]. cbn [combine]. rewrite !sumQ_cons. cbn [fst snd].
  rewrite IH, (P a _ _ E). reflexivity.
Qed.
Lemma Qlt_bool_comp a b c : (a == b)%Q -> Qlt_bool c a = Qlt_bool c b.
Proof. intros E. apply eq_true_iff_eq. rewrite !Qlt_bool_iff', E. reflexivity. Qed.
Lemma low_scaled C ent cutoff l l' v w k : NoDup l -> Permutation l l' -> length v = length l -> length w = length l' -> (0 < k)%Q -> (forall i, (coef l' w i == k * coef l v i)%Q) ->
  (low C cutoff (combine (map ent l') w) <-> low C cutoff (combine (map ent l) v)).
Proof.
  intros N P Lv Lw K H. pose proof (Permutation_NoDup P N) as N'.
  assert (Hh : (heat C (combine (map ent l') w) == k * heat C (combine (map ent l) v))%Q).
  { unfold heat. rewrite !combine_map_l, !sumQ_map. cbn [fst snd]. set (G := fun i a => (a * (e_energy (ent i) / fac C (e_comp (ent i))))%Q).
    assert (PG : forall i a b, (a == b)%Q -> (G i a == G i b)%Q) by (intros i a b E; unfold G; rewrite E; reflexivity).
    change (sumQ (fun ik => G (fst ik) (snd ik)) (combine l' w) == k * sumQ (fun ik => G (fst ik) (snd ik)) (combine l v))%Q.
    rewrite (sum_coef_with G l' w PG N' Lw), (sum_coef_with G l v PG N Lv), <- (sumQ_perm _ _ _ P), <- sumQ_scale_l. apply sumQ_ext. intros i _. rewrite (PG i _ _ (H i)). unfold G. ring. }
  assert (Ha : (atoms_made C (combine (map ent l') w) == k * atoms_made C (combine (map ent l) v))%Q).
  { unfold atoms_made. rewrite !combine_map_l, !sumQ_map. cbn [fst snd]. set (G := fun i a => (if Qlt_bool 0 a then a * natoms C (red C (e_comp (ent i))) else 0)%Q).
    assert (PG : forall i a b, (a == b)%Q -> (G i a == G i b)%Q) by (intros i a b E; unfold G; rewrite (Qlt_bool_comp a b 0 E); destruct (Qlt_bool 0 b); [rewrite E|]; reflexivity).
    change (sumQ (fun ik => G (fst ik) (snd ik)) (combine l' w) == k * sumQ (fun ik => G (fst ik) (snd ik)) (combine l v))%Q.
    rewrite (sum_coef_with G l' w PG N' Lw), (sum_coef_with G l v PG N Lv), <- (sumQ_perm _ _ _ P), <- sumQ_scale_l. apply sumQ_ext. intros i _. rewrite (PG i _ _ (H i)). unfold G.
    replace (Qlt_bool 0 (k * coef l v i)) with (Qlt_bool 0 (coef l v i)); [destruct (Qlt_bool 0 (coef l v i)); ring|]. apply eq_true_iff_eq. rewrite !Qlt_bool_iff'. split; intros; nra. }
  unfold low. rewrite Hh, Ha. split; intros G; nra.
Qed.

Lemma map_fst_combined {A B} (l : list A) (v : list B) : length v = length l -> map fst (combine l v) = l.
Proof. revert v. induction l as [|a l IH]; intros [|b v] L; try discriminate; [reflexivity|]. cbn in *. f_equal. apply IH. lia. Qed.
Lemma in_combined {A B} (l : list A) (v : list B) a : length v = length l -> In a l -> exists b, In (a, b) (combine l v).
Proof. intros L I. rewrite <- (map_fst_combined l v L) in I. apply in_map_iff in I as ([a' b] & E & I). cbn in E. subst. exists b. exact I. Qed.
Lemma in_combined_r {A B} (l : list A) (v : list B) b : length v = length l -> In b v -> exists a, In (a, b) (combine l v).
Proof.
  revert v. induction l as [|a l IH]; intros [|c v] L I; try discriminate; [destruct I|]. destruct I as [->|I]; [exists a; left; reflexivity|]. destruct (IH v ltac:(cbn in L; lia) I) as (a' & I'). exists a'. right. exact I'.
Qed.
Lemma in_order (l mids : list nat) : NoDup l -> NoDup mids -> incl l mids -> exists l', subseq l' mids /\ Permutation l l'.
Proof.
  intros N M I. exists (filter (fun x => memb Nat.eqb x l) mids). split.
  - clear. induction mids as [|x m IH]; cbn; [constructor|]. destruct (memb Nat.eqb x l); constructor; exact IH.
  - apply NoDup_Permutation; [exact N|apply NoDup_filter; exact M|]. intros x. rewrite filter_In, memb_iff. split; [intros H; split; [apply I; exact H|exact H]|tauto].
Qed.

(* --- the search --- *)
Section Main.
Variable C : chem.
Hypothesis W : wf_chem C.
Hypothesis Hbig : forall c e, In e (ReactionModel.elems C c) -> (1 # 100 < amt C (red C c) e)%Q.
Variable ents : list entry.
Hypothesis Hids : forall i e, nth_error ents i = Some e -> e_id e = i.
Hypothesis Hels : forall i e, nth_error ents i = Some e -> ReactionModel.elems C (e_comp e) <> [].
Variable rxns : list rxn.
Variable net0 : rxn.
Hypothesis Hnet : names_entries ents net0.
Hypothesis Hrxns : forall r, In r rxns -> names_entries ents r.
Hypothesis Hfull : forall r, In r rxns -> each_with_amount r.
Hypothesis Hone : forall i j a b, target net0 i -> intermediate C ents rxns net0 j -> nth_error ents i = Some a -> nth_error ents j = Some b -> red C (e_comp b) = red C (e_comp a) -> j = i \/ (e_energy a / natoms C (e_comp a) < e_energy b / natoms C (e_comp b))%Q.
Hypothesis Htarget : exists t, target net0 t.
Context {D : Type}.
Variable diagram : list nat -> D.
Variable wait : nat -> list (list (list (list nat * list nat) * D)) -> list (list (list (list nat * list nat) * D)) * list (list (list (list nat * list nat) * D)).
Hypothesis Hw : valid_schedule wait.
Variable arrange : list sentry -> list sentry.
Hypothesis Harr : arranges arrange.
Variable argsort : list Q -> list nat.
Hypothesis Harg : forall l, Permutation (argsort l) (seq 0 (length l)).
Variable shuffle : list nat -> list nat.
Hypothesis Hsh : forall l, Permutation (shuffle l) l.
Variable order : list nat -> list nat.
Hypothesis Hord : forall l, Permutation (order l) l.
Variable chunk jobs : nat.
Hypothesis Hchunk : 1 <= chunk.
Hypothesis Hjobs : 1 <= jobs.
Variable cutoff : Q.
Notation ent := (with_index ents).
Notation form0 := (fun i => red C (e_comp (ent i))).
Notation epa0 := (fun i => (e_energy (ent i) / natoms C (e_comp (ent i)))%Q).
Notation here := (in_set C ent).
Notation mid := (intermediate C ents rxns net0).

Lemma ent_some i e : nth_error ents i = Some e -> ent i = e.
Proof. intros H. apply nth_error_nth. exact H. Qed.
Lemma ent_id i : e_id (ent i) = i.
Proof.
  destruct (nth_error ents i) as [e|] eqn:E; [rewrite (ent_some i e E); exact (Hids i e E)|]. apply nth_error_None in E. unfold with_index. rewrite nth_overflow by exact E. reflexivity.
Qed.
Lemma parts_in r e k : names_entries ents r -> In (e, k) (parts r) -> exists e', nth_error ents (e_id e) = Some e' /\ e_comp e' = e_comp e.
Proof. intros (_ & H) I. exact (H e k I). Qed.
Lemma mid_some i : mid i -> nth_error ents i = Some (ent i).
Proof.
  intros H. assert (G : exists e, nth_error ents i = Some e).
  { destruct H as [(r & e & k & Ir & Ie & <-)|[(e & k & Ie & _ & <-)|(e & el & Ee & _)]].
    - destruct (parts_in r e k (Hrxns r Ir) Ie) as (e' & E & _). exists e'. exact E.
    - destruct (parts_in net0 e k Hnet Ie) as (e' & E & _). exists e'. exact E.
    - exists e. exact Ee. }
  destruct G as (e & E). rewrite (ent_some i e E). exact E.
Qed.
Lemma mid_elems i : mid i -> ReactionModel.elems C (e_comp (ent i)) <> [].
Proof. intros Hi. exact (Hels i _ (mid_some i Hi)). Qed.
Lemma entries_parts r : In r rxns -> entries_of r = Ok (map fst (parts r)).
Proof. intros I. pose proof (Hfull r I) as F. destruct (Hrxns r I) as (B & _). destruct r as [b|c|[c mus]]; [contradiction (B b eq_refl)| |]; cbn [parts]; unfold entries_of, computed_of; cbn [o_base]; rewrite map_fst_combined; try reflexivity; apply F; [left; reflexivity|right; exists mus; reflexivity]. Qed.

Lemma mids_made : exists targets mids, targets_of net0 = Ok targets /\ intermediates C order ents rxns targets = Ok mids
  /\ (forall i, In i (map e_id targets) <-> target net0 i) /\ NoDup mids /\ (forall i, In i mids <-> mid i)
  /\ mapM (fun e => EntrySetModel.get_min_entry form0 epa0 mids (red C (e_comp e))) targets = Ok (map e_id targets).
Proof.
  assert (Sn : exists c, computed_of net0 = Some c /\ parts net0 = combine (c_entries c) (coeffs (c_base c))) by (clear -Hnet; destruct Hnet as (B & _); destruct net0 as [b|c|[c mus]]; [contradiction (B b eq_refl)| |]; exists c; split; reflexivity).
  destruct Sn as (c & Ec & En). exists (product_entries c).
  assert (Tin : forall e, In e (product_entries c) <-> exists k, In (e, k) (parts net0) /\ (0 < k)%Q).
  { intros e. unfold product_entries. rewrite in_map_iff, En. split.
    - intros ([e' k] & <- & I). apply filter_In in I as [I K]. cbn [fst snd] in *. apply Qlt_bool_iff' in K. exists k. split; assumption.
    - intros (k & I & K). exists (e, k). split; [reflexivity|]. apply filter_In. split; [exact I|]. apply Qlt_bool_iff'. exact K. }
  assert (Tid : forall i, In i (map e_id (product_entries c)) <-> target net0 i).
  { intros i. rewrite in_map_iff. split.
    - intros (e & <- & I). apply Tin in I as (k & I & K). exists e, k. repeat split; assumption.
    - intros (e & k & I & K & E). exists e. split; [exact E|]. apply Tin. exists k. split; assumption. }
  unfold intermediates. rewrite (mapM_ok entries_of (fun r => map fst (parts r)) rxns) by (intros r Ir; apply entries_parts, Ir). cbn [bind].
  set (all := concat (map (fun r => map fst (parts r)) rxns) ++ product_entries c ++ filter (is_element C) ents).
  exists (order (nodup Nat.eq_dec (map e_id all))). split; [unfold targets_of; rewrite Ec; reflexivity|]. split; [reflexivity|]. split; [exact Tid|].
  assert (Nm : NoDup (order (nodup Nat.eq_dec (map e_id all)))) by (apply (Permutation_NoDup (Permutation_sym (Hord _))), NoDup_nodup).
  assert (Mid : forall i, In i (order (nodup Nat.eq_dec (map e_id all))) <-> mid i).
  { intros i. rewrite (Permutation_in' eq_refl (Hord _)), nodup_In. unfold all. rewrite !map_app, !in_app_iff, Tid. unfold intermediate.
    assert (A : In i (map e_id (concat (map (fun r => map fst (parts r)) rxns))) <-> exists r e k, In r rxns /\ In (e, k) (parts r) /\ e_id e = i).
    { rewrite in_map_iff. split.
      - intros (e & E & I). apply in_concat in I as (l & Il & I). apply in_map_iff in Il as (r & <- & Ir). apply in_map_iff in I as ([e' k] & E' & I). cbn in E'. subst e'. exists r, e, k. repeat split; assumption.
      - intros (r & e & k & Ir & Ie & E). exists e. split; [exact E|]. apply in_concat. exists (map fst (parts r)). split; [apply in_map_iff; exists r; split; [reflexivity|exact Ir]|]. apply in_map_iff. exists (e, k). split; [reflexivity|exact Ie]. }
    assert (B : In i (map e_id (filter (is_element C) ents)) <-> exists e el, nth_error ents i = Some e /\ ReactionModel.elems C (e_comp e) = [el]).
    { rewrite in_map_iff. unfold is_element. split.
      - intros (e & E & I). apply filter_In in I as [I F]. apply Nat.eqb_eq in F. apply In_nth_error in I as (j & Ej). pose proof (Hids j e Ej) as Hj. rewrite E in Hj. subst j. exists e. destruct (ReactionModel.elems C (e_comp e)) as [|el [|? ?]]; try discriminate. exists el. split; [exact Ej|reflexivity].
      - intros (e & el & Ee & El). exists e. split; [exact (Hids i e Ee)|]. apply filter_In. split; [exact (nth_error_In _ _ Ee)|]. rewrite El. reflexivity. }
    rewrite A, B. reflexivity. }
  split; [exact Nm|]. split; [exact Mid|]. apply mapM_ok. intros e Ie.
  assert (Me : mid (e_id e)) by (right; left; apply Tid, in_map; exact Ie). assert (Ee : e_comp (ent (e_id e)) = e_comp e). { apply Tin in Ie as (k & Ie & _). destruct (parts_in net0 e k Hnet Ie) as (e' & E & <-). rewrite (ent_some _ _ E). reflexivity. }
  destruct (EntrySetProofs.min_entry_spec form0 epa0 (order (nodup Nat.eq_dec (map e_id all))) (red C (e_comp e))) as (A1 & A2 & A3).
  destruct (EntrySetModel.get_min_entry form0 epa0 (order (nodup Nat.eq_dec (map e_id all))) (red C (e_comp e))) as [m|x].
  - destruct (A1 m eq_refl) as (Fm & Im & Least). f_equal. assert (Mm : mid m) by (apply Mid; exact Im). assert (Fe : form0 (e_id e) = form0 m) by (cbn beta in *; rewrite Fm, Ee; reflexivity).
    destruct (Hone (e_id e) m _ _ ltac:(apply Tid, in_map; exact Ie) Mm (mid_some _ Me) (mid_some m Mm) (eq_sym Fe)) as [H|H]; [exact H|exfalso]. specialize (Least (e_id e) ltac:(apply Mid; exact Me) Fe). cbn beta in Least. lra.
  - exfalso. pose proof (A3 x eq_refl) as Ex. rewrite Ex in A2. apply (proj1 A2 eq_refl (e_id e)); [apply Mid; exact Me|]. rewrite Ee. reflexivity.
Qed.

Definition finder (ts : list nat) : enumerator := {| en_options := default_options chunk jobs; en_precursors := []; en_targets := ts; en_open := None; en_duplicates := false |}.
Section Given.
Variable mids ts : list nat.
Hypothesis Nmids : NoDup mids.
Hypothesis Hmids : forall i, In i mids <-> mid i.
Hypothesis Hts : forall i, In i ts <-> target net0 i.

Lemma ts_some : ts <> [].
Proof. destruct Htarget as (t & Ht). apply Hts in Ht. intros ->. destruct Ht. Qed.
Lemma subseq_nodup (c : list nat) : subseq c mids -> NoDup c.
Proof.
  intros H. pose proof Nmids as N; revert N; clear -H; induction H as [|x s l H IH|x s l H IH]; intros N; [constructor| |]; inversion N as [|? ? N1 N2]; subst; [apply IH; exact N2|]. constructor; [|apply IH; exact N2].
  intros I. apply N1. clear -H I. induction H as [|y s l H IH|y s l H IH]; [exact I|right; apply IH; exact I|]. destruct I as [->|I]; [left; reflexivity|right; apply IH; exact I].
Qed.
Lemma subseq_mid (c : list nat) i : subseq c mids -> In i c -> mid i.
Proof.
  intros H I. apply Hmids. clear -H I. induction H as [|y s l H IH|y s l H IH]; [exact I|right; apply IH; exact I|]. destruct I as [->|I]; [left; reflexivity|right; apply IH; exact I].
Qed.

Lemma looks_might r p : looks_at C ent mids (finder ts) r p -> might_react C ents rxns net0 r p.
Proof.
  intros (((Sr & Lr) & (Sp & Lp)) & Dj & (k & (Ss & Hk) & L & _) & _ & O). cbn [finder en_options default_options o_n o_tfunc en_targets] in *. split; [split; [apply subseq_nodup; exact Sr|exact Lr]|]. split; [split; [apply subseq_nodup; exact Sp|exact Lp]|]. split; [exact Dj|].
  split; [intros i I; apply in_app_iff in I as [I|I]; [exact (subseq_mid r i Sr I)|exact (subseq_mid p i Sp I)]|]. split.
  - destruct O as [O|(t & It & Tt & _)]; [contradiction (ts_some O)|]. exists t. split; [exact It|]. apply Hts. exact Tt.
  - exists k. split; [|split; [exact L|]].
    + clear -Ss. induction Ss as [|x l S IH F]; constructor; [|exact IH]. intros I. rewrite Forall_forall in F. specialize (F x I). lia.
    + intros el. rewrite Hk. split.
      * intros [(i & I & E)|[]]. exists i, (ent i). split; [exact I|]. split; [apply mid_some; exact (subseq_mid r i Sr I)|exact E].
      * intros (i & e & I & E & El). left. exists i. split; [exact I|]. rewrite (ent_some i e E). exact El.
Qed.

Lemma might_looks r p : might_react C ents rxns net0 r p -> exists r' p', Permutation r r' /\ Permutation p p' /\ looks_at C ent mids (finder ts) r' p'.
Proof.
  intros ((Nr & Lr) & (Np & Lp) & Dj & Hm & (t & It & Tt) & (els & Ne & Le & He)).
  destruct (in_order r mids Nr Nmids) as (r' & Sr & Pr); [intros i I; apply Hmids, Hm, in_or_app; left; exact I|]. destruct (in_order p mids Np Nmids) as (p' & Sp & Pp); [intros i I; apply Hmids, Hm, in_or_app; right; exact I|].
  exists r', p'. split; [exact Pr|]. split; [exact Pp|]. unfold looks_at. cbn [finder en_options default_options o_n o_pfunc o_tfunc o_chemsys en_targets en_precursors].
  split; [split; [split; [exact Sr|rewrite <- (Permutation_length Pr); exact Lr]|split; [exact Sp|rewrite <- (Permutation_length Pp); exact Lp]]|].
  split; [intros i I J; apply (Dj i); [exact (Permutation_in _ (Permutation_sym Pr) I)|exact (Permutation_in _ (Permutation_sym Pp) J)]|]. split; [|split].
  - destruct (sorted_set_spec els) as (Ss & Hs). exists (sorted_set els). split; [split; [exact Ss|]|split; [|intros f [=]]].
    + intros x. rewrite Hs, He. split.
      * intros (i & e & I & E & El). left. exists i. split; [exact (Permutation_in _ Pr I)|]. rewrite (ent_some i e E). exact El.
      * intros [(i & I & E)|[]]. apply (Permutation_in _ (Permutation_sym Pr)) in I. exists i, (ent i). split; [exact I|]. split; [apply mid_some, Hm, in_or_app; left; exact I|exact E].
    + replace (length (sorted_set els)) with (length els); [exact Le|]. apply Permutation_length, NoDup_Permutation; [exact Ne| |intros x; symmetry; apply Hs].
      clear -Ss. induction Ss as [|x l S IH F]; constructor; [|exact IH]. intros I. rewrite Forall_forall in F. specialize (F x I). lia.
  - left. reflexivity.
  - right. exists t. split; [exact (Permutation_in _ Pp It)|]. split; [apply Hts; exact Tt|intros []].
Qed.
Lemma might_nodup r p : might_react C ents rxns net0 r p -> NoDup (r ++ p).
Proof.
  intros ((Nr & _) & (Np & _) & Dj & _). clear -Nr Np Dj. induction Nr as [|i r Hi Nr IH]; [exact Np|]. cbn. constructor; [|apply IH; intros j J; apply Dj; right; exact J].
  intros I. apply in_app_iff in I as [I|I]; [exact (Hi I)|exact (Dj i (or_introl eq_refl) I)].
Qed.

(* Reordered, the phases still determine the reaction. *)
Lemma reordered r p r' p' v : NoDup (r ++ p) -> (forall i, In i (r ++ p) -> mid i) -> Permutation r r' -> Permutation p p' -> NoDup (map form0 (r ++ p)) -> only_combination C (map form0 (r ++ p)) v -> LinSpec.sides (length r) v ->
  let v' := map (coef (r ++ p) v) (r' ++ p') in
  NoDup (map form0 (r' ++ p')) /\ only_combination C (map form0 (r' ++ p')) v' /\ LinSpec.sides (length r') v'.
Proof.
  intros N Hm Pr Pp Nf O S v'. pose proof (Permutation_app Pr Pp) as P. pose proof (Permutation_NoDup P N) as N'. split; [|split].
  - exact (Permutation_NoDup (Permutation_map form0 P) Nf).
  - exact (only_perm C form0 _ _ v N P O).
  - destruct O as ((Lv & _) & _). rewrite map_length in Lv.
    assert (Cr : forall i, In i r -> (coef (r ++ p) v i < 0)%Q).
    { intros i I. apply In_nth_error in I as (j & Ej). assert (Hj : j < length r) by (apply nth_error_Some; rewrite Ej; discriminate). assert (En : nth_error (r ++ p) j = Some i) by (rewrite nth_error_app1 by exact Hj; exact Ej).
      destruct (nth_error v j) as [k|] eqn:Ek; [|apply nth_error_None in Ek; rewrite Lv, app_length in Ek; lia]. rewrite (coef_nth _ _ j i k N Lv En Ek). apply (S j k Ek). exact Hj. }
    assert (Cp : forall i, In i p -> (0 < coef (r ++ p) v i)%Q).
    { intros i I. apply In_nth_error in I as (j & Ej). assert (En : nth_error (r ++ p) (length r + j) = Some i) by (rewrite nth_error_app2 by lia; replace (length r + j - length r) with j by lia; exact Ej).
      assert (Hj : j < length p) by (apply nth_error_Some; rewrite Ej; discriminate).
      destruct (nth_error v (length r + j)) as [k|] eqn:Ek; [|apply nth_error_None in Ek; rewrite Lv, app_length in Ek; lia]. rewrite (coef_nth _ _ _ i k N Lv En Ek). apply (S _ k Ek). lia. }
    intros j k Ek. unfold v' in Ek. rewrite nth_error_map in Ek. destruct (nth_error (r' ++ p') j) as [i|] eqn:Ei; [|discriminate]. cbn in Ek. injection Ek as <-. split; intros Hj.
    + rewrite nth_error_app1 in Ei by exact Hj. apply Cr. exact (Permutation_in _ (Permutation_sym Pr) (nth_error_In _ _ Ei)).
    + rewrite nth_error_app2 in Ei by exact Hj. apply Cp. exact (Permutation_in _ (Permutation_sym Pp) (nth_error_In _ _ Ei)).
Qed.
End Given.

Definition sharp_search : Prop := forall targets mids xs, targets_of net0 = Ok targets -> intermediates C order ents rxns targets = Ok mids ->
  enumerated C ent (entry_solve C ent) (entry_rank C ent) diagram wait mids (finder (map e_id targets)) = Ok xs -> sharp (map (set_rxn C) xs).

Lemma as_here (es : list sentry) : (forall e, In e es -> exists i, e = here i) -> es = map here (map uid es).
Proof.
  induction es as [|e es IH]; intros H; [reflexivity|]. cbn [map]. f_equal; [|apply IH; intros a I; apply H; right; exact I]. destruct (H e (or_introl eq_refl)) as (i & ->). reflexivity.
Qed.
Lemma object_items x l : x_entries x = map here l -> object_of C ents x = computed_init C (map ent l) (x_coeffs x) None.
Proof. intros E. unfold object_of. rewrite E, map_map. reflexivity. Qed.
Lemma object_parts x l : x_entries x = map here l -> parts (RComputed (object_of C ents x)) = combine (map ent l) (x_coeffs x).
Proof. intros E. rewrite (object_items x l E). reflexivity. Qed.
Lemma object_turnover x l i : x_entries x = map here l -> (turnover (RComputed (object_of C ents x)) i == amount x i)%Q.
Proof.
  intros E. unfold turnover. rewrite (object_parts x l E), combine_map_l, sumQ_map, (amount_here C ent x l (x_coeffs x) i E eq_refl). unfold coef. apply sumQ_ext. intros [j k] _. cbn [fst snd]. rewrite ent_id. reflexivity.
Qed.

(* The phases of a reaction are those that it uses and those that it makes. *)
Lemma sides_of x l r p : plain x -> x_entries x = map here l -> turns C ent r p x -> NoDup (r ++ p) -> Permutation (r ++ p) l.
Proof.
  intros (N & L & Z) E (U & M & _) Nrp. rewrite E in N. apply NoDup_Permutation; [exact Nrp|exact (NoDup_map_inv _ _ N)|]. intros i.
  assert (In_l : forall j c, takes_part x (here j) c -> In j l).
  { intros j c T. apply in_combine_l in T. rewrite E in T. apply in_map_iff in T as (j' & Ej & J). injection Ej as <-. exact J. }
  rewrite in_app_iff. split.
  - intros [I|I].
    + destruct (proj2 (U (here i)) (ex_intro _ i (conj I eq_refl))) as (c & T & _). exact (In_l i c T).
    + destruct (proj2 (M (here i)) (ex_intro _ i (conj I eq_refl))) as (c & T & _). exact (In_l i c T).
  - intros I. assert (Ie : In (here i) (x_entries x)) by (rewrite E; apply in_map; exact I). destruct (in_combined _ (x_coeffs x) _ L Ie) as (c & T). specialize (Z c (in_combine_r _ _ _ _ T)).
    assert (G : (c < 0 \/ 0 < c)%Q) by (destruct (Q_dec c 0) as [[G|G]|G]; [left; exact G|right; exact G|contradiction]). destruct G as [G|G].
    + destruct (proj1 (U (here i)) (ex_intro _ c (conj T G))) as (j & J & Ej). injection Ej as ->. left. exact J.
    + destruct (proj1 (M (here i)) (ex_intro _ c (conj T G))) as (j & J & Ej). injection Ej as ->. right. exact J.
Qed.

Lemma search_spec : sharp_search -> exists ys,
  find_intermediates C (exact_solve C) (exact_rank C) diagram arrange argsort shuffle wait order chunk jobs cutoff ents rxns net0 = Ok (map (fun x => RComputed (object_of C ents x)) ys)
  /\ (forall x, In x ys -> x_mu x = None /\ plain x /\ (exists l, x_entries x = map here l /\ NoDup l /\ (forall i, In i l -> mid i) /\ (NoDup (map form0 l) -> low C cutoff (combine (map ent l) (x_coeffs x))))
       /\ exists r p, might_react C ents rxns net0 r p /\ turns C ent r p x /\ one_way C (formula C ent) (r ++ p))
  /\ (forall r p v, might_react C ents rxns net0 r p -> NoDup (map form0 (r ++ p)) -> only_combination C (map form0 (r ++ p)) v -> LinSpec.sides (length r) v -> low C cutoff (combine (map ent (r ++ p)) v) ->
       exists y k, In y ys /\ (0 < k)%Q /\ forall i, (amount y i == k * coef (r ++ p) v i)%Q)
  /\ ForallOrdPairs (fun x y => ~ multiples x y) ys.
Proof.
  intros Sh. destruct mids_made as (targets & mids & Et & Em & Hts & Nm & Hm & Emin). specialize (Sh targets mids).
  set (ts := map e_id targets) in *. assert (Ne : mids <> []).
  { destruct Htarget as (t & Ht). assert (I : In t mids) by (apply Hm; right; left; exact Ht). intros ->. destruct I. }
  assert (Hel : forall i, In i mids -> ReactionModel.elems C (e_comp (ent i)) <> []) by (intros i I; apply mid_elems, Hm; exact I).
  assert (Us : usable (finder ts)) by (repeat split; cbn; try assumption; lia).
  destruct (free_set_made C W Hbig ent ent_id diagram wait Hw mids Nm Ne Hel arrange Harr argsort Harg shuffle Hsh (finder ts) Us (fun xs E => Sh xs Et Em E)) as (s & out & Es & (Ws & Gs & Ens & _ & _) & (xs & Ex & Inc) & Good & Comp).
  specialize (Sh xs Et Em Ex).
  assert (Items : forall x, In x out -> x_mu x = None /\ plain x /\ exists l r p, x_entries x = map here l /\ NoDup l /\ (forall i, In i l -> mid i) /\ length (x_coeffs x) = length l /\ might_react C ents rxns net0 r p /\ turns C ent r p x /\ one_way C (formula C ent) (r ++ p)).
  { intros x Ix. destruct (Good x Ix) as (P & He & r & p & (Lk & d & Hd & Wy) & T). split; [|split; [exact P|]].
    - apply Inc in Ix. apply in_map_iff in Ix as (o & <- & _). reflexivity.
    - assert (E : x_entries x = map here (map uid (x_entries x))) by (apply as_here; intros e I; destruct (He e I) as (i & _ & ->); exists i; reflexivity).
      exists (map uid (x_entries x)), r, p. split; [exact E|]. split; [destruct P as (Np & _); rewrite E in Np; exact (NoDup_map_inv _ _ Np)|]. split.
      + intros i I. apply in_map_iff in I as (e & <- & I). destruct (He e I) as (j & J & ->). apply Hm. exact J.
      + split; [rewrite map_length; apply P|]. split; [exact (looks_might mids ts Nm Hm Hts r p Lk)|]. split; [exact T|exact (ways_one C _ _ d Hd Wy)]. }
  assert (En : forall x l, In x out -> x_entries x = map here l -> NoDup l -> (forall i, In i l -> mid i) -> exists v, computed_energy_per_atom C (object_of C ents x) = Ok v /\ (NoDup (map form0 l) -> (v < cutoff)%Q <-> low C cutoff (combine (map ent l) (x_coeffs x)))).
  { intros x l Ix E Nl Ml. destruct (Items x Ix) as (_ & (_ & Lc & _) & _ & r & p & _ & _ & _ & _ & (_ & (_ & Lp) & _) & (_ & M & _) & _).
    destruct p as [|i p]; [cbn in Lp; lia|]. destruct (proj2 (M (here i)) (ex_intro _ i (conj (or_introl eq_refl) eq_refl))) as (c & Tc & Pc).
    assert (L0 : length (map ent l) = length (x_coeffs x)) by (rewrite map_length, Lc, E, map_length; reflexivity).
    assert (E0 : forall e, In e (map ent l) -> ReactionModel.elems C (e_comp e) <> []) by (intros e I; apply in_map_iff in I as (j & <- & J); apply mid_elems, Ml; exact J).
    assert (K0 : exists k, In k (x_coeffs x) /\ (0 < k)%Q) by (exists c; split; [exact (in_combine_r _ _ _ _ Tc)|exact Pc]).
    destruct (energy_some C W (map ent l) (x_coeffs x) L0 E0 K0) as (v & Ev). exists v. rewrite (object_items x l E). split; [exact Ev|]. intros Nf.
    destruct (energy_value C W (map ent l) (x_coeffs x)) as (v' & Ev' & Pv & Hv); [rewrite map_map; exact Nf|exact L0|exact E0|exact K0|]. rewrite Ev in Ev'. injection Ev' as <-. exact (low_iff C _ _ v cutoff Pv Hv). }
  assert (Bel : forall x l, In x out -> x_entries x = map here l -> NoDup l -> (forall i, In i l -> mid i) -> NoDup (map form0 l) -> (below C ents cutoff x = true <-> low C cutoff (combine (map ent l) (x_coeffs x)))).
  { intros x l Ix E Nl Ml Nf. destruct (En x l Ix E Nl Ml) as (v & Ev & Hv). unfold below. rewrite Ev, Qlt_bool_iff'. exact (Hv Nf). }
  assert (Mu : forall x, In x out -> with_mu None x = x). { intros x Ix. destruct (Items x Ix) as (Hx & _). destruct x as [a b c d]. cbn in *. subst d. reflexivity. }
  destruct (intermediates_spec argsort shuffle Harg Hsh arrange Harr (below C ents cutoff) (arrange (map here mids)) None 0%Q true false s s s s out out out) as (kept & ys & Ek & _ & Gk & Sound & Complete & Once).
  { intros a b Ia Ib Eu. apply (proj2 (Harr (map here mids))) in Ia. apply (proj2 (Harr (map here mids))) in Ib. exact (uid_here C ent mids a b Ia Ib Eu). }
  { intros _. split; [exact Ws|]. split; [exact Gs|exact Ens]. }
  { intros _ H. contradiction H. reflexivity. }
  { intros [=]. }
  { intros [=]. }
  { cbn. rewrite !app_nil_r. intros x Ix. apply (Items x Ix). }
  { cbn. rewrite !app_nil_r. intros a b Ia Ib. apply Sh; apply Inc; assumption. }
  cbn [kept_sets] in Sound, Complete. unfold kept_sets in Sound, Complete. cbn in Sound, Complete. rewrite !app_nil_r in Sound, Complete.
  assert (Yout : forall y, In y ys -> In y out /\ below C ents cutoff y = true).
  { intros y Iy. destruct (Sound y Iy) as (x & Ix & -> & B & _). rewrite (Mu x Ix) in *. split; assumption. }
  exists ys. split; [|split; [|split; [|exact Once]]].
  - unfold find_intermediates. rewrite Et. cbn [bind]. rewrite Em. cbn [bind]. rewrite Emin. cbn [bind]. fold ts.
    change (enumerate_set C ent (fun r p => exact_solve C (map form0 r) (map form0 p)) (fun r p => exact_rank C (map form0 r) (map form0 p)) diagram arrange argsort shuffle wait mids
      {| en_options := default_options chunk jobs; en_precursors := []; en_targets := ts; en_open := None; en_duplicates := false |}) with (enumerate_set C ent (entry_solve C ent) (entry_rank C ent) diagram arrange argsort shuffle wait mids (finder ts)).
    rewrite Es. cbn [bind]. rewrite Gs. cbn [bind].
    assert (Eall : exists vs, mapM (fun x => computed_energy_per_atom C (object_of C ents x)) out = Ok vs).
    { clear -Items En. assert (H : forall x, In x out -> exists v, computed_energy_per_atom C (object_of C ents x) = Ok v).
      { intros x Ix. destruct (Items x Ix) as (_ & _ & l & r & p & E & Nl & Ml & _). destruct (En x l Ix E Nl Ml) as (v & Ev & _). exists v. exact Ev. }
      clear -H. induction out as [|x out IH]; [exists []; reflexivity|]. destruct (H x (or_introl eq_refl)) as (v & Ev). destruct IH as (vs & Evs); [intros y Iy; apply H; right; exact Iy|]. exists (v :: vs). cbn. rewrite Ev. cbn. rewrite Evs. reflexivity. }
    destruct Eall as (vs & ->). cbn [bind]. rewrite (map_ext _ here (fun i => set_entry_here C ent ent_id i)), Ek. cbn [bind]. rewrite Gk. reflexivity.
  - intros y Iy. destruct (Yout y Iy) as (Io & B). destruct (Items y Io) as (Hmu & P & l & r & p & E & Nl & Ml & _ & Mr & T). split; [exact Hmu|]. split; [exact P|]. split.
    + exists l. split; [exact E|]. split; [exact Nl|]. split; [exact Ml|]. intros Nf. apply (Bel y l Io E Nl Ml Nf). exact B.
    + exists r, p. split; [exact Mr|exact T].
  - intros r p v Mr Nf0 O S Low. pose proof (might_nodup r p Mr) as Nrp. destruct (might_looks mids ts Nm Hm Hts r p Mr) as (r' & p' & Pr & Pp & Lk). pose proof (Permutation_app Pr Pp) as P.
    assert (Mrp : forall i, In i (r ++ p) -> mid i) by apply Mr. destruct (reordered r p r' p' v Nrp Mrp Pr Pp Nf0 O S) as (Nf & O' & S').
    destruct (Comp r' p' Lk) as (x & Ix & T); [split; [exact Nf|]; eexists; split; [exact O'|exact S']|].
    destruct (Items x Ix) as (_ & Px & l & _ & _ & E & Nl & Ml & Ll & _). pose proof (Permutation_NoDup P Nrp) as Nrp'. pose proof (sides_of x l r' p' Px E T Nrp') as Pl.
    assert (K : exists k, (0 < k)%Q /\ forall i, (amount x i == k * coef (r ++ p) v i)%Q).
    { pose proof (Inc x Ix) as Ixs. apply in_map_iff in Ixs as (o & Eo & Io). destruct (enumerated_seen C W Hbig ent ent_id diagram wait Hw mids Nm Hel (finder ts) Us) as (xs' & Ex' & Seen). rewrite Ex in Ex'. injection Ex' as <-.
      destruct (Seen o Io) as (r0 & p0 & t & lo & ((Hr0 & Hp0) & _) & Er & Ilo).
      assert (E0 : x_entries x = map here (r0 ++ p0)).
      { rewrite <- Eo. destruct (real_balance_ok C ent (entry_solve C ent) (entry_rank C ent) r0 p0 Hr0 Hp0) as (b & Eb & Cb). unfold react_objects in Er. rewrite Eb in Er. cbn [bind] in Er. injection Er as <-.
        assert (Es' : map (set_entry C) (map ent r0 ++ map ent p0) = map here (r0 ++ p0)) by (rewrite <- map_app, map_map; apply map_ext; intros i; apply set_entry_here; exact ent_id).
        destruct Ilo as [<-|[<-|[]]]; unfold set_rxn; cbn [ro_rxn x_entries]; [rewrite Cb; exact Es'|]. unfold computed_reverse, computed_init. cbn [c_entries]. rewrite Cb. exact Es'. }
      assert (P0 : Permutation (r' ++ p') (r0 ++ p0)) by (apply (sides_of x (r0 ++ p0) r' p' Px E0 T Nrp')).
      assert (Hr' : r' <> []) by (apply looks_some in Lk; tauto). rewrite <- Eo in T.
      destruct (exact_object C W ent ent_id r0 p0 t lo o r' p' _ Er Ilo Hr0 Hp0 Hr' Nrp' P0 T O' S') as (k & Pk & Hk). exists k. split; [exact Pk|]. intros i. rewrite <- Eo, Hk.
      destruct (in_dec Nat.eq_dec i (r' ++ p')) as [I|I]; [rewrite coef_self by assumption; reflexivity|]. rewrite (coef_none _ _ i I), coef_none; [reflexivity|]. intros J. apply I. exact (Permutation_in _ P J). }
    destruct K as (k & Pk & Hk). destruct O as ((Lv & _) & _). rewrite map_length in Lv.
    assert (B : below C ents cutoff x = true).
    { apply (Bel x l Ix E Nl Ml); [exact (Permutation_NoDup (Permutation_map form0 (perm_trans P Pl)) Nf0)|]. apply (low_scaled C ent cutoff (r ++ p) l v (x_coeffs x) k Nrp); [exact (perm_trans P Pl)|exact Lv|exact Ll|exact Pk| |exact Low]. intros i. rewrite <- (amount_here C ent x l (x_coeffs x) i E eq_refl). apply Hk. }
    destruct (Complete x Ix) as (y & Iy & My); [rewrite (Mu x Ix); exact B| |].
    + intros e Ie. apply (proj2 (Harr (map here mids))). rewrite E in Ie. apply in_map_iff in Ie as (i & <- & I). apply in_map, Hm, Ml. exact I.
    + destruct (multiples_amount x y My) as (k' & Pk' & Hk'). exists y, (k' * k)%Q. split; [exact Iy|]. split; [apply Qmult_lt_0_compat; assumption|]. intros i. rewrite Hk', Hk. ring.
Qed.

Lemma turns_turnover x l r p : plain x -> x_entries x = map here l -> turns C ent r p x -> NoDup (r ++ p) -> turns_into C r p (RComputed (object_of C ents x)).
Proof.
  intros P E T Nrp. pose proof (sides_of x l r p P E T Nrp) as Pl. destruct P as (N & L & Z). destruct T as (U & M & B & Net).
  assert (Am : forall i c, takes_part x (here i) c -> (turnover (RComputed (object_of C ents x)) i == c)%Q).
  { intros i c T. rewrite (object_turnover x l i E). change i with (uid (here i)) at 1. apply amount_of; [exact N|rewrite E; apply uid_here|exact T]. }
  split; [|split; [|split]].
  - intros i I. destruct (proj2 (U (here i)) (ex_intro _ i (conj I eq_refl))) as (c & T & H). rewrite (Am i c T). specialize (B _ c T). rewrite Qabs_neg in B by lra. lra.
  - intros i I. destruct (proj2 (M (here i)) (ex_intro _ i (conj I eq_refl))) as (c & T & H). rewrite (Am i c T). specialize (B _ c T). rewrite Qabs_pos in B by lra. lra.
  - intros i I. rewrite (object_turnover x l i E), (amount_here C ent x l (x_coeffs x) i E eq_refl). apply coef_none. intros J. apply I. exact (Permutation_in _ (Permutation_sym Pl) J).
  - intros el. specialize (Net el). rewrite (object_parts x l E). rewrite E, !combine_map_l, !sumQ_map in *. exact Net.
Qed.

Lemma int_spec : sharp_search -> exists ys,
  find_intermediates C (exact_solve C) (exact_rank C) diagram arrange argsort shuffle wait order chunk jobs cutoff ents rxns net0 = Ok ys
  /\ (forall y, In y ys -> of_entries ents y /\ (distinct C (parts y) -> low C cutoff (parts y)) /\ exists r p, might_react C ents rxns net0 r p /\ turns_into C r p y /\ one_way C (formula_at C ents) (r ++ p))
  /\ (forall r p es v, might_react C ents rxns net0 r p -> Forall2 (fun i e => nth_error ents i = Some e) (r ++ p) es -> NoDup (map (fun e => red C (e_comp e)) es) -> only_combination C (map (fun e => red C (e_comp e)) es) v -> LinSpec.sides (length r) v -> low C cutoff (combine es v) ->
       exists y k, In y ys /\ (0 < k)%Q /\ (forall j i a, nth_error (r ++ p) j = Some i -> nth_error v j = Some a -> (turnover y i == k * a)%Q) /\ forall i, ~ In i (r ++ p) -> (turnover y i == 0)%Q)
  /\ ForallOrdPairs (fun x y => ~ ChainFindSpec.proportional x y) ys.
Proof.
  intros Sh. destruct (search_spec Sh) as (ys & E & Sound & Comp & Once). eexists. split; [exact E|]. split; [|split].
  - intros y Iy. apply in_map_iff in Iy as (x & <- & Ix). destruct (Sound x Ix) as (_ & P & (l & El & Nl & Ml & Low) & r & p & Mr & T & Ow). split; [|split].
    + exists (object_of C ents x). split; [reflexivity|]. rewrite (object_items x l El). unfold computed_init. cbn [c_base c_entries coeffs basic_init]. split; [rewrite map_length; destruct P as (_ & L & _); rewrite L, El, map_length; reflexivity|].
      intros e I. apply in_map_iff in I as (i & <- & I). rewrite ent_id. apply mid_some, Ml. exact I.
    + rewrite (object_parts x l El). intros Nf. apply Low. unfold distinct in Nf. rewrite <- (map_map fst (fun e => red C (e_comp e))), map_fst_combined, map_map in Nf; [exact Nf|]. destruct P as (_ & L & _). rewrite map_length, L, El, map_length. reflexivity.
    + exists r, p. split; [exact Mr|]. split; [exact (turns_turnover x l r p P El T (might_nodup r p Mr))|]. eapply one_way_same; [|exact Ow].
      intros i I. destruct Mr as (_ & _ & _ & Mi & _). unfold formula_at, formula. rewrite (mid_some i (Mi i I)). reflexivity.
  - intros r p es v Mr F Nf O S Low. assert (Ees : es = map ent (r ++ p)). { clear -F. induction F as [|i e l es H F IH]; [reflexivity|]. cbn [map]. rewrite (ent_some i e H), IH. reflexivity. }
    subst es. rewrite map_map in O, Nf. destruct (Comp r p v Mr Nf O S Low) as (x & k & Ix & Pk & Hk). exists (RComputed (object_of C ents x)), k. split; [apply in_map_iff; exists x; split; [reflexivity|exact Ix]|]. split; [exact Pk|].
    destruct (Sound x Ix) as (_ & _ & (l & El & _) & _). destruct O as ((Lv & _) & _). rewrite map_length in Lv. split.
    + intros j i a Ej Ea. rewrite (object_turnover x l i El), Hk, (coef_nth _ _ j i a (might_nodup r p Mr) Lv Ej Ea). reflexivity.
    + intros i I. rewrite (object_turnover x l i El), Hk, (coef_none _ _ i I). ring.
  - clear E Comp. induction Once as [|x ys F Once IH]; cbn [map]; constructor.
    + rewrite Forall_forall in F. apply Forall_forall. intros r' I. apply in_map_iff in I as (y & <- & Iy). intros (k & Pk & Hk). apply (F y Iy). destruct (Sound x (or_introl eq_refl)) as (_ & Px & (l & El & _) & _). destruct (Sound y (or_intror Iy)) as (_ & Py & (m & Em & _) & _).
      apply NetJobProofs.multiples_sym, (scaled_multiples x y k Px Py); [|exact Pk|].
      * intros a b Ia Ib. rewrite El, Em, <- map_app in Ia, Ib. apply (uid_here C ent (l ++ m)); assumption.
      * intros u. specialize (Hk u). rewrite (object_turnover x l u El), (object_turnover y m u Em) in Hk. exact Hk.
    + apply IH. intros y Iy. apply Sound. right. exact Iy.
Qed.
End Main.
