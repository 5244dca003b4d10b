(* What is raised by calls that have no answer: C154. *)
From Verif Require Import Prelude NumQ SumQ ListFacts UtilsModel ReactionModel ReactionSpec ReactionBaseProofs ReactionOpsProofs PathModel SolverModel PlotModel SolveJobModel IntModel WholeModel AnyWholeModel OpenWholeModel.
Open Scope nat_scope.

(* --- vectors --- *)
Lemma set_nth_ok {V} i (v : V) l : i < length l -> exists l', set_nth i v l = Ok l' /\ length l' = length l.
Proof.
  revert l. induction i as [|i IH]; intros [|x l] H; cbn in *; try lia; [eexists; split; reflexivity|].
  destruct (IH l) as (l' & -> & L); [lia|]. cbn. eexists. split; [reflexivity|]. cbn. lia.
Qed.
Lemma set_nth_over {V} i (v : V) l : length l <= i -> set_nth i v l = Err IndexError.
Proof. revert l. induction i as [|i IH]; intros [|x l] H; cbn in *; try lia; try reflexivity. rewrite IH by lia. reflexivity. Qed.
Definition put (acc : result (list Q)) (ek : entry * Q) : result (list Q) := bind acc (set_nth (e_id (fst ek)) (snd ek)).
Lemma put_err l x : fold_left put l (Err x) = Err x.
Proof. induction l as [|ek l IH]; [reflexivity|exact IH]. Qed.
Lemma put_ok l : forall v, (forall ek, In ek l -> e_id (fst ek) < length v) -> exists v', fold_left put l (Ok v) = Ok v' /\ length v' = length v.
Proof.
  induction l as [|ek l IH]; intros v H; [exists v; split; reflexivity|]. cbn [fold_left]. unfold put at 2. cbn [bind].
  destruct (set_nth_ok (e_id (fst ek)) (snd ek) v) as (v1 & -> & L); [apply H; left; reflexivity|]. destruct (IH v1) as (v2 & -> & L2); [intros x I; rewrite L; apply H; right; exact I|]. exists v2. split; [reflexivity|lia].
Qed.
Lemma put_over l : forall v, (exists ek, In ek l /\ length v <= e_id (fst ek)) -> fold_left put l (Ok v) = Err IndexError.
Proof.
  induction l as [|ek l IH]; intros v (x & I & H); [destruct I|]. cbn [fold_left]. unfold put at 2. cbn [bind].
  destruct (Nat.lt_ge_cases (e_id (fst ek)) (length v)) as [L|L].
  - destruct (set_nth_ok (e_id (fst ek)) (snd ek) v L) as (v1 & -> & L1). destruct I as [<-|I]; [lia|]. apply IH. exists x. split; [exact I|lia].
  - rewrite set_nth_over by exact L. apply put_err.
Qed.
Theorem vector_answers C es ks ne n : let r := computed_init C es ks ne in
  (length es <> length ks -> get_entry_idx_vector r n = Err ValueError)
  /\ (length es = length ks -> (forall e, In e es -> e_id e < n) -> exists v, get_entry_idx_vector r n = Ok v /\ length v = n)
  /\ (length es = length ks -> (exists e, In e es /\ n <= e_id e) -> get_entry_idx_vector r n = Err IndexError).
Proof.
  intros r. assert (Ec : coeffs (c_base r) = ks) by reflexivity.
  unfold get_entry_idx_vector. rewrite Ec. change (c_entries r) with es. change (fun acc (ek : entry * Q) => bind acc (set_nth (e_id (fst ek)) (snd ek))) with put. split; [|split].
  - intros N. apply Nat.eqb_neq in N. rewrite N. reflexivity.
  - intros E H. rewrite E, Nat.eqb_refl. cbn [negb]. destruct (put_ok (combine es ks) (repeat 0%Q n)) as (v & Ev & L); [intros [e k] I; rewrite repeat_length; apply H; exact (in_combine_l _ _ _ _ I)|]. exists v. rewrite repeat_length in L. split; assumption.
  - intros E (e & I & H). rewrite E, Nat.eqb_refl. cbn [negb]. apply put_over. rewrite repeat_length. apply In_nth_error in I as (i & Ei). destruct (nth_error ks i) as [k|] eqn:Ek; [|exfalso; apply nth_error_None in Ek; assert (i < length es) by (apply nth_error_Some; congruence); lia].
    exists (e, k). split; [|exact H]. apply (nth_error_In _ i). clear -Ei Ek. revert ks i Ei Ek. induction es as [|a es IH]; intros [|b ks] [|i] Ei Ek; try discriminate; cbn in *; [congruence|apply IH; assumption].
Qed.

(* --- energies --- *)
Lemma mapM_each {A B} (f : A -> result B) l : (forall x, In x l -> exists y, f x = Ok y) -> exists ys, mapM f l = Ok ys.
Proof.
  induction l as [|x l IH]; intros H; [exists []; reflexivity|]. destruct (H x (or_introl eq_refl)) as (y & Ey). destruct IH as (ys & Eys); [intros z I; apply H; right; exact I|].
  exists (y :: ys). cbn [mapM]. rewrite Ey. cbn [bind]. rewrite Eys. reflexivity.
Qed.
Lemma energy_found C es ks n en : exists v, energy_of C es en (basic_init C (map (fun e => red C (e_comp e)) es) ks None n) = Ok v.
Proof.
  unfold energy_of. cbn [coeffs comps basic_init].
  destruct (mapM_each (fun kc : Q * nat => match dict_get (snd kc) (calc_energies C es en) with Some v => Ok (fst kc * v)%Q | None => Err KeyError end) (combine ks (map (fun e => red C (e_comp e)) es))) as (ys & ->).
  - intros [k c] I. apply in_combine_r in I. cbn [fst snd]. destruct (calc_energies_spec C en es c) as [(_ & N)|(v & -> & _)]; [contradiction|]. eexists. reflexivity.
  - cbn [bind]. eexists. reflexivity.
Qed.
Lemma no_products C cs ks b n : (forall k, In k ks -> (k <= 0)%Q) -> product_coeffs (basic_init C cs ks b n) = [].
Proof.
  intros H. cbn [basic_init product_coeffs]. assert (E : filter (fun kv => Qlt_bool 0 (snd kv)) (combine cs ks) = []); [|rewrite E; reflexivity].
  assert (G : forall kv, In kv (combine cs ks) -> Qlt_bool 0 (snd kv) = false).
  { intros [c k] I. cbn [snd]. destruct (Qlt_bool 0 k) eqn:E; [|reflexivity]. apply Qlt_bool_iff' in E. specialize (H k (in_combine_r _ _ _ _ I)). exfalso. exact (Qlt_not_le _ _ E H). }
  induction (combine cs ks) as [|kv l IH]; [reflexivity|]. cbn [filter]. rewrite (G kv (or_introl eq_refl)). apply IH. intros x I. apply G. right. exact I.
Qed.
Theorem no_energy_per_atom C es ks mus n : (forall k, In k ks -> (k <= 0)%Q) ->
  energy_per_atom C (RComputed (computed_init C es ks n)) = Err ZeroDivisionError
  /\ energy_per_atom C (ROpen {| o_base := computed_init C es ks n; chempots := mus |}) = Err ZeroDivisionError
  /\ forall b, energy_per_atom C (RBasic b) = Err ValueError.
Proof.
  intros H. split; [|split; [|reflexivity]].
  - unfold energy_per_atom, computed_energy_per_atom, computed_energy. cbn [computed_init c_entries c_base]. destruct (energy_found C es ks n e_energy) as (v & ->). cbn [bind].
    unfold num_atoms, num_atoms_of. rewrite (no_products C _ ks None n H). reflexivity.
  - unfold energy_per_atom, open_energy_per_atom, open_energy. cbn [o_base chempots computed_init c_entries c_base]. destruct (energy_found C es ks n (grand_energy C mus)) as (v & ->). cbn [bind].
    unfold open_num_atoms, num_atoms_of. cbn [o_base computed_init c_base]. rewrite (no_products C _ ks None n H). reflexivity.
Qed.

(* --- a phase alone --- *)
Theorem alone C e solve rank : computed_balance C [e] [] solve rank = Err TypeError /\ computed_balance C [] [e] solve rank = Err TypeError.
Proof. split; unfold computed_balance; destruct (balance_coeffs _ _ _ _ _) as [ks low]; reflexivity. Qed.
Theorem not_alone C rs ps solve rank : length rs + length ps <> 1 -> exists r, computed_balance C rs ps solve rank = Ok r.
Proof. intros H. unfold computed_balance. destruct (balance_coeffs _ _ _ _ _) as [ks low]. apply Nat.eqb_neq in H. rewrite H. eexists. reflexivity. Qed.

(* --- references --- *)
Lemma el_ref_none C ents e : (forall x, In x ents -> elems C (e_comp x) <> [e]) -> el_ref C ents e = Err ValueError.
Proof.
  intros H. unfold el_ref. assert (F : filter (is_pure C e) ents = []); [|rewrite F; reflexivity].
  induction ents as [|x ents IH]; [reflexivity|]. cbn [filter]. unfold is_pure at 1. destruct (list_eq_dec Nat.eq_dec (elems C (e_comp x)) [e]) as [E|_]; [exfalso; exact (H x (or_introl eq_refl) E)|]. apply IH. intros y I. apply H. right. exact I.
Qed.
Lemma el_ref_either C ents e : el_ref C ents e = Err ValueError \/ exists q, el_ref C ents e = Ok q.
Proof. unfold el_ref. destruct (filter (is_pure C e) ents); [left; reflexivity|right; eexists; reflexivity]. Qed.
Lemma refs_missing C ents l e : In e l -> (forall x, In x ents -> elems C (e_comp x) <> [e]) -> mapM (el_ref C ents) l = Err ValueError.
Proof.
  intros I H. induction l as [|a l IH]; [destruct I|]. cbn [mapM]. destruct (el_ref_either C ents a) as [->|(q & Eq)]; [reflexivity|]. rewrite Eq. cbn [bind].
  destruct I as [->|I]; [rewrite (el_ref_none C ents e H) in Eq; discriminate|]. rewrite (IH I). reflexivity.
Qed.
Theorem no_reference C set_at hull temps df comp t ents x e : set_at t = Ok ents -> In x ents -> In e (elems C (e_comp x)) -> (forall y, In y ents -> elems C (e_comp y) <> [e]) ->
  energies_at C set_at hull temps df comp t = Err ValueError.
Proof.
  intros Es Ix Ie H. unfold energies_at. rewrite Es. cbn [bind]. rewrite (refs_missing C ents _ e); [reflexivity| |exact H]. apply nodup_In, in_flat_map. exists x. split; assumption.
Qed.

Lemma no_enumerators : forall C ent solve rank (D P : Type) (diagram : list nat -> D) (phase_diagram : list (nat * Q) -> result P) interface pair_order arrange argsort shuffle wait owait mwait
    listed members cpus nwait xcost sp xeq lsq lrank req pinv waits1 waits2 uniq clean cost chunk order ichunk ijobs mchunk mjobs cutoff use_basic use_min gas_of grand entries further nmk smk max find fi,
  any_whole_flow C ent solve rank diagram phase_diagram interface pair_order arrange argsort shuffle wait mwait listed members cpus nwait xcost sp xeq lsq lrank req pinv waits1 waits2 uniq clean cost
    chunk order ichunk ijobs mchunk mjobs cutoff use_basic use_min [] entries nmk smk max find fi = Err AttributeError
  /\ open_whole_flow C ent solve rank diagram phase_diagram interface pair_order arrange argsort shuffle wait owait mwait listed members cpus nwait xcost sp xeq lsq lrank req pinv waits1 waits2 uniq clean cost
    chunk order ichunk ijobs mchunk mjobs cutoff use_basic use_min gas_of grand [] entries further nmk smk max find fi = Err AttributeError.
Proof. intros. split; reflexivity. Qed.

(* --- reactions without entries --- *)
Lemma no_entries C order ents rxns targets b : In (RBasic b) rxns ->
  vector_of ents (RBasic b) = Err AttributeError /\ targets_of (RBasic b) = Err AttributeError /\ intermediates C order ents rxns targets = Err AttributeError.
Proof.
  intros I. split; [reflexivity|]. split; [reflexivity|]. unfold intermediates. assert (E : mapM entries_of rxns = Err AttributeError); [|rewrite E; reflexivity].
  induction rxns as [|r rxns IH]; [destruct I|]. cbn [mapM]. destruct r as [b'|c|o]; [reflexivity| |]; cbn [entries_of computed_of]; (destruct I as [I|I]; [discriminate I|]); rewrite (IH I); reflexivity.
Qed.
