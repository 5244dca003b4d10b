(* Proofs for C94-C97. *)
From Coq Require Import Lqa.
From Verif Require Import Prelude NumQ SumQ ListFacts UtilsModel ReactionModel ReactionSpec ReactionBaseProofs ReactionOpsProofs ReactionLawProofs ReactionEqProofs RxnSetBaseProofs GibbsModel TempModel RxnMoreSpec.
Open Scope nat_scope.

(* --- C94 --- *)
Lemma interp_eq_refl a : interp_eq a a = true.
Proof. unfold interp_eq. rewrite (isclose_eq _ _ (Qeq_refl _)), !Nat.eqb_refl. destruct (negb (Nat.eqb (ie_id a) 0) && negb (Nat.eqb (ie_id a) 0)); reflexivity. Qed.

Lemma interp_eq_hash a b :
  (isclose (ie_energy a) (ie_energy b) = true -> (ie_energy a == ie_energy b)%Q) -> ie_id a <> 0 -> ie_id b <> 0 ->
  (ie_id a = ie_id b -> ie_comp a = ie_comp b) ->
  interp_eq a b = true -> same_interp_hash a b /\ interp_eq b a = true.
Proof.
  intros HE Na Nb HI H. unfold interp_eq in *. rewrite (proj2 (Nat.eqb_neq _ _) Na), (proj2 (Nat.eqb_neq _ _) Nb) in *. cbn [negb andb] in *.
  apply andb_true_iff in H as [H1 H2]. apply Nat.eqb_eq in H2. specialize (HE H1). split.
  - unfold same_interp_hash, interp_hash_key. split; [apply HI; exact H2|]. split; assumption.
  - rewrite H2, Nat.eqb_refl, andb_true_r. apply isclose_eq. symmetry. exact HE.
Qed.

(* --- C95 --- *)
Lemma molar_shares r d : balanced r = true -> d <> [] ->
  (forall c k, In (c, k) d -> (0 < k)%Q) \/ (forall c k, In (c, k) d -> (k < 0)%Q) ->
  exists fr, molar_fractions r d = Ok fr /\ shares d fr.
Proof.
  intros Hb Hd Hs. unfold molar_fractions. rewrite Hb. cbn [negb].
  assert (Et : (Qsum (map snd d) == sumQ snd d)%Q) by (rewrite Qsum_sumQ, sumQ_map; reflexivity).
  set (t := Qsum (map snd d)) in *. clearbody t.
  assert (Ht : ~ (t == 0)%Q /\ forall c k, In (c, k) d -> (0 < k / t)%Q).
  { destruct Hs as [Hs|Hs].
    - assert (0 < t)%Q.
      { rewrite Et. destruct d as [|[c k] d]; [contradiction|]. rewrite sumQ_cons. cbn [snd]. assert (0 < k)%Q by (apply (Hs c); left; reflexivity).
        assert (0 <= sumQ snd d)%Q by (apply sumQ_nonneg; intros [c' k'] H'; cbn; apply Qlt_le_weak, (Hs c'); right; exact H'). lra. }
      split; [lra|]. intros c k H'. apply Qlt_shift_div_l; [assumption|]. specialize (Hs c k H'). lra.
    - assert (t < 0)%Q.
      { rewrite Et. destruct d as [|[c k] d]; [contradiction|]. rewrite sumQ_cons. cbn [snd]. assert (k < 0)%Q by (apply (Hs c); left; reflexivity).
        assert (sumQ snd d <= 0)%Q by (apply sumQ_nonpos; intros [c' k'] H'; cbn; apply Qlt_le_weak, (Hs c'); right; exact H'). lra. }
      split; [lra|]. intros c k H'. assert (E : (k / t == - k / - t)%Q) by (field; lra). rewrite E. apply Qlt_shift_div_l; [lra|]. specialize (Hs c k H'). lra. }
  destruct Ht as [Ht Hp]. assert (D0 : divides_by_zero d t = false).
  { destruct d as [|x d]; [contradiction|]. unfold divides_by_zero. destruct (Qeq_bool t 0) eqn:E; [apply Qeq_bool_iff in E; contradiction|reflexivity]. }
  rewrite D0. eexists. split; [reflexivity|]. split; [rewrite map_map; reflexivity|]. split; [|split].
  - rewrite sumQ_map. cbn [snd]. unfold Qdiv. rewrite sumQ_scale_r, <- Et. field. exact Ht.
  - intros c w Hw. apply in_map_iff in Hw as ([c' k] & E & Hin). injection E as <- <-. apply (Hp c' k Hin).
  - intros i j c k c' k' w w' E1 E2 E3 E4. rewrite nth_error_map, E1 in E3. rewrite nth_error_map, E2 in E4. injection E3 as <-. injection E4 as <-. cbn [snd]. field. exact Ht.
Qed.

Theorem molar_spec C cs ks fl n : let r := basic_init C cs ks fl n in
  (balanced r = false -> molar_fractions r (reactant_coeffs r) = Err ValueError /\ molar_fractions r (product_coeffs r) = Err ValueError)
  /\ (balanced r = true ->
      (reactants r = [] -> molar_fractions r (reactant_coeffs r) = Ok []) /\ (products r = [] -> molar_fractions r (product_coeffs r) = Ok [])
      /\ (reactants r <> [] -> exists fr, molar_fractions r (reactant_coeffs r) = Ok fr /\ shares (reactant_coeffs r) fr)
      /\ (products r <> [] -> exists fp, molar_fractions r (product_coeffs r) = Ok fp /\ shares (product_coeffs r) fp)).
Proof.
  intros r. split.
  - intros Hb. unfold molar_fractions. rewrite Hb. split; reflexivity.
  - intros Hb. unfold reactants, products. split; [|split; [|split]].
    + destruct (reactant_coeffs r); [|discriminate]. intros _. unfold molar_fractions. rewrite Hb. reflexivity.
    + destruct (product_coeffs r); [|discriminate]. intros _. unfold molar_fractions. rewrite Hb. reflexivity.
    + intros Hr. apply molar_shares; [exact Hb|intros E; apply Hr; rewrite E; reflexivity|]. right. intros c k H. eapply reactant_coeffs_neg. exact H.
    + intros Hr. apply molar_shares; [exact Hb|intros E; apply Hr; rewrite E; reflexivity|]. left. intros c k H. eapply product_coeffs_pos. exact H.
Qed.

(* --- C96 --- *)
Lemma warm_all (warm : entry -> result entry) es ws : Forall2 (fun e w => warm e = Ok w) es ws -> mapM warm es = Ok ws.
Proof. apply mapM_Forall2. Qed.

Theorem closed_temperature C warm es ks n ws : Forall2 (fun e w => warm e = Ok w) es ws ->
  computed_get_new_temperature C warm None (computed_init C es ks n) = Ok (computed_init C ws ks n)
  /\ computed_get_new_temperature C warm (Some None) (computed_init C es ks n) = Ok (computed_init C ws ks n)
  /\ forall mu, open_get_new_temperature C warm (Some None) (open_init C es ks mu n) = Ok (open_init C ws ks mu n).
Proof.
  intros H. apply warm_all in H. unfold computed_get_new_temperature, open_get_new_temperature, entries_at. cbn [c_entries computed_init open_init o_base]. rewrite H. cbn [bind]. repeat split.
Qed.

Theorem table_temperature C warm set tws es ks n ws : Forall2 (fun e w => warm e = Ok w) set tws -> NoDup (map e_comp set) -> incl es set ->
  Forall2 (fun e w => warm e = Ok w) es ws ->
  exists table, table_at warm set = Ok table
  /\ computed_get_new_temperature C warm (Some (Some table)) (computed_init C es ks n) = Ok (computed_init C ws ks n)
  /\ forall mu, open_get_new_temperature C warm (Some (Some table)) (open_init C es ks mu n) = Ok (open_init C ws ks mu n).
Proof.
  intros Hs Hn Hi He. unfold table_at. rewrite (warm_all _ _ _ Hs). cbn [bind]. eexists. split; [reflexivity|].
  assert (Hl : length set = length tws) by exact (Forall2_length _ _ _ Hs).
  assert (E : new_entries (fun e => dict_get (e_comp e) (dict_of (combine (map e_comp set) tws))) es = Ok ws).
  { unfold new_entries. apply mapM_Forall2. rewrite dict_of_nodup by (rewrite combine_fst by (rewrite map_length; exact Hl); exact Hn).
    assert (G : forall e w, In e set -> warm e = Ok w -> dict_get (e_comp e) (combine (map e_comp set) tws) = Some w).
    { clear -Hs Hn. revert Hn. induction Hs as [|e0 w0 set tws H0 Hs IH]; intros Hn e w Hin Hw; [destruct Hin|]. cbn [map combine dict_get]. inversion Hn as [|? ? N Hn']; subst.
      destruct Hin as [->|Hin].
      - rewrite Nat.eqb_refl. congruence.
      - destruct (Nat.eqb (e_comp e) (e_comp e0)) eqn:Q; [|apply IH; assumption]. apply Nat.eqb_eq in Q. exfalso. apply N. rewrite <- Q. apply in_map. exact Hin. }
    clear -He Hi G. induction He as [|e w es ws H He IH]; [constructor|]. constructor.
    - rewrite (G e w (Hi e (or_introl eq_refl)) H). reflexivity.
    - apply IH. intros x Hx. apply Hi. right. exact Hx. }
  unfold computed_get_new_temperature, open_get_new_temperature, entries_at. cbn [c_entries computed_init open_init o_base]. rewrite E. cbn [bind]. split; reflexivity.
Qed.

Theorem open_needs_table C warm o : open_get_new_temperature C warm None o = Err TypeError.
Proof. reflexivity. Qed.

(* --- C97 --- *)
Section Open.
Variable C : chem.
Hypothesis W : wf_chem C.

Lemma lowest_unique en es c v v' : lowest C en es c v -> lowest C en es c v' -> (v == v')%Q.
Proof.
  intros [(e & He & Er & Ev) Hv] [(e' & He' & Er' & Ev') Hv']. specialize (Hv e' He' Er'). specialize (Hv' e He Er). lra.
Qed.

Lemma pure_dec mu c : {pure_open C mu c} + {~ pure_open C mu c}.
Proof.
  unfold pure_open. destruct (elems C c) as [|el [|? ?]]; [right; intros (x & E & _); discriminate| |right; intros (x & E & _); discriminate].
  destruct (in_dec Nat.eq_dec el (map fst mu)) as [H|H]; [left; exists el; split; [reflexivity|exact H]|right; intros (x & E & Hx); injection E as <-; contradiction].
Qed.
Lemma pure_red mu c : pure_open C mu (red C c) <-> pure_open C mu c.
Proof. unfold pure_open. rewrite (wf_red_elems C W). reflexivity. Qed.
Lemma open_part_pure mu c : pure_open C mu c -> (open_part C mu c == 0)%Q.
Proof. intros (el & E & H). unfold open_part. rewrite E. destruct (in_dec Nat.eq_dec el (map fst mu)); [reflexivity|contradiction]. Qed.
Lemma open_part_other mu c : ~ pure_open C mu c -> open_part C mu c = sumQ (fun em => amt C c (fst em) * snd em)%Q mu.
Proof.
  intros H. unfold open_part. destruct (elems C c) as [|el [|? ?]] eqn:E; try reflexivity. destruct (in_dec Nat.eq_dec el (map fst mu)) as [I|I]; [|reflexivity].
  exfalso. apply H. exists el. split; assumption.
Qed.

Theorem reservoir es es' ks mu n : conserving C (c_base (o_base (open_init C es ks mu n))) -> Forall2 (at_potential C mu) es es' ->
  (forall e, In e es -> pure_open C mu (e_comp e) -> (e_energy e == 0)%Q) ->
  exists v v', open_energy C (open_init C es ks mu n) = Ok v /\ computed_energy C (computed_init C es' ks n) = Ok v' /\ (v == v')%Q.
Proof.
  intros Hc HF H0. destruct (open_energy_spec C W es ks mu n) as (v & v0 & Ev & Ev0 & Hv). cbn zeta in *.
  destruct (computed_energy_spec C es ks n) as (w & g & Ew & Hw & Hg). destruct (computed_energy_spec C es' ks n) as (w' & g' & Ew' & Hw' & Hg').
  cbn [o_base open_init] in Ev0. assert (w = v0) as -> by congruence. exists v, w'. split; [exact Ev|]. split; [exact Ew'|].
  assert (Ecomps : comps (c_base (computed_init C es' ks n)) = comps (c_base (computed_init C es ks n))).
  { cbn. clear -HF. induction HF as [|e e' es es' (_ & E & _) HF IH]; [reflexivity|]. cbn. rewrite E, IH. reflexivity. }
  assert (Esp : species (c_base (computed_init C es' ks n)) = species (c_base (computed_init C es ks n))).
  { unfold species. rewrite Ecomps. reflexivity. }
  rewrite Esp in Hw'. rewrite Ecomps in Hg'. rewrite Hv, Hw, Hw'. set (sp := species (c_base (computed_init C es ks n))) in *.
  change (species (c_base (o_base (open_init C es ks mu n)))) with sp.
  (* value of each species at the potential *)
  assert (Hval : forall c, In c (comps (c_base (computed_init C es ks n))) ->
     (g' c == g c - open_part C mu c + sumQ (fun em => amt C c (fst em) * snd em) mu)%Q).
  { intros c Hin. assert (Hred : exists e, In e es /\ c = red C (e_comp e)).
    { cbn in Hin. apply in_map_iff in Hin as (e & E & He). exists e. split; [exact He|symmetry; exact E]. }
    assert (Hrc : red C c = c) by (destruct Hred as (e & _ & ->); apply (wf_red_red C W)).
    destruct (pure_dec mu c) as [P|P].
    - rewrite (open_part_pure mu c P). destruct (Hg c Hin) as [(e & He & Er & Eg) _]. destruct (Hg' c Hin) as [(e' & He' & Er' & Eg') _].
      assert (Pe : pure_open C mu (e_comp e)) by (apply pure_red; rewrite Er; exact P).
      assert (Z : (g c == 0)%Q). { rewrite Eg, (H0 e He Pe). unfold Qdiv. ring. }
      destruct (Forall2_In_r _ _ _ _ HF He') as (e1 & He1 & (_ & Ec & Ep & _)). rewrite Ec in *.
      assert (Pe' : pure_open C mu (e_comp e1)) by (apply pure_red; rewrite Er'; exact P). rewrite Eg', (Ep Pe'), Z.
      assert (Hf : (sumQ (fun em => snd em * amt C (e_comp e1) (fst em)) mu == fac C (e_comp e1) * sumQ (fun em => amt C c (fst em) * snd em) mu)%Q).
      { rewrite <- sumQ_scale_l. apply sumQ_ext. intros em _. rewrite (wf_fac C W (e_comp e1) (fst em)), Er'. ring. }
      rewrite Hf. field. pose proof (wf_fac_pos C W (e_comp e1)). lra.
    - rewrite (open_part_other mu c P). assert (g' c == g c)%Q; [|lra].
      apply (lowest_unique e_energy es' c); [apply Hg'; exact Hin|]. destruct (Hg c Hin) as [(e & He & Er & Eg) Hl]. split.
      + destruct (Forall2_In_l _ _ _ _ HF He) as (e' & He' & (_ & Ec & _ & Ep)). exists e'. split; [exact He'|]. rewrite Ec. split; [exact Er|]. rewrite Ep; [exact Eg|].
        intros Q. apply P. rewrite <- Er. apply pure_red. exact Q.
      + intros e' He' Er'. destruct (Forall2_In_r _ _ _ _ HF He') as (e1 & He1 & (_ & Ec & _ & Ep)). rewrite Ec in *. rewrite Ep; [apply Hl; assumption|].
        intros Q. apply P. rewrite <- Er'. apply pure_red. exact Q. }
  assert (Hin : forall ck, In ck sp -> In (fst ck) (comps (c_base (computed_init C es ks n)))).
  { intros [c k] H. apply in_combine_l in H. exact H. }
  assert (E' : (sumQ (fun ck => snd ck * g' (fst ck)) sp == sumQ (fun ck => snd ck * g (fst ck)) sp + - sumQ (fun ck => snd ck * open_part C mu (fst ck)) sp
                + sumQ (fun ck => snd ck * sumQ (fun em => amt C (fst ck) (fst em) * snd em) mu) sp)%Q).
  { assert (M : (- sumQ (fun ck => snd ck * open_part C mu (fst ck)) sp == sumQ (fun ck => - (1) * (snd ck * open_part C mu (fst ck))) sp)%Q) by (rewrite sumQ_scale_l; ring).
    rewrite M, <- !sumQ_add. apply sumQ_ext. intros ck Hck. rewrite (Hval (fst ck) (Hin ck Hck)). ring. }
  assert (Z : (sumQ (fun ck => snd ck * sumQ (fun em => amt C (fst ck) (fst em) * snd em) mu) sp == 0)%Q).
  { transitivity (sumQ (fun ck => sumQ (fun em => amt C (fst ck) (fst em) * snd ck * snd em) mu) sp)%Q.
    - apply sumQ_ext. intros ck _. rewrite <- sumQ_scale_l. apply sumQ_ext. intros em _. ring.
    - rewrite sumQ_swap. apply sumQ_all_zero. intros em _. rewrite sumQ_scale_r. specialize (Hc (fst em)). unfold net in Hc.
      change (species (c_base (o_base (open_init C es ks mu n)))) with sp in Hc. rewrite Hc. ring. }
  rewrite E', Z. ring.
Qed.
End Open.
