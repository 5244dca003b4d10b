From Verif Require Import Prelude NumQ ListFacts UtilsModel ReactionModel ReactionSpec RxnSetModel RxnSetSpec RxnSetBaseProofs RxnSetProofs RxnSetTempProofs RxnSetFilterProofs RxnSetDupProofs PathModel SolverModel SolverSpec.
Open Scope nat_scope.

Lemma with_mu_again m r : with_mu m (with_mu m r) = with_mu m r.
Proof. reflexivity. Qed.

Lemma empty_wf es op mu : well_formed (rset_init es [] [] op mu (Some [])) /\ get_rxns (rset_init es [] [] op mu (Some [])) = Ok [].
Proof. split; [|reflexivity]. split; [constructor|]. split; [reflexivity|]. split; [reflexivity|]. intros n is cs ds []. Qed.

(* adding one more set *)
Lemma add_one es op mu s out b rb : well_formed s -> get_rxns s = Ok out -> r_entries s = es -> r_open s = op -> r_chempot s = mu ->
  well_formed b -> get_rxns b = Ok rb -> r_entries b = es ->
  exists s' out', add_rxn_set s b = Ok s' /\ well_formed s' /\ get_rxns s' = Ok out' /\ r_entries s' = es /\ r_open s' = op /\ r_chempot s' = mu
  /\ Permutation out' (out ++ map (with_mu (match op with Some el => Some [(el, mu)] | None => None end)) rb).
Proof.
  intros Hs Eo He Hop Hmu Hb Eb Heb. destruct (add_rxn_set_spec s b Hs Hb) as (ra & rb' & E1 & E2 & _ & H). rewrite Eo in E1. injection E1 as <-. rewrite Eb in E2. injection E2 as <-.
  destruct H as (s' & out' & A1 & A2 & A3 & A4 & A5 & A6 & A7); [congruence|]. exists s', out'. split; [exact A1|]. split; [exact A2|]. split; [exact A3|]. split; [congruence|]. split; [congruence|]. split; [congruence|].
  unfold mu_dict in A4. rewrite Hop, Hmu in A4. exact A4.
Qed.

Lemma filter_perm {A} (f : A -> bool) l l' : Permutation l l' -> Permutation (filter f l) (filter f l').
Proof.
  induction 1 as [|x l l' H IH|x y l|l1 l2 l3 H1 IH1 H2 IH2]; cbn; [constructor|destruct (f x); [constructor; exact IH|exact IH]| |eapply perm_trans; eassumption].
  destruct (f x), (f y); try apply Permutation_refl. apply perm_swap.
Qed.

Section Inter.
Variable argsort : list Q -> list nat.
Variable shuffle : list nat -> list nat.
Hypothesis Hsort : forall l, Permutation (argsort l) (seq 0 (length l)).
Hypothesis Hshuffle : forall l, Permutation (shuffle l) l.
Variable arrange : list sentry -> list sentry.
Hypothesis Harr : arranges arrange.

Theorem intermediates_spec below es op mu ub um sb sbo sm sg rb rbo rm :
  (forall x y, In x es -> In y es -> uid x = uid y -> x = y) ->
  (ub = true -> well_formed sb /\ get_rxns sb = Ok rb /\ r_entries sb = es) ->
  (ub = true -> op <> None -> well_formed sbo /\ get_rxns sbo = Ok rbo /\ r_entries sbo = es) ->
  (um = true -> well_formed sm /\ get_rxns sm = Ok rm /\ r_entries sm = es) ->
  (um = true -> op <> None -> well_formed sg /\ r_entries sg = es) ->
  let all := kept_sets op ub um rb rbo rm in
  let mud := match op with Some el => Some [(el, mu)] | None => None end in
  (forall r, In r all -> plain r) -> sharp all ->
  exists s out, find_intermediate_rxns argsort shuffle arrange below es op mu ub um (Ok sb) (Ok sbo) (Ok sm) (Ok sg) = Ok s /\ well_formed s /\ get_rxns s = Ok out
  /\ (forall r', In r' out -> exists r, In r all /\ r' = with_mu mud r /\ below r' = true /\ forall e, In e (x_entries r') -> In e es)
  /\ (forall r, In r all -> below (with_mu mud r) = true -> (forall e, In e (x_entries r) -> In e es) -> exists r', In r' out /\ multiples r r')
  /\ ForallOrdPairs (fun r r' => ~ multiples r r') out.
Proof.
  intros Huid Hb Hbo Hm Hg all mud Hplain Hsharp. unfold find_intermediate_rxns. destruct (empty_wf es op mu) as [W0 G0]. set (s0 := rset_init es [] [] op mu (Some [])) in *.
  assert (exists s1 o1, (if ub then bind (Ok sb) (fun b => bind (add_rxn_set s0 b) (fun s => match op with Some _ => bind (Ok sbo) (add_rxn_set s) | None => Ok s end)) else Ok s0) = Ok s1
    /\ well_formed s1 /\ get_rxns s1 = Ok o1 /\ r_entries s1 = es /\ r_open s1 = op /\ r_chempot s1 = mu
    /\ Permutation o1 (map (with_mu mud) (if ub then rb ++ (match op with Some _ => rbo | None => [] end) else []))) as (s1 & o1 & -> & W1 & G1 & E1 & Op1 & Mu1 & P1).
  { destruct ub.
    - destruct (Hb eq_refl) as (Wb & Gb & Eb). destruct (add_one es op mu s0 [] sb rb W0 G0 eq_refl eq_refl eq_refl Wb Gb Eb) as (s & o & Ea & Ws & Gs & Es & Os & Ms & Ps). cbn [bind]. rewrite Ea. cbn [bind].
      destruct op as [el|]; [|exists s, o; rewrite app_nil_r; repeat (split; [first [reflexivity|assumption]|]); exact Ps].
      destruct (Hbo eq_refl) as (Wbo & Gbo & Ebo); [discriminate|]. destruct (add_one es (Some el) mu s o sbo rbo Ws Gs Es Os Ms Wbo Gbo Ebo) as (s' & o' & Ea' & Ws' & Gs' & Es' & Os' & Ms' & Ps').
      exists s', o'. split; [exact Ea'|]. repeat (split; [assumption|]). rewrite map_app. eapply perm_trans; [exact Ps'|]. apply Permutation_app_tail. exact Ps.
    - exists s0, []. repeat (split; [first [reflexivity|assumption]|]). constructor. }
  cbn [bind].
  assert (exists s2 o2, (if um then bind (add_rxn_set s1 sm) (fun s => match op with Some _ => bind (add_rxn_set s sg) (fun _ => Ok s) | None => Ok s end) else Ok s1) = Ok s2
    /\ get_rxns s2 = Ok o2 /\ Permutation o2 (map (with_mu mud) all)) as (s2 & o2 & -> & G2 & P2).
  { unfold all, kept_sets. destruct um.
    - destruct (Hm eq_refl) as (Wm & Gm & Em). destruct (add_one es op mu s1 o1 sm rm W1 G1 E1 Op1 Mu1 Wm Gm Em) as (s & o & Ea & Ws & Gs & Es & Os & Ms & Ps). rewrite Ea. cbn [bind].
      assert (Hp : Permutation o (map (with_mu mud) ((if ub then rb ++ match op with Some _ => rbo | None => [] end else []) ++ rm))) by (rewrite map_app; eapply perm_trans; [exact Ps|]; apply Permutation_app_tail; exact P1).
      exists s, o. split; [|split; assumption]. destruct op as [el|]; [|reflexivity]. destruct (Hg eq_refl) as (Wg & Eg); [discriminate|].
      destruct (add_rxn_set_spec s sg Ws Wg) as (r1 & r2 & _ & _ & _ & H). destruct H as (s' & _ & -> & _); [congruence|]. reflexivity.
    - exists s1, o1. rewrite app_nil_r. split; [reflexivity|]. split; [exact G1|exact P1]. }
  cbn [bind]. rewrite G2. cbn [bind]. set (keep := fun r : srxn => forallb (fun e => if in_dec sentry_eq_dec e es then true else false) (x_entries r)).
  set (kept := filter keep (filter below o2)).
  assert (Hkeep : forall r, keep r = true <-> forall e, In e (x_entries r) -> In e es).
  { intros r. unfold keep. rewrite forallb_forall. split; intros H e He; specialize (H e He); destruct (in_dec sentry_eq_dec e es); [assumption|discriminate|reflexivity|contradiction]. }
  assert (Hkept : forall r', In r' kept <-> exists r, In r all /\ r' = with_mu mud r /\ below r' = true /\ forall e, In e (x_entries r') -> In e es).
  { intros r'. unfold kept. rewrite !filter_In, Hkeep. split.
    - intros ((Hin & Hbel) & Hent). apply (Permutation_in _ P2), in_map_iff in Hin as (r & <- & Hr). exists r. repeat (split; [first [assumption|reflexivity]|]). exact Hent.
    - intros (r & Hr & -> & Hbel & Hent). split; [split; [|exact Hbel]|exact Hent]. apply (Permutation_in _ (Permutation_sym P2)), in_map. exact Hr. }
  assert (Hin_es : forall e, In e (all_entries kept) -> In e es) by (intros e He; unfold all_entries in He; apply in_flat_map in He as (r' & Hr' & He); apply Hkept in Hr' as (r & _ & _ & _ & H); apply H; exact He).
  assert (Hlen : forall r, In r kept -> length (x_coeffs r) = length (x_entries r)) by (intros r' Hr'; apply Hkept in Hr' as (r & Hr & -> & _); apply (Hplain r Hr)).
  assert (Hmu : (forall r, In r kept -> x_mu r = None) \/ exists el q, forall r, In r kept -> x_mu r = Some [(el, q)]).
  { unfold mud in Hkept. destruct op as [el|]; [right; exists el, mu|left]; intros r' Hr'; apply Hkept in Hr' as (r & _ & -> & _); reflexivity. }
  destruct (round_trip arrange kept [] 0%Q Harr (or_introl eq_refl)) as (s3 & o3 & Ef & W3 & G3 & P3 & _ & _ & N3 & _); [intros x y Hx Hy; apply Huid; apply Hin_es; assumption|exact Hlen|exact Hmu|].
  rewrite Ef. cbn [bind].
  assert (Ho3 : forall r', In r' o3 <-> In r' kept) by (intros r'; split; [apply Permutation_in; exact P3|apply Permutation_in, Permutation_sym; exact P3]).
  destruct (no_ensured_families argsort shuffle Hsort Hshuffle s3 W3 N3 o3 G3) as (s4 & o4 & E4 & W4 & G4 & (rest & P4) & H4 & F4).
  - intros r' Hr'. apply Ho3, Hkept in Hr' as (r & Hr & -> & _). exact (Hplain r Hr).
  - intros a b Ha Hb' Hn. apply Ho3, Hkept in Ha as (ra & Hra & -> & _). apply Ho3, Hkept in Hb' as (rb' & Hrb & -> & _). exact (Hsharp ra rb' Hra Hrb Hn).
  - exists s4, o4. split; [exact E4|]. split; [exact W4|]. split; [exact G4|]. split; [|split].
    + intros r' Hr'. apply Hkept, Ho3. apply (Permutation_in _ (Permutation_sym P4)). apply in_or_app. left. exact Hr'.
    + intros r Hr Hbel Hent. destruct (H4 (with_mu mud r)) as (r' & Hr' & Hmul); [apply Ho3, Hkept; exists r; repeat (split; [first [assumption|reflexivity]|]); exact Hent|]. exists r'. split; [exact Hr'|exact Hmul].
    + exact F4.
Qed.
End Inter.
