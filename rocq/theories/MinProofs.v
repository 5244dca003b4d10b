(* Proofs about the minimising enumerators: C93. *)
From Verif Require Import Prelude NumQ ListFacts UtilsModel UtilsSpec UtilsProofs RxnSetSpec RxnSetBaseProofs RxnSetParProofs ReactionModel EnumModel EnumSpec EnumProofs EnumReactProofs EnumLinkModel EntrySetModel EntrySetSpec EntrySetProofs InitProofs JoinModel MinModel MinSpec.
Open Scope nat_scope.

Lemma cat_ok {A B} (f : A -> result (list B)) g l : (forall x, In x l -> f x = Ok (g x)) -> cat f l = Ok (flat_map g l).
Proof. intros H. unfold cat. rewrite (mapM_ok f g l H). cbn [bind]. rewrite <- flat_map_concat_map. reflexivity. Qed.

Lemma subset_subset a b : EnumModel.subset a b = true <-> incl a b.
Proof. rewrite subset_iff. reflexivity. Qed.

Lemma within_filter elems entries k : within elems entries k (filter (fun e => EnumModel.subset (elems e) k) entries).
Proof. apply picks_filter. intros e _. apply subset_subset. Qed.

Lemma picks_unique {A} (P : A -> Prop) l a b : picks P l a -> picks P l b -> a = b.
Proof.
  intros H. revert b. induction H as [|x l out HP H IH|x l out HP H IH]; intros b Hb; inversion Hb; subst; try contradiction; try reflexivity.
  - f_equal. apply IH. assumption.
  - apply IH. assumption.
Qed.

Section Min.
Context {P X : Type}.
Variables (elems : nat -> list nat) (formula : nat -> nat) (epa : nat -> Q).
Variable build : list nat -> result P.
Variable kinks : P -> nat -> nat -> result (list (list nat * list nat)).
Variable balance : list nat -> list nat -> result X.
Variable order : list nat -> list nat.
Hypothesis Hord : forall l, Permutation (order l) l.
Hypothesis Hbal : forall rs ps, rs <> [] -> ps <> [] -> exists x, balance rs ps = Ok x.
Notation ground s := (fun f e => formula e = f /\ ground_state formula epa (fun m => In m s) e).

Lemma min_entries_ok s fs : (forall f, In f fs -> exists e, In e s /\ formula e = f) ->
  exists es, mapM (get_min_entry formula epa s) fs = Ok es /\ Forall2 (ground s) fs es.
Proof.
  intros H. destruct (mapM_total (get_min_entry formula epa s) fs) as (es & E).
  - intros f Hf. destruct (H f Hf) as (e & He & Ef). destruct (min_entry_spec formula epa s f) as (_ & A & B).
    destruct (get_min_entry formula epa s f) as [m|x] eqn:G; [exists m; reflexivity|]. specialize (B x eq_refl). subst x.
    exfalso. exact (proj1 A eq_refl e He Ef).
  - exists es. split; [exact E|]. apply mapM_Forall2 in E. eapply Forall2_impl; [|exact E]. intros f e G. cbn beta in G.
    destruct (min_entry_spec formula epa s f) as (A & _). exact (A e G).
Qed.

Lemma computed_ok s kink : fst kink <> [] -> snd kink <> [] ->
  (forall f, In f (fst kink) \/ In f (snd kink) -> exists e, In e s /\ formula e = f) ->
  exists x, get_computed_rxn formula epa balance s kink = Ok x /\ of_ground_states formula epa s balance kink x.
Proof.
  intros H1 H2 H. destruct (min_entries_ok s (fst kink)) as (rs & E1 & F1); [intros; apply H; left; assumption|].
  destruct (min_entries_ok s (snd kink)) as (ps & E2 & F2); [intros; apply H; right; assumption|].
  destruct (Hbal rs ps) as (x & Ex).
  - intros ->. inversion F1. congruence.
  - intros ->. inversion F2. congruence.
  - exists x. unfold get_computed_rxn. rewrite E1, E2. split; [exact Ex|]. exists rs, ps. repeat split; assumption.
Qed.

Lemma interface_ok s pd a b ks : kinks pd a b = Ok ks ->
  (forall kink, In kink ks -> fst kink <> [] /\ snd kink <> [] /\ forall f, In f (fst kink) \/ In f (snd kink) -> exists e, In e s /\ formula e = f) ->
  exists all, react_interface formula epa kinks balance a b s pd = Ok all /\ Forall2 (of_ground_states formula epa s balance) ks all.
Proof.
  intros E H. unfold react_interface. rewrite E. cbn [bind]. destruct (mapM_total (get_computed_rxn formula epa balance s) ks) as (all & Ea).
  - intros kink Hk. destruct (H kink Hk) as (H1 & H2 & H3). destruct (computed_ok s kink H1 H2 H3) as (x & Ex & _). exists x. exact Ex.
  - exists all. split; [exact Ea|]. apply mapM_Forall2 in Ea. clear E. revert all Ea. induction ks as [|kink ks IH]; intros all Ea; inversion Ea as [|? x ? xs Ex Exs]; subst; [constructor|].
    constructor; [|apply IH; [intros k' Hk'; apply H; right; exact Hk'|exact Exs]].
    destruct (H kink (or_introl eq_refl)) as (H1 & H2 & H3). destruct (computed_ok s kink H1 H2 H3) as (x' & Ex' & F). assert (x' = x) as <- by congruence. exact F.
Qed.

Lemma order_ends c : 1 <= length c <= 2 -> exists a b, ends c a b /\ In a c /\ In b c /\
  forall s pd p, gibbs_react formula epa kinks balance order c p (Some (s, pd)) = react_interface formula epa kinks balance a b s pd.
Proof.
  intros Hl. pose proof (Hord c) as Hp. pose proof (Permutation_length Hp) as Hl'. destruct c as [|x [|y [|z c]]]; cbn in Hl; try lia.
  - apply Permutation_sym, Permutation_length_1_inv in Hp. exists x, x. split; [left; split; reflexivity|]. split; [left; reflexivity|]. split; [left; reflexivity|].
    intros. unfold gibbs_react. rewrite Hp. reflexivity.
  - apply Permutation_sym, Permutation_length_2_inv in Hp as [Hp|Hp].
    + exists x, y. split; [right; left; reflexivity|]. split; [left; reflexivity|]. split; [right; left; reflexivity|]. intros. unfold gibbs_react. rewrite Hp. reflexivity.
    + exists y, x. split; [right; right; reflexivity|]. split; [right; left; reflexivity|]. split; [left; reflexivity|]. intros. unfold gibbs_react. rewrite Hp. reflexivity.
Qed.

Section Enum.
Variable o : options.
Variables entries pre tar op : list nat.
Hypothesis Hn : NoDup entries.
Hypothesis Hel : forall e, In e entries -> elems e <> [].
Hypothesis Hop : incl op entries.
Hypothesis Hch : o_changed o = true.
Hypothesis Hon : o_n o = 2.
Hypothesis Hgood : good_interfaces elems formula build kinks entries op.
Notation oe := (flat_map elems op).
Notation key c := (total_chemsys elems c oe).
Notation combos := (limited_powerset (minus entries op) (o_n o)).
Notation sub k := (filter (fun e => EnumModel.subset (elems e) k) entries).
Notation d := (combos_dict elems o entries pre tar op).
Notation keep c := (keep_chemsys o (map elems pre) (map elems tar) oe (key c)).

Lemma combos_iff c : In c combos <-> combination entries op c.
Proof.
  rewrite in_limited_powerset, Hon. unfold minus, combination. rewrite subseq_filter, Forall_forall.
  assert (E : (forall x, In x c -> negb (inb x op) = true) <-> forall x, In x c -> ~ In x op).
  { split; intros H x Hx; specialize (H x Hx); rewrite negb_true_iff, <- not_true_iff_false, inb_iff in *; exact H. }
  rewrite E. tauto.
Qed.

Lemma key_known c x : In c combos -> In x (key c) -> exists e, In e entries /\ In x (elems e).
Proof.
  intros Hc Hx. apply combos_iff in Hc as (Hs & _ & _). apply (proj2 (key_chemsys elems oe c)) in Hx as [(e & He & Hx)|Hx].
  - exists e. split; [exact (subseq_In _ _ _ Hs He)|exact Hx].
  - apply in_flat_map in Hx as (e & He & Hx). exists e. split; [apply Hop; exact He|exact Hx].
Qed.

Lemma diagram_ok c : In c combos -> exists pd, system_diagram elems build entries (key c) = Ok (sub (key c), pd) /\ build (sub (key c)) = Ok pd.
Proof.
  intros Hc. destruct (Hgood c (key c) (sub (key c))) as (pd & E & _); [apply combos_iff; exact Hc|apply key_chemsys|apply within_filter|].
  exists pd. split; [|exact E]. unfold system_diagram, get_subset.
  assert (S : EnumModel.subset (key c) (chem_sys elems entries) = true).
  { apply subset_subset. intros x Hx. apply chem_sys_In. apply (key_known c x Hc Hx). }
  rewrite S. cbn [bind]. rewrite E. reflexivity.
Qed.

Lemma dict_groups : NoDup (map fst d) /\ (forall k cs, In (k, cs) d -> cs = filter (fun c => list_eqb k (key c)) combos)
  /\ forall k, In k (map fst d) <-> (exists c, In c combos /\ k = key c) /\ keep_chemsys o (map elems pre) (map elems tar) oe k = true.
Proof.
  unfold combos_dict, filter_dict. destruct (group_spec elems oe combos) as (G1 & G2 & G3). set (g := group_by_chemsys elems combos oe) in *. split; [|split].
  - assert (H : forall f (l : list (list nat * list (list nat))), NoDup (map fst l) -> NoDup (map fst (filter f l))).
    { clear. intros f l. induction l as [|x l IH]; intros H; [constructor|]. inversion H as [|? ? N H']; subst. cbn. destruct (f x); [|apply IH; exact H'].
      constructor; [|apply IH; exact H']. intros I. apply N. apply in_map_iff in I as (y & Ey & I). apply filter_In in I as [I _]. apply in_map_iff. exists y. split; assumption. }
    apply H. exact G1.
  - intros k cs H. apply filter_In in H as [H _]. apply (G2 k cs H).
  - intros k. rewrite in_map_iff. split.
    + intros ([k' cs] & E & H). cbn in E. subst k'. apply filter_In in H as [H Hk]. split; [|exact Hk]. destruct (G2 k cs H) as [N E]. destruct cs as [|c cs]; [contradiction|].
      assert (I : In c (filter (fun c => list_eqb k (key c)) combos)) by (rewrite <- E; left; reflexivity). apply filter_In in I as [I J]. apply list_eqb_iff in J. exists c. split; assumption.
    + intros [(c & Hc & ->) Hk]. specialize (G3 c Hc). apply in_map_iff in G3 as ([k cs] & E & H). cbn in E. exists (k, cs). split; [exact E|]. apply filter_In. split; [exact H|]. cbn. rewrite E. exact Hk.
Qed.

Lemma diagrams_ok : exists ds, mapM (system_diagram elems build entries) (map fst d) = Ok ds.
Proof.
  apply mapM_total. intros k Hk. apply dict_groups in Hk as [(c & Hc & ->) _]. destruct (diagram_ok c Hc) as (pd & E & _). eexists. exact E.
Qed.

Lemma lookup_ok ds c : mapM (system_diagram elems build entries) (map fst d) = Ok ds -> In (key c) (map fst d) ->
  exists pd, lookup list_eqb (key c) (combine (map fst d) ds) = Some (sub (key c), pd) /\ build (sub (key c)) = Ok pd.
Proof.
  intros E Hk. pose proof E as F. apply mapM_Forall2 in F. pose proof Hk as Hk'. apply dict_groups in Hk' as [(c' & Hc' & Ek) _]. rewrite Ek in *. clear Ek c. rename c' into c.
  destruct (diagram_ok c Hc') as (pd & Es & Eb). exists pd. split; [|exact Eb].
  pose (dg := fun k => match system_diagram elems build entries k with Ok v => v | Err _ => (sub (key c), pd) end).
  assert (L : lookup list_eqb (key c) (combine (map fst d) ds) = Some (dg (key c))).
  { apply lookup_in; [intros; apply list_eqb_iff| |].
    - clear -F. set (ks := map fst d) in *. clearbody ks. induction F as [|k v ks ds Ev F IH]; [intros ? ? []|]. intros k' v' [H|H]; [|apply IH; exact H].
      inversion H; subst. unfold dg. rewrite Ev. reflexivity.
    - assert (map fst (combine (map fst d) ds) = map fst d) as ->; [|exact Hk]. clear -F. set (ks := map fst d) in *. clearbody ks. induction F; cbn; [reflexivity|f_equal; assumption]. }
  rewrite L. unfold dg. rewrite Es. reflexivity.
Qed.

Lemma keep_iff c : In c combos -> (keep c = true /\ consider o pre tar op c [] = true <-> searched elems o pre tar op c).
Proof.
  intros Hc. pose proof Hc as Hcomb. apply combos_iff in Hcomb as (Hsub & Hlen & Hdis).
  assert (Hne : c <> []) by (intros ->; cbn in Hlen; lia). assert (Hce : forall e, In e c -> elems e <> []) by (intros e He; apply Hel; exact (subseq_In _ _ _ Hsub He)).
  assert (Hkey : forall x, In x (key c) <-> (exists e, In e c /\ In x (elems e)) \/ exists e, In e op /\ In x (elems e)).
  { intros x. rewrite (proj2 (key_chemsys elems oe c)), in_flat_map. reflexivity. }
  assert (Hsys : system_b o (key c) = true <-> system_ok elems o oe c).
  { apply system_iff; assumption. }
  assert (Hcons : consider o pre tar op c [] = true <-> (pre = [] \/ ((exists e, In e c /\ In e pre) /\ (o_pfunc o = IsSuperset -> forall e, In e c -> In e pre)))).
  { unfold consider. rewrite app_nil_r. cbn [is_nil negb andb]. assert (M : meets c [] = false).
    { destruct (meets c []) eqn:M; [|reflexivity]. apply meets_iff in M as (x & _ & []). }
    rewrite M. cbn [orb]. rewrite orb_false_r, !andb_true_r, orb_false_r. unfold precursor_func. destruct pre as [|q pre']; [cbn; tauto|]. cbn [is_nil negb andb].
    rewrite negb_involutive, andb_true_iff, meets_iff, apply_func_iff. split.
    - intros [(e & He & Hec) Hf]. right. split; [exists e; split; assumption|]. intros F e' He'. rewrite F in Hf. specialize (Hf e' He'). apply in_app_iff in Hf as [Hf|Hf]; [exact Hf|]. destruct (Hdis e' He' Hf).
    - intros [H|[(e & Hec & He) Hs]]; [discriminate|]. split; [exists e; split; assumption|]. destruct (o_pfunc o).
      + intros e' He'. apply in_app_iff. left. apply Hs; [reflexivity|exact He'].
      + exists e. split; [apply in_app_iff; left; exact He|exact Hec]. }
  assert (Htar : negb (negb (is_nil (map elems tar)) && negb (apply_func (o_tfunc o) (concat (map elems tar) ++ oe) (key c))) = true <->
    (tar = [] \/ match o_tfunc o with
      | IsSuperset => forall x, (exists e, In e c /\ In x (elems e)) -> (exists e, In e tar /\ In x (elems e)) \/ (exists e, In e op /\ In x (elems e))
      | Intersection => exists x, ((exists e, In e c /\ In x (elems e)) \/ (exists e, In e op /\ In x (elems e))) /\ ((exists e, In e tar /\ In x (elems e)) \/ (exists e, In e op /\ In x (elems e)))
      end)).
  { destruct tar as [|q tar']; [cbn; tauto|]. set (tr := q :: tar'). change (is_nil (map elems tr)) with false. cbn [negb andb]. rewrite negb_involutive, apply_func_iff, <- flat_map_concat_map.
    assert (Hin : forall x, In x (flat_map elems tr ++ oe) <-> (exists e, In e tr /\ In x (elems e)) \/ exists e, In e op /\ In x (elems e)).
    { intros x. rewrite in_app_iff, !in_flat_map. reflexivity. }
    destruct (o_tfunc o).
    - split.
      + intros H. right. intros x Hx. apply Hin, H, Hkey. left. exact Hx.
      + intros [H|H]; [discriminate|]. intros x Hx. apply Hin. apply Hkey in Hx as [Hx|Hx]; [apply H; exact Hx|right; exact Hx].
    - split.
      + intros (x & H1 & H2). right. exists x. split; [apply Hkey; exact H2|apply Hin; exact H1].
      + intros [H|(x & H1 & H2)]; [discriminate|]. exists x. split; [apply Hin; exact H2|apply Hkey; exact H1]. }
  unfold searched. cbv zeta. rewrite <- Hsys, <- Hcons, <- Htar. unfold keep_chemsys. rewrite andb_true_iff. fold (system_b o (key c)).
  rewrite andb_true_iff. split; [tauto|]. intros (H1 & H2 & H3). split; [|exact H2]. split; [|exact H3]. split; [exact H1|].
  apply negb_true_iff. destruct (is_nil (map elems pre)) eqn:N; [reflexivity|]. cbn [negb andb]. apply negb_false_iff, apply_func_iff. rewrite <- flat_map_concat_map.
  apply Hcons in H2 as [->|[(e & He & Hpe) Hs]]; [discriminate N|]. destruct (o_pfunc o).
  - intros x Hx. apply in_app_iff. apply Hkey in Hx as [(e' & He' & Hx)|(e' & He' & Hx)]; [left|right]; apply in_flat_map; exists e'; (split; [|exact Hx]).
    + apply Hs; [reflexivity|exact He'].
    + exact He'.
  - destruct (elems e) as [|x xs] eqn:Ee; [destruct (Hce e He Ee)|]. exists x. split; [apply in_app_iff; left; apply in_flat_map; exists e; split; [exact Hpe|rewrite Ee; left; reflexivity]|].
    apply Hkey. left. exists e. split; [exact He|rewrite Ee; left; reflexivity].
Qed.

Variable see : X -> erxn.
Variable react : list nat -> list nat -> option (list nat * P) -> result (list X).
Hypothesis Hreact : forall c s pd, In c combos -> react c [] (Some (s, pd)) = gibbs_react formula epa kinks balance order c [] (Some (s, pd)).

Lemma react_ok c pd : In c combos -> build (sub (key c)) = Ok pd ->
  exists a b ks all, ends c a b /\ kinks pd a b = Ok ks /\ react c [] (Some (sub (key c), pd)) = Ok all /\ Forall2 (of_ground_states formula epa (sub (key c)) balance) ks all.
Proof.
  intros Hc Eb. rewrite (Hreact c _ _ Hc). pose proof Hc as Hcomb. apply combos_iff in Hcomb. destruct (order_ends c) as (a & b & He & Ha & Hb & Hg); [apply Hcomb|].
  destruct (Hgood c (key c) (sub (key c)) Hcomb (key_chemsys elems oe c) (within_filter _ _ _)) as (pd' & Eb' & Hk). assert (pd' = pd) as -> by congruence.
  destruct (Hk a b Ha Hb) as (ks & Ek & Hkinks). destruct (interface_ok (sub (key c)) pd a b ks Ek Hkinks) as (all & Ea & F).
  exists a, b, ks, all. split; [exact He|]. split; [exact Ek|]. rewrite Hg. split; assumption.
Qed.

(* The objects that are kept, whatever they are. *)
Lemma min_kept ds : mapM (system_diagram elems build entries) (map fst d) = Ok ds -> let dg := fun k => lookup list_eqb k (combine (map fst d) ds) in
  exists ys cs outs, cat (fun kp => keep_pair see react o pre tar op (dg (fst kp)) (snd kp)) (tagged (map (fun kv => (fst kv, minimize_iterable (snd kv) [])) d)) = Ok ys
  /\ NoDup cs /\ (forall c, In c cs <-> combination entries op c /\ searched elems o pre tar op c)
  /\ Forall2 (fun c rs => exists k s pd a b ks all,
       chemsys_of elems oe c k /\ within elems entries k s /\ build s = Ok pd
       /\ ends c a b /\ kinks pd a b = Ok ks /\ Forall2 (of_ground_states formula epa s balance) ks all
       /\ picks (fun x => sound_rxn o (see x) /\ EnumSpec.wanted o pre tar op (see x)) all rs) cs outs
  /\ Permutation ys (concat outs).
Proof.
  intros Ed dg.
  pose (all := fun c => match react c [] (dg (key c)) with Ok l => l | Err _ => [] end).
  pose (L := fun c => if consider o pre tar op c [] then filter (fun x => accept o pre tar op (see x)) (all c) else []).
  assert (Hd : forall c, In c combos -> keep c = true -> In (key c) (map fst d)).
  { intros c Hc Hk. apply dict_groups. split; [exists c; split; [exact Hc|reflexivity]|exact Hk]. }
  assert (Hr : forall c, In c combos -> keep c = true -> react c [] (dg (key c)) = Ok (all c)).
  { intros c Hc Hk. destruct (lookup_ok ds c Ed (Hd c Hc Hk)) as (pd & El & Eb). destruct (react_ok c pd Hc Eb) as (a & b & ks & al & _ & _ & Er & _).
    unfold all, dg. rewrite El, Er. reflexivity. }
  destruct dict_groups as (D1 & D2 & D3).
  assert (Hmem : forall kv c, In kv d -> In c (snd kv) -> In c combos /\ fst kv = key c /\ keep c = true).
  { intros [k cs] c Hkv Hc. cbn [fst snd] in *. rewrite (D2 k cs Hkv) in Hc. apply filter_In in Hc as [Hc E]. apply list_eqb_iff in E. split; [exact Hc|]. split; [exact E|].
    rewrite <- E. apply D3. apply in_map_iff. exists (k, cs). split; [reflexivity|exact Hkv]. }
  assert (Ecat : cat (fun kp => keep_pair see react o pre tar op (dg (fst kp)) (snd kp)) (tagged (map (fun kv => (fst kv, minimize_iterable (snd kv) [])) d))
                 = Ok (flat_map L (flat_map snd d))).
  { rewrite (cat_ok _ (fun kp => L (fst (snd kp)))).
    - f_equal. unfold tagged, minimize_iterable. clearbody L. generalize d. clear. intros dd. induction dd as [|kv dd IH]; [reflexivity|]. cbn [map flat_map fst snd]. rewrite !flat_map_app, IH. f_equal.
      rewrite !flat_map_concat_map, !map_map. reflexivity.
    - intros [k [r p]] Hin. unfold tagged in Hin. apply in_flat_map in Hin as (i & Hi & Hin). apply in_map_iff in Hi as (kv & <- & Hkv). cbn [fst snd] in Hin.
      apply in_map_iff in Hin as (rp & E & Hrp). inversion E; subst. unfold minimize_iterable in Hrp. apply in_map_iff in Hrp as (c & Ec & Hc). inversion Ec; subst r p. cbn [fst snd].
      destruct (Hmem kv c Hkv Hc) as (Hcc & Ek & Hk). rewrite Ek. unfold keep_pair, L. cbn [fst snd]. destruct (consider o pre tar op c []); [|reflexivity].
      rewrite (Hr c Hcc Hk). reflexivity. }
  set (AP := filter (fun c => keep c && consider o pre tar op c []) combos).
  assert (Hcn : NoDup combos) by (apply NoDup_limited_powerset, NoDup_filter; exact Hn).
  exists (flat_map L (flat_map snd d)), AP, (map (fun c => filter (fun x => accept o pre tar op (see x)) (all c)) AP). split; [exact Ecat|]. split; [apply NoDup_filter; exact Hcn|]. split; [|split].
  - intros c. unfold AP. rewrite filter_In, andb_true_iff. split.
    + intros [Hc Hk]. split; [apply combos_iff; exact Hc|apply keep_iff; assumption].
    + intros [Hc Hs]. apply combos_iff in Hc. split; [exact Hc|apply keep_iff; assumption].
  - assert (HAP : forall c, In c AP -> In c combos /\ keep c = true) by (intros c Hc; apply filter_In in Hc as [Hc Hk]; apply andb_true_iff in Hk as [Hk _]; split; assumption).
    clearbody AP. induction AP as [|c AP IH]; [constructor|]. cbn [map]. constructor; [|apply IH; intros c' Hc'; apply HAP; right; exact Hc'].
    destruct (HAP c (or_introl eq_refl)) as [Hc Hk]. destruct (lookup_ok ds c Ed (Hd c Hc Hk)) as (pd & El & Eb). destruct (react_ok c pd Hc Eb) as (a & b & ks & al & He & Ek & Er & F).
    exists (key c), (sub (key c)), pd, a, b, ks, al. split; [apply key_chemsys|]. split; [apply within_filter|]. split; [exact Eb|]. split; [exact He|]. split; [exact Ek|]. split; [exact F|].
    assert (all c = al) as -> by (unfold all, dg; rewrite El, Er; reflexivity). apply picks_filter. intros x _. apply accept_iff. exact Hch.
  - rewrite <- flat_map_concat_map. apply perm_flat.
    + apply NoDup_flat_map.
      * apply (NoDup_map_inv fst). exact D1.
      * intros [k cs] Hin. cbn. rewrite (D2 k cs Hin). apply NoDup_filter. exact Hcn.
      * intros [k cs] [k' cs'] c Hi Hi' Hc Hc'. destruct (Hmem _ c Hi Hc) as (_ & K & _). destruct (Hmem _ c Hi' Hc') as (_ & K' & _). cbn in K, K'. assert (k = k') as <- by congruence.
        rewrite (D2 k cs Hi), (D2 k cs' Hi'). reflexivity.
    + apply NoDup_filter. exact Hcn.
    + intros c Hc HL. apply in_flat_map in Hc as (kv & Hkv & Hc). destruct (Hmem kv c Hkv Hc) as (Hcc & _ & Hk). unfold L in *. destruct (consider o pre tar op c []) eqn:Ec; [|contradiction].
      split; [|reflexivity]. apply filter_In. split; [exact Hcc|]. rewrite Hk, Ec. reflexivity.
    + intros c Hc _. apply filter_In in Hc as [Hc Hk]. apply andb_true_iff in Hk as [Hk Ec]. split; [|unfold L; rewrite Ec; reflexivity].
      pose proof (Hd c Hc Hk) as Hin. apply in_map_iff in Hin as ([k cs] & E & Hin). cbn in E. apply in_flat_map. exists (k, cs). split; [exact Hin|]. cbn. rewrite (D2 k cs Hin). apply filter_In.
      split; [exact Hc|]. apply list_eqb_iff. exact E.
Qed.
End Enum.
End Min.

Section Seen.
Context {P : Type}.
Variables (elems : nat -> list nat) (formula : nat -> nat) (epa : nat -> Q).
Variable build : list nat -> result P.
Variable kinks : P -> nat -> nat -> result (list (list nat * list nat)).
Variable balance : list nat -> list nat -> result erxn.
Variable order : list nat -> list nat.
Hypothesis Hord : forall l, Permutation (order l) l.
Hypothesis Hbal : forall rs ps, rs <> [] -> ps <> [] -> exists x, balance rs ps = Ok x.
Theorem min_complete o entries pre tar op : NoDup entries -> (forall e, In e entries -> elems e <> []) -> incl op entries -> o_changed o = true -> o_n o = 2 ->
  good_interfaces elems formula build kinks entries op -> forall react,
  (forall c s pd, In c (limited_powerset (minus entries op) (o_n o)) -> react c [] (Some (s, pd)) = gibbs_react formula epa kinks balance order c [] (Some (s, pd))) ->
  forall wait, 1 <= o_chunk o -> 1 <= o_jobs o -> valid_schedule wait ->
  exists out, min_enumerate elems build react o entries pre tar op wait = Ok out
  /\ interface_reactions elems formula epa build kinks balance o entries pre tar op out.
Proof.
  intros Hn Hel Hop Hch Hon Hgood react Hreact wait H1 H2 Hw. unfold min_enumerate.
  destruct (diagrams_ok elems formula build kinks o entries pre tar op Hop Hon Hgood) as (ds & Ed). rewrite Ed. cbn [bind].
  set (dg := fun k => lookup list_eqb k (combine (map fst (combos_dict elems o entries pre tar op)) ds)).
  assert (Hlen : forall cs : list (list nat), minimize_iter_length cs [] = length (minimize_iterable cs [])) by (intros; unfold minimize_iterable; rewrite map_length; reflexivity).
  pose proof (enumerate_all elems minimize_iterable minimize_iter_length react dg o entries pre tar op [] wait H1 H2 Hw Hlen) as Hag.
  destruct (min_kept elems formula epa build kinks balance order Hord Hbal o entries pre tar op Hn Hel Hop Hch Hon Hgood (fun x => x) react Hreact ds Ed) as (ys & cs & outs & Ey & N & I & F & Pm).
  fold dg in Ey. change (cat (fun kp => react_pair react o pre tar op (dg (fst kp)) (snd kp)) (tagged (map (fun kv => (fst kv, minimize_iterable (snd kv) [])) (combos_dict elems o entries pre tar op))) = Ok ys) in Ey.
  rewrite Ey in Hag. destruct (enumerate_rxns _ _ _ _ _ _ _ _ _ _ _ _) as [out|] eqn:Eout; [|destruct Hag]. cbn [agree] in Hag. exists out. split; [reflexivity|].
  exists cs, outs. split; [exact N|]. split; [exact I|]. split; [exact F|]. eapply perm_trans; [exact Hag|exact Pm].
Qed.

(* MinimizeGibbsEnumerator *)
Theorem gibbs_complete o entries pre tar wait : NoDup entries -> (forall e, In e entries -> elems e <> []) -> o_changed o = true -> o_n o = 2 ->
  good_interfaces elems formula build kinks entries [] -> 1 <= o_chunk o -> 1 <= o_jobs o -> valid_schedule wait ->
  exists out, min_enumerate elems build (gibbs_react formula epa kinks balance order) o entries pre tar [] wait = Ok out
  /\ interface_reactions elems formula epa build kinks balance o entries pre tar [] out.
Proof.
  intros Hn Hel Hch Hon Hg H1 H2 Hw. apply min_complete; try assumption; [intros x []|]. reflexivity.
Qed.

(* MinimizeGrandPotentialEnumerator: the test for the open element never matters. *)
Theorem grand_complete open_elem o entries pre tar op wait : NoDup entries -> (forall e, In e entries -> elems e <> []) -> o_changed o = true -> o_n o = 2 ->
  incl op entries -> (forall e, In e entries -> elems e = [open_elem] -> In e op) ->
  good_interfaces elems formula build kinks entries op -> 1 <= o_chunk o -> 1 <= o_jobs o -> valid_schedule wait ->
  exists out, min_enumerate elems build (grand_react elems formula epa kinks balance order open_elem) o entries pre tar op wait = Ok out
  /\ interface_reactions elems formula epa build kinks balance o entries pre tar op out.
Proof.
  intros Hn Hel Hch Hon Hop Hoe Hg H1 H2 Hw. apply min_complete; try assumption. intros c s pd Hc. apply combos_iff in Hc as (Hs & _ & Hd); [|exact Hon].
  unfold grand_react, gibbs_react. assert (E : existsb (is_open_elem elems open_elem) (order c) = false).
  { destruct (existsb (is_open_elem elems open_elem) (order c)) eqn:E; [|reflexivity]. apply existsb_exists in E as (e & He & E).
    apply (Permutation_in _ (Hord c)) in He. exfalso. apply (Hd e He). apply Hoe; [exact (subseq_In _ _ _ Hs He)|]. unfold is_open_elem in E.
    destruct (elems e) as [|x [|y l]]; try discriminate. apply Nat.eqb_eq in E as ->. reflexivity. }
  rewrite E. destruct (order c) as [|r0 [|r1 l]]; reflexivity.
Qed.
End Seen.

(* One system that cannot be built stops the enumeration. *)
Theorem missing_diagram {P} elems (build : list nat -> result P) react o entries pre tar op wait c k s e :
  (forall e, In e entries -> elems e <> []) -> o_n o = 2 ->
  combination entries op c -> searched elems o pre tar op c -> chemsys_of elems (flat_map elems op) c k -> within elems entries k s -> build s = Err e ->
  exists e', min_enumerate elems build react o entries pre tar op wait = Err e'.
Proof.
  intros Hel Hon Hc Hs Hk Hw Eb. unfold min_enumerate. pose proof Hc as Hin. apply (combos_iff o entries op Hon) in Hin.
  apply chemsys_key in Hk. subst k. pose proof (picks_unique _ _ _ _ Hw (within_filter elems entries _)) as ->.
  apply (keep_iff elems o entries pre tar op Hel Hon c Hin) in Hs as [Hkeep _].
  assert (Hd : In (total_chemsys elems c (flat_map elems op)) (map fst (combos_dict elems o entries pre tar op))).
  { apply dict_groups. split; [exists c; split; [exact Hin|reflexivity]|exact Hkeep]. }
  destruct (get_subset elems entries (total_chemsys elems c (flat_map elems op))) as [s|e1] eqn:G.
  - destruct (mapM_fails (system_diagram elems build entries) _ _ e Hd) as (e' & E).
    + unfold system_diagram. rewrite G. cbn [bind]. unfold get_subset in G. destruct (EnumModel.subset _ _) in G; [|discriminate]. injection G as <-. rewrite Eb. reflexivity.
    + exists e'. rewrite E. reflexivity.
  - destruct (mapM_fails (system_diagram elems build entries) _ _ e1 Hd) as (e' & E).
    + unfold system_diagram. rewrite G. reflexivity.
    + exists e'. rewrite E. reflexivity.
Qed.

Lemma balance_seen_ok C ent solve rank rs ps : rs <> [] -> ps <> [] -> exists x, balance_seen C ent solve rank rs ps = Ok x.
Proof.
  intros Hr Hp. unfold balance_seen, real_balance, computed_balance. destruct (balance_coeffs C _ _ _ _) as [ks low]. rewrite !map_length.
  destruct rs as [|r rs]; [contradiction|]. destruct ps as [|p ps]; [contradiction|]. cbn [length]. rewrite <- plus_n_Sm. cbn [plus Nat.eqb bind]. eexists. reflexivity.
Qed.

Theorem grand_open_element {P} elems formula epa kinks (balance : list nat -> list nat -> result erxn) order open_elem reactants products entries (pd : P) e :
  (forall l, Permutation (order l) l) -> In e reactants -> elems e = [open_elem] ->
  grand_react elems formula epa kinks balance order open_elem reactants products (Some (entries, pd)) = Ok [].
Proof.
  intros Ho I E. unfold grand_react.
  assert (X : existsb (is_open_elem elems open_elem) (order reactants) = true).
  { apply existsb_exists. exists e. split; [apply (Permutation_in _ (Permutation_sym (Ho reactants))); exact I|]. unfold is_open_elem. rewrite E. apply Nat.eqb_refl. }
  rewrite X. destruct (order reactants); [discriminate|reflexivity].
Qed.
