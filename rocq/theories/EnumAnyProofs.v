(* Proofs about the basic enumerator with any setting of the flags: C31. *)
From Verif Require Import Prelude ListFacts UtilsModel UtilsSpec UtilsProofs RxnSetSpec RxnSetBaseProofs RxnSetParProofs EnumModel EnumSpec EnumProofs EnumOrderProofs EnumReactProofs
  EnumAnySpec.
Open Scope nat_scope.

Lemma accept_kept o pre tar op x : accept o pre tar op x = true <-> kept_rxn o x /\ wanted o pre tar op x.
Proof.
  unfold accept, precursor_func, target_func. rewrite !andb_true_iff, !option_met_iff, negb_true_iff, !orb_false_iff. unfold kept_rxn, wanted.
  rewrite Nat.ltb_ge.
  assert (Hu : forall a b, a && negb b = false <-> (a = true -> b = true)).
  { intros [|] [|]; simpl; split; intros; congruence || (exfalso; assert (false = true) by auto; discriminate) || reflexivity. }
  assert (He : match er_errors x with Some 0 => true | _ => false end = true <-> er_errors x = Some 0).
  { destruct (er_errors x) as [[|n]|]; split; congruence. }
  rewrite !Hu, He. tauto.
Qed.

Lemma allows_iff f s x : apply_func f s x = true <-> allows f (fun e => In e s) x.
Proof.
  rewrite apply_func_iff. destruct f; cbn; [reflexivity|]. split; intros (e & A & B); exists e; split; assumption.
Qed.
Lemma allows_same f (P P' : nat -> Prop) x : (forall e, P e <-> P' e) -> (allows f P x <-> allows f P' x).
Proof.
  intros H. destruct f; cbn; [split; intros G e He; apply H, G, He|]. split; intros (e & A & B); exists e; (split; [exact A|apply H; exact B]).
Qed.

Lemma side_iff (o : options) f given r p :
  (negb (negb (is_nil given) && negb (meets given (r ++ p)))
   && ((if is_nil given then true else apply_func f (given ++ []) r) || (if is_nil given then true else apply_func f (given ++ []) p)) = true)
  <-> one_side f given r p.
Proof.
  unfold one_side. destruct given as [|g gs].
  - cbn. split; intros; [left; reflexivity|reflexivity].
  - cbn [is_nil negb andb]. rewrite negb_involutive, andb_true_iff, orb_true_iff, app_nil_r, !allows_iff, meets_iff.
    assert (M : (exists x, In x (g :: gs) /\ In x (r ++ p)) <-> (exists e, In e (g :: gs) /\ (In e r \/ In e p))).
    { split; intros (e & A & B); exists e; (split; [exact A|]); apply in_app_iff; exact B. }
    rewrite M. split; [intros H; right; exact H|intros [H|H]; [discriminate|exact H]].
Qed.

Lemma consider_iff o pre tar r p : p <> [] ->
  (consider o pre tar [] r p = true <-> disjoint r p /\ one_side (o_pfunc o) pre r p /\ one_side (o_tfunc o) tar r p).
Proof.
  intros Hp. rewrite <- !(side_iff o). unfold consider, precursor_func, target_func.
  assert (Hn : is_nil p = false) by (destruct p; [contradiction|reflexivity]). rewrite Hn. cbn [negb andb].
  assert (D : disjoint r p <-> meets r p = false).
  { rewrite <- not_true_iff_false, meets_iff. split; [intros H (x & A & B); exact (H x A B)|intros H x A B; apply H; exists x; split; assumption]. }
  rewrite D, !andb_true_iff, !negb_true_iff, !orb_false_iff, !negb_false_iff. tauto.
Qed.

Lemma keep_iff (elems : nat -> list nat) o pre tar k :
  (keep_chemsys o (map elems pre) (map elems tar) [] k = true <->
   system_b o k = true
   /\ (pre = [] \/ allows (o_pfunc o) (fun z => exists g, In g pre /\ In z (elems g)) k)
   /\ (tar = [] \/ allows (o_tfunc o) (fun z => exists g, In g tar /\ In z (elems g)) k)).
Proof.
  assert (E : forall f given, negb (negb (is_nil (map elems given)) && negb (apply_func f (concat (map elems given) ++ []) k)) = true
              <-> given = [] \/ allows f (fun z => exists g, In g given /\ In z (elems g)) k).
  { intros f [|g gs]; [cbn; split; intros; [left; reflexivity|reflexivity]|]. cbn [map is_nil negb andb]. rewrite negb_involutive, app_nil_r, allows_iff.
    change (elems g :: map elems gs) with (map elems (g :: gs)). rewrite <- flat_map_concat_map.
    rewrite (allows_same f (fun e => In e (flat_map elems (g :: gs))) (fun z => exists g', In g' (g :: gs) /\ In z (elems g'))) by (intros e; apply in_flat_map).
    split; [intros H; right; exact H|intros [H|H]; [discriminate|exact H]]. }
  unfold keep_chemsys. fold (system_b o k). rewrite !andb_true_iff, !E. tauto.
Qed.

Theorem basic_any {D} elems o entries pre tar balance backward (diagram : list nat -> D) wait :
  NoDup entries -> (forall e, In e entries -> elems e <> []) ->
  1 <= o_chunk o -> 1 <= o_jobs o -> valid_schedule wait ->
  exists out, enumerate_rxns elems basic_iterable basic_iter_length (basic_react balance backward) diagram o
                entries pre tar [] [] wait = Ok out
  /\ all_kept o pre tar balance backward
       (fun r p => basic_pair entries (o_n o) r p /\ disjoint r p /\ system_ok elems o [] r
                   /\ one_system elems o pre tar r p /\ one_side (o_pfunc o) pre r p /\ one_side (o_tfunc o) tar r p) out.
Proof.
  intros Hn Hel H1 H2 Hw.
  pose proof (enumerate_all elems basic_iterable basic_iter_length (basic_react balance backward) diagram o entries pre tar [] [] wait H1 H2 Hw
                (fun cs => basic_iter_length_ok cs [])) as Hag.
  assert (Hnd : NoDup (limited_powerset entries (o_n o))) by (apply NoDup_limited_powerset; exact Hn).
  destruct (code_pairs elems o entries pre tar [] basic_iterable []) as [N1 I1].
  { intros k [r p]. rewrite !basic_iterable_in, subseq_filter. cbn [fst snd]. split.
    + intros [Hs Hf]. inversion Hf as [|? ? F1 Hf']; subst. inversion Hf' as [|? ? F2 _]; subst. apply list_eqb_iff in F1, F2. split; [exact Hs|]. split; congruence.
    + intros (Hs & K1 & K2). split; [exact Hs|]. constructor; [apply list_eqb_iff; congruence|]. constructor; [apply list_eqb_iff; congruence|constructor]. }
  { intros f. apply NoDup_basic_iterable. rewrite minus_nil. apply NoDup_filter. exact Hnd. }
  { intros r p Hin. apply basic_iterable_in in Hin. rewrite minus_nil in *. apply subseq_pair_in in Hin as [J1 J2]. rewrite !minus_nil. split; [exact J1|].
    apply in_limited_powerset in J1 as [U1 J1], J2 as [U2 J2]. split; [destruct r; simpl in *; [lia|discriminate]|]. split; [destruct p; simpl in *; [lia|discriminate]|].
    intros e He. apply Hel. destruct He as [He|He]; [exact (subseq_In _ _ _ U1 He)|exact (subseq_In _ _ _ U2 He)]. }
  set (d := combos_dict elems o entries pre tar []) in *. set (CP := flat_map (fun kv => basic_iterable (snd kv) []) d) in *.
  set (f := fun rp => if consider o pre tar [] (fst rp) (snd rp) then filter (accept o pre tar []) [balance (fst rp) (snd rp); backward (fst rp) (snd rp)] else []).
  assert (Ecat : cat (fun kp => react_pair (basic_react balance backward) o pre tar [] (diagram (fst kp)) (snd kp))
                   (tagged (map (fun kv => (fst kv, basic_iterable (snd kv) [])) d)) = Ok (flat_map f CP)).
  { assert (G : forall l, cat (fun kp : list nat * (list nat * list nat) => react_pair (basic_react balance backward) o pre tar [] (diagram (fst kp)) (snd kp)) l = Ok (flat_map f (map snd l))).
    { induction l as [|kp l IH]; [reflexivity|]. rewrite cat_cons, IH. cbn [map flat_map]. unfold react_pair at 1, basic_react, f at 2.
      destruct (consider o pre tar [] (fst (snd kp)) (snd (snd kp))); reflexivity. }
    rewrite G. do 2 f_equal. unfold CP, tagged. clear. induction d as [|kv d IH]; [reflexivity|]. cbn [map flat_map fst snd]. rewrite map_app, IH, map_map. cbn [snd].
    rewrite map_id. reflexivity. }
  rewrite Ecat in Hag. destruct (enumerate_rxns _ _ _ _ _ _ _ _ _ _ _ _) as [out|] eqn:Eout; [|destruct Hag]. simpl in Hag. exists out. split; [reflexivity|].
  set (AP := filter (fun rp => consider o pre tar [] (fst rp) (snd rp)) CP).
  exists AP, (map (fun rp => filter (accept o pre tar []) [balance (fst rp) (snd rp); backward (fst rp) (snd rp)]) AP).
  split; [apply NoDup_filter; exact N1|]. split; [|split].
  - intros r p. unfold AP. rewrite filter_In, I1. cbn [fst snd flat_map]. rewrite basic_iterable_in, minus_nil, basic_pair_iff by exact Hn.
    assert (Q : subseq [r; p] (limited_powerset entries (o_n o)) -> r <> [] /\ p <> [] /\ forall e, In e r -> elems e <> []).
    { intros H. apply basic_pair_iff in H as ([S1 L1] & [S2 L2] & _); [|exact Hn]. split; [intros ->; simpl in L1; lia|]. split; [intros ->; simpl in L2; lia|]. intros e He. apply Hel. exact (subseq_In _ _ _ S1 He). }
    split.
    + intros ((Hp & Hk & Hkeep) & Hc). destruct (Q Hp) as (Q1 & Q2 & Q3). apply consider_iff in Hc as (C1 & C2 & C3); [|exact Q2]. apply keep_iff in Hkeep as (K1 & K2 & K3).
      split; [exact Hp|]. split; [exact C1|]. split; [apply (system_iff elems o []); assumption|]. split; [|split; assumption].
      exists (total_chemsys elems r []). split; [apply key_chemsys|]. split; [rewrite Hk; apply key_chemsys|]. split; assumption.
    + intros (Hp & C1 & Hs & (k & K0 & K0' & K2 & K3) & C2 & C3). destruct (Q Hp) as (Q1 & Q2 & Q3). apply chemsys_key in K0, K0'. subst k.
      split; [|apply consider_iff; [exact Q2|]; split; [exact C1|]; split; assumption]. split; [exact Hp|]. split; [exact K0'|].
      apply keep_iff. split; [apply (system_iff elems o []); assumption|]. split; assumption.
  - clearbody AP. clear -AP. induction AP as [|rp AP IH]; [constructor|]. cbn [map]. constructor; [|exact IH]. apply picks_filter. intros x _. apply accept_kept.
  - eapply perm_trans; [exact Hag|]. rewrite <- flat_map_concat_map. unfold AP. clearbody CP. clear. induction CP as [|rp CP IH]; [constructor|]. cbn [flat_map filter]. unfold f at 1.
    destruct (consider o pre tar [] (fst rp) (snd rp)); [cbn [flat_map]; apply Permutation_app_head; exact IH|exact IH].
Qed.
