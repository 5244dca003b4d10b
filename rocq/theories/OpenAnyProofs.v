(* Proofs about the open enumerator with any setting of the flags: C70. *)
From Verif Require Import Prelude ListFacts UtilsModel UtilsSpec UtilsProofs RxnSetSpec RxnSetBaseProofs RxnSetParProofs EnumModel EnumSpec EnumProofs EnumOrderProofs EnumReactProofs
  EnumAnySpec EnumAnyProofs OpenAnySpec.
Open Scope nat_scope.

Lemma open_side_iff f given op r p :
  (negb (negb (is_nil given) && negb (meets given (r ++ p)))
   && ((if is_nil given then true else apply_func f (given ++ op) r) || (if is_nil given then true else apply_func f (given ++ op) p)) = true)
  <-> one_open_side f given op r p.
Proof.
  unfold one_open_side. destruct given as [|g gs].
  - cbn. split; intros; [left; reflexivity|reflexivity].
  - cbn [is_nil negb andb]. rewrite negb_involutive, andb_true_iff, orb_true_iff, !allows_iff, meets_iff.
    rewrite !(allows_same f (fun e => In e ((g :: gs) ++ op)) (fun e => In e (g :: gs) \/ In e op)) by (intros e; apply in_app_iff).
    assert (M : (exists x, In x (g :: gs) /\ In x (r ++ p)) <-> (exists e, In e (g :: gs) /\ (In e r \/ In e p))).
    { split; intros (e & A & B); exists e; (split; [exact A|]); apply in_app_iff; exact B. }
    rewrite M. split; [intros H; right; exact H|intros [H|H]; [discriminate|exact H]].
Qed.

Lemma consider_open o pre tar op r p : p <> [] ->
  (consider o pre tar op r p = true <-> disjoint r p /\ one_open_side (o_pfunc o) pre op r p /\ one_open_side (o_tfunc o) tar op r p).
Proof.
  intros Hp. rewrite <- !open_side_iff. unfold consider, precursor_func, target_func.
  assert (Hn : is_nil p = false) by (destruct p; [contradiction|reflexivity]). rewrite Hn. cbn [negb andb].
  assert (D : disjoint r p <-> meets r p = false).
  { rewrite <- not_true_iff_false, meets_iff. split; [intros H (x & A & B); exact (H x A B)|intros H x A B; apply H; exists x; split; assumption]. }
  rewrite D, !andb_true_iff, !negb_true_iff, !orb_false_iff, !negb_false_iff. tauto.
Qed.

Lemma keep_open (elems : nat -> list nat) o pre tar op k :
  (keep_chemsys o (map elems pre) (map elems tar) (flat_map elems op) k = true <->
   system_b o k = true
   /\ (pre = [] \/ allows (o_pfunc o) (fun z => (exists g, In g pre /\ In z (elems g)) \/ (exists g, In g op /\ In z (elems g))) k)
   /\ (tar = [] \/ allows (o_tfunc o) (fun z => (exists g, In g tar /\ In z (elems g)) \/ (exists g, In g op /\ In z (elems g))) k)).
Proof.
  assert (E : forall f given, negb (negb (is_nil (map elems given)) && negb (apply_func f (concat (map elems given) ++ flat_map elems op) k)) = true
              <-> given = [] \/ allows f (fun z => (exists g, In g given /\ In z (elems g)) \/ (exists g, In g op /\ In z (elems g))) k).
  { intros f [|g gs]; [cbn; split; intros; [left; reflexivity|reflexivity]|]. cbn [map is_nil negb andb]. rewrite negb_involutive, allows_iff.
    change (elems g :: map elems gs) with (map elems (g :: gs)). rewrite <- flat_map_concat_map.
    rewrite (allows_same f (fun e => In e (flat_map elems (g :: gs) ++ flat_map elems op)) (fun z => (exists g', In g' (g :: gs) /\ In z (elems g')) \/ (exists g', In g' op /\ In z (elems g'))))
      by (intros e; rewrite in_app_iff, !in_flat_map; reflexivity).
    split; [intros H; right; exact H|intros [H|H]; [discriminate|exact H]]. }
  unfold keep_chemsys. fold (system_b o k). rewrite !andb_true_iff, !E. tauto.
Qed.

Section Any.
Variable elems : nat -> list nat.
Variable o : options.
Variables entries pre tar op : list nat.
Variables balance backward : list nat -> list nat -> erxn.
Variable iterable : list (list nat) -> list (list nat) -> list (list nat * list nat).
Variable iter_length : list (list nat) -> list (list nat) -> nat.
Variable opens : list (list nat).
Notation oe := (flat_map elems op).
Notation key c := (total_chemsys elems c oe).
Notation combos := (limited_powerset (minus entries op) (o_n o)).
Hypothesis Hlen : forall cs, iter_length cs opens = length (iterable cs opens).
Hypothesis Hit : forall k rp, In rp (iterable (filter (fun c => list_eqb k (key c)) combos) opens) <->
  In rp (iterable combos opens) /\ key (fst rp) = k /\ key (snd rp) = k.
Hypothesis Hnd : forall f, NoDup (iterable (filter f combos) opens).
Hypothesis Hside : forall r p, In (r, p) (iterable combos opens) -> In r combos /\ minus r op <> [] /\ minus p op <> []
  /\ (forall e, In e r \/ In e p -> elems e <> []).

Theorem enumerate_any {D} (diagram : list nat -> D) wait : 1 <= o_chunk o -> 1 <= o_jobs o -> valid_schedule wait ->
  exists out, enumerate_rxns elems iterable iter_length (basic_react balance backward) diagram o entries pre tar op opens wait = Ok out
  /\ all_open_kept o pre tar op balance backward
       (fun r p => In (r, p) (iterable combos opens) /\ disjoint r p /\ system_ok elems o oe r
                   /\ one_open_system elems o pre tar op r p /\ one_open_side (o_pfunc o) pre op r p /\ one_open_side (o_tfunc o) tar op r p) out.
Proof.
  intros H1 H2 Hw.
  pose proof (enumerate_all elems iterable iter_length (basic_react balance backward) diagram o entries pre tar op opens wait H1 H2 Hw Hlen) as Hag.
  destruct (code_pairs elems o entries pre tar op iterable opens Hit Hnd Hside) as [N1 I1].
  set (d := combos_dict elems o entries pre tar op) in *. set (CP := flat_map (fun kv => iterable (snd kv) opens) d) in *.
  set (f := fun rp => if consider o pre tar op (fst rp) (snd rp) then filter (accept o pre tar op) [balance (fst rp) (snd rp); backward (fst rp) (snd rp)] else []).
  assert (Ecat : cat (fun kp => react_pair (basic_react balance backward) o pre tar op (diagram (fst kp)) (snd kp))
                   (tagged (map (fun kv => (fst kv, iterable (snd kv) opens)) d)) = Ok (flat_map f CP)).
  { assert (G : forall l, cat (fun kp : list nat * (list nat * list nat) => react_pair (basic_react balance backward) o pre tar op (diagram (fst kp)) (snd kp)) l = Ok (flat_map f (map snd l))).
    { induction l as [|kp l IH]; [reflexivity|]. rewrite cat_cons, IH. cbn [map flat_map]. unfold react_pair at 1, basic_react, f at 2.
      destruct (consider o pre tar op (fst (snd kp)) (snd (snd kp))); reflexivity. }
    rewrite G. do 2 f_equal. unfold CP, tagged. clear. induction d as [|kv d IH]; [reflexivity|]. cbn [map flat_map fst snd]. rewrite map_app, IH, map_map. cbn [snd].
    rewrite map_id. reflexivity. }
  rewrite Ecat in Hag. destruct (enumerate_rxns _ _ _ _ _ _ _ _ _ _ _ _) as [out|] eqn:Eout; [|destruct Hag]. simpl in Hag. exists out. split; [reflexivity|].
  set (AP := filter (fun rp => consider o pre tar op (fst rp) (snd rp)) CP).
  exists AP, (map (fun rp => filter (accept o pre tar op) [balance (fst rp) (snd rp); backward (fst rp) (snd rp)]) AP).
  split; [apply NoDup_filter; exact N1|]. split; [|split].
  - intros r p. unfold AP. rewrite filter_In, I1. cbn [fst snd].
    assert (Q : In (r, p) (iterable combos opens) -> r <> [] /\ p <> [] /\ forall e, In e r -> elems e <> []).
    { intros H. destruct (Hside r p H) as (_ & S1 & S2 & S3). split; [intros ->; apply S1; reflexivity|]. split; [intros ->; apply S2; reflexivity|]. intros e He. apply S3. left. exact He. }
    split.
    + intros ((Hp & Hk & Hkeep) & Hc). destruct (Q Hp) as (Q1 & Q2 & Q3). apply consider_open in Hc as (C1 & C2 & C3); [|exact Q2]. apply keep_open in Hkeep as (K1 & K2 & K3).
      split; [exact Hp|]. split; [exact C1|]. split; [apply (system_iff elems o op); assumption|]. split; [|split; assumption].
      exists (key r). split; [apply key_chemsys|]. split; [rewrite Hk; apply key_chemsys|]. split; assumption.
    + intros (Hp & C1 & Hs & (k & K0 & K0' & K2 & K3) & C2 & C3). destruct (Q Hp) as (Q1 & Q2 & Q3). apply chemsys_key in K0, K0'. subst k.
      split; [|apply consider_open; [exact Q2|]; split; [exact C1|]; split; assumption]. split; [exact Hp|]. split; [exact K0'|].
      apply keep_open. split; [apply (system_iff elems o op); assumption|]. split; assumption.
  - clearbody AP. clear -AP. induction AP as [|rp AP IH]; [constructor|]. cbn [map]. constructor; [|exact IH]. apply picks_filter. intros x _. apply accept_kept.
  - eapply perm_trans; [exact Hag|]. rewrite <- flat_map_concat_map. unfold AP. clearbody CP. clear. induction CP as [|rp CP IH]; [constructor|]. cbn [flat_map filter]. unfold f at 1.
    destruct (consider o pre tar op (fst rp) (snd rp)); [cbn [flat_map]; apply Permutation_app_head; exact IH|exact IH].
Qed.
End Any.

Lemma all_open_kept_kind o pre tar op balance backward K K' out : (forall r p, K r p <-> K' r p) ->
  all_open_kept o pre tar op balance backward K out -> all_open_kept o pre tar op balance backward K' out.
Proof.
  intros H (pairs & outs & H1 & H2 & H3). exists pairs, outs. split; [exact H1|]. split; [|exact H3]. intros r p. rewrite H2. apply H.
Qed.

Theorem open_any {D} elems o entries pre tar op balance backward (diagram : list nat -> D) wait :
  NoDup entries -> NoDup op -> (forall e, In e entries \/ In e op -> elems e <> []) ->
  1 <= o_chunk o -> 1 <= o_jobs o -> valid_schedule wait ->
  exists out, enumerate_rxns elems open_iterable open_iter_length (basic_react balance backward) diagram o
                entries pre tar op (open_combos op) wait = Ok out
  /\ all_open_kept o pre tar op balance backward
       (fun r p => (exists solids, NoDup solids /\ (forall e, In e solids <-> In e entries /\ ~ In e op) /\ subseq solids entries
                                   /\ open_pair solids op (o_n o) r p)
                   /\ disjoint r p /\ system_ok elems o (flat_map elems op) r
                   /\ one_open_system elems o pre tar op r p /\ one_open_side (o_pfunc o) pre op r p /\ one_open_side (o_tfunc o) tar op r p) out.
Proof.
  intros Hn Hno Hel H1 H2 Hw.
  assert (Hnm : NoDup (minus entries op)) by (apply NoDup_filter; exact Hn).
  assert (Hnd : NoDup (limited_powerset (minus entries op) (o_n o))) by (apply NoDup_limited_powerset; exact Hnm).
  assert (Hop : forall oc, In oc (open_combos op) <-> subseq oc op /\ oc <> []).
  { intros oc. unfold open_combos. rewrite in_limited_powerset. split.
    - intros [Hs Hl]. split; [exact Hs|]. intros ->. simpl in Hl. lia.
    - intros [Hs Hne]. split; [exact Hs|]. pose proof (subseq_length _ _ Hs). destruct oc; [contradiction|]. simpl in *. lia. }
  assert (Hsol : forall c, In c (limited_powerset (minus entries op) (o_n o)) -> c <> [] /\ disjoint c op).
  { intros c Hc. apply in_limited_powerset in Hc as [Hs Hl]. split; [destruct c; [simpl in Hl; lia|discriminate]|]. intros x Hx Ho.
    apply (subseq_In _ _ _ Hs), minus_in in Hx as [_ Hx]. contradiction. }
  assert (Hmc : forall c, disjoint c op -> minus c op = c).
  { intros c Hd. apply filter_disjoint. intros x Hx Hc. exact (Hd x Hc Hx). }
  assert (Hkey : forall c oc, (forall x, In x oc -> In x op) -> total_chemsys elems (c ++ oc) (flat_map elems op) = total_chemsys elems c (flat_map elems op)).
  { intros c oc Hoc. apply chemsys_key. destruct (key_chemsys elems (flat_map elems op) (c ++ oc)) as [A B]. split; [exact A|]. intros x. rewrite B. split.
    - intros [(e & He & Hx)|Hx]; [|right; exact Hx]. apply in_app_iff in He as [He|He]; [left; exists e; split; assumption|]. right. apply in_flat_map. exists e. split; [apply Hoc; exact He|exact Hx].
    - intros [(e & He & Hx)|Hx]; [|right; exact Hx]. left. exists e. split; [apply in_app_iff; left; exact He|exact Hx]. }
  assert (Hsub : forall oc, In oc (open_combos op) -> forall x, In x oc -> In x op).
  { intros oc Hoc x Hx. apply Hop in Hoc as [Hs _]. exact (subseq_In _ _ _ Hs Hx). }
  destruct (enumerate_any elems o entries pre tar op balance backward open_iterable open_iter_length (open_combos op)
              (fun cs => open_iter_length_ok cs _)) with (diagram := diagram) (wait := wait) as (out & E & H).
  - intros k [r p]. rewrite !open_iterable_in. cbn [fst snd]. split.
    + intros (Hrr & c & oc & Hc & Hoc & Hd & ->). apply filter_In in Hrr as [Hrr K1], Hc as [Hc K2]. apply list_eqb_iff in K1, K2.
      split; [split; [exact Hrr|]; exists c, oc; split; [exact Hc|]; split; [exact Hoc|]; split; [exact Hd|reflexivity]|].
      rewrite Hkey by exact (Hsub oc Hoc). split; congruence.
    + intros ((Hrr & c & oc & Hc & Hoc & Hd & ->) & K1 & K2). rewrite Hkey in K2 by exact (Hsub oc Hoc).
      split; [apply filter_In; split; [exact Hrr|apply list_eqb_iff; congruence]|]. exists c, oc. split; [apply filter_In; split; [exact Hc|apply list_eqb_iff; congruence]|].
      split; [exact Hoc|]. split; [exact Hd|reflexivity].
  - intros f. apply (NoDup_open_iterable _ _ op).
    + apply NoDup_filter. exact Hnd.
    + apply NoDup_limited_powerset. exact Hno.
    + intros c Hc. apply filter_In in Hc as [Hc _]. apply Hsol. exact Hc.
    + exact Hsub.
  - intros r p Hin. apply open_iterable_in in Hin as (Hrr & c & oc & Hc & Hoc & Hd & ->). split; [exact Hrr|].
    destruct (Hsol r Hrr) as [Hr1 Hr2]. destruct (Hsol c Hc) as [Hc1 Hc2]. rewrite (Hmc r Hr2). split; [exact Hr1|]. split.
    + unfold minus. rewrite filter_app. change (filter (fun x => negb (inb x op)) c) with (minus c op). rewrite (Hmc c Hc2). intros E. apply app_eq_nil in E as [E _]. contradiction.
    + assert (U : forall l, In l (limited_powerset (minus entries op) (o_n o)) -> forall e, In e l -> In e entries).
      { intros l Hl e He. apply in_limited_powerset in Hl as [Hl _]. apply (subseq_In _ _ _ Hl), minus_in in He as [He _]. exact He. }
      intros e [He|He]; [apply Hel; left; exact (U r Hrr e He)|]. apply in_app_iff in He as [He|He]; [apply Hel; left; exact (U c Hc e He)|].
      apply Hel. right. exact (Hsub oc Hoc e He).
  - exact H1.
  - exact H2.
  - exact Hw.
  - exists out. split; [exact E|]. eapply all_open_kept_kind; [|exact H]. intros r p. cbn beta. rewrite open_iterable_in. split.
    + intros ((Hrr & c & oc & Hc & Hoc & Hd & ->) & Hrest). split; [|exact Hrest]. exists (minus entries op). split; [exact Hnm|]. split; [intros e; apply minus_in|].
      split; [apply (subseq_filter (fun x => negb (inb x op)) (minus entries op) entries), subseq_refl|]. exists c, oc. split; [apply combo_iff; exact Hrr|]. split; [apply combo_iff; exact Hc|]. split; [reflexivity|]. apply Hop. exact Hoc.
    + intros ((solids & N1 & N2 & N3 & c & oc & Hrr & Hc & -> & Hoc) & Hrest). split; [|exact Hrest].
      assert (solids = minus entries op) as ->.
      { clear -N2 N3 Hn. assert (G : forall s l, subseq s l -> NoDup l -> s = filter (fun x => inb x s) l).
        { induction 1 as [|x s l Hs IH|x s l Hs IH]; intros Hl; [reflexivity| |]; inversion Hl as [|? ? Hx Hl']; subst; simpl.
          - replace (inb x s) with false; [apply IH; exact Hl'|]. symmetry. apply not_true_iff_false. rewrite inb_iff. intros Hin. apply Hx. exact (subseq_In _ _ _ Hs Hin).
          - rewrite Nat.eqb_refl. cbn [orb]. f_equal. rewrite (IH Hl') at 1. apply filter_ext_in. intros y Hy.
            replace (Nat.eqb y x) with false; [reflexivity|]. symmetry. apply Nat.eqb_neq. intros ->. contradiction. }
        rewrite (G _ _ N3 Hn). unfold minus. apply filter_ext_in. intros x Hx. apply eq_true_iff_eq. rewrite inb_iff, N2, negb_true_iff, <- not_true_iff_false, inb_iff. tauto. }
      apply combo_iff in Hrr. apply combo_iff in Hc.
      split; [exact Hrr|]. exists c, oc. split; [exact Hc|]. split; [apply Hop; exact Hoc|]. split; [|reflexivity].
      destruct (Hsol c Hc) as [_ Hd]. intros x Hx Hx'. apply (Hd x Hx). destruct Hoc as [Hs _]. exact (subseq_In _ _ _ Hs Hx').
Qed.
