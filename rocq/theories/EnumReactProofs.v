(* Proofs about the reactions found by the enumerators: C31 and C70. *)
From Verif Require Import Prelude ListFacts UtilsModel UtilsSpec UtilsProofs RxnSetSpec RxnSetBaseProofs RxnSetParProofs EnumModel EnumSpec EnumProofs EnumOrderProofs.
Open Scope nat_scope.

(* --- the jobs do all the work, each piece once --- *)
Lemma bind_concat {A B} (f : A -> result (list B)) l : bind (mapM f l) (fun ls => Ok (concat ls)) = cat f l.
Proof. reflexivity. Qed.

Lemma react_chunk_cat {T} (react : list nat -> list nat -> T -> result (list erxn)) o pre tar op chunk :
  react_chunk react o pre tar op chunk = cat (fun tp => react_pair react o pre tar op (fst tp) (snd tp)) (contents chunk).
Proof.
  unfold react_chunk, contents. rewrite flat_map_concat_map, cat_concat, cat_map, bind_concat. apply cat_ext. intros [l t] _. simpl.
  rewrite bind_concat, cat_map. reflexivity.
Qed.

Lemma agree_sym_trans {B} (x y z : result (list B)) : agree (@Permutation B) x y -> y = z -> agree (@Permutation B) x z.
Proof. intros H <-. exact H. Qed.

Section Jobs.
Context {D : Type}.
Variable elems : nat -> list nat.
Variable iterable : list (list nat) -> list (list nat) -> list (list nat * list nat).
Variable iter_length : list (list nat) -> list (list nat) -> nat.
Variable react : list nat -> list nat -> D -> result (list erxn).
Variable diagram : list nat -> D.

Lemma total_tagged opens (d : list (list nat * list (list nat))) : (forall cs, iter_length cs opens = length (iterable cs opens)) ->
  fold_right (fun kv n => iter_length (snd kv) opens + n) 0 d = length (tagged (map (fun kv => (diagram (fst kv), iterable (snd kv) opens)) d)).
Proof.
  intros H. induction d as [|kv d IH]; [reflexivity|]. simpl. rewrite app_length, map_length, H, IH. reflexivity.
Qed.

Theorem enumerate_all o entries pre tar op opens wait : 1 <= o_chunk o -> 1 <= o_jobs o -> valid_schedule wait ->
  (forall cs, iter_length cs opens = length (iterable cs opens)) ->
  agree (@Permutation erxn) (enumerate_rxns elems iterable iter_length react diagram o entries pre tar op opens wait)
    (cat (fun kp => react_pair react o pre tar op (diagram (fst kp)) (snd kp))
         (tagged (map (fun kv => (fst kv, iterable (snd kv) opens)) (combos_dict elems o entries pre tar op)))).
Proof.
  intros H1 H2 Hw Hlen. unfold enumerate_rxns. set (d := combos_dict elems o entries pre tar op).
  rewrite (total_tagged opens d Hlen). set (items := map (fun kv => (diagram (fst kv), iterable (snd kv) opens)) d).
  destruct (jobs_spec (o_chunk o) (o_jobs o) items H1 H2) as (jobs & size & E & Ec & _). rewrite E. cbn [bind].
  destruct (to_iterator_spec wait (react_chunk react o pre tar op) jobs Hw) as [(out & Eo & _ & Hp) _]. rewrite Eo. cbn [bind].
  rewrite bind_concat.
  eapply agree_sym_trans; [apply (cat_perm (fun r => r) _ _ Hp)|]. rewrite cat_map.
  transitivity (cat (cat (fun tp => react_pair react o pre tar op (fst tp) (snd tp))) (map contents jobs)).
  { rewrite cat_map. apply cat_ext. intros chunk _. apply react_chunk_cat. }
  rewrite <- cat_concat, Ec. unfold items, tagged. rewrite !flat_map_concat_map, !cat_concat, !map_map, !cat_map. apply cat_ext.
  intros kv _. simpl. rewrite !cat_map. reflexivity.
Qed.
End Jobs.

(* --- membership in the lists of pairs --- *)
Lemma inb_iff x l : inb x l = true <-> In x l.
Proof. unfold inb, memb. rewrite existsb_exists. split; [intros (y & Hy & E); apply Nat.eqb_eq in E as ->; exact Hy|intros H; exists x; split; [exact H|apply Nat.eqb_refl]]. Qed.
Lemma subset_iff a b : subset a b = true <-> forall x, In x a -> In x b.
Proof. unfold subset. rewrite forallb_forall. split; intros H x Hx; [apply inb_iff|apply inb_iff]; auto. Qed.
Lemma meets_iff a b : meets a b = true <-> exists x, In x a /\ In x b.
Proof. unfold meets. rewrite existsb_exists. split; intros (x & Hx & Hb); exists x; (split; [exact Hx|]); apply inb_iff; exact Hb. Qed.
Lemma minus_in x a b : In x (minus a b) <-> In x a /\ ~ In x b.
Proof. unfold minus. rewrite filter_In, negb_true_iff, <- not_true_iff_false, inb_iff. reflexivity. Qed.
Lemma minus_nil a : minus a [] = a.
Proof. unfold minus. apply filter_all. intros x _. reflexivity. Qed.
Lemma is_nil_iff {A} (l : list A) : is_nil l = true <-> l = [].
Proof. destruct l; simpl; split; congruence. Qed.

Lemma basic_iterable_in cs opens r p : In (r, p) (basic_iterable cs opens) <-> subseq [r; p] cs.
Proof.
  unfold basic_iterable. rewrite in_flat_map. split.
  - intros (c & Hc & Hin). apply in_combinations in Hc as [Hs Hl]. destruct c as [|a [|b [|? ?]]]; simpl in Hin; try contradiction.
    destruct Hin as [H|[]]. injection H as <- <-. exact Hs.
  - intros Hs. exists [r; p]. split; [apply in_combinations; split; [exact Hs|reflexivity]|left; reflexivity].
Qed.

Lemma NoDup_flat_map {A B} (f : A -> list B) l : NoDup l -> (forall x, In x l -> NoDup (f x)) ->
  (forall x y b, In x l -> In y l -> In b (f x) -> In b (f y) -> x = y) -> NoDup (flat_map f l).
Proof.
  induction 1 as [|x l Hx Hn IH]; intros H1 H2; simpl; [constructor|]. apply NoDup_app_intro.
  - apply H1. left. reflexivity.
  - apply IH; [intros y Hy; apply H1; right; exact Hy|]. intros y z b Hy Hz. apply H2; right; assumption.
  - intros b Hb Hb'. apply in_flat_map in Hb' as (y & Hy & Hb'). apply Hx. rewrite (H2 x y b); [exact Hy|left; reflexivity|right; exact Hy|exact Hb|exact Hb'].
Qed.

Lemma NoDup_basic_iterable cs opens : NoDup cs -> NoDup (basic_iterable cs opens).
Proof.
  intros H. unfold basic_iterable. apply NoDup_flat_map.
  - apply NoDup_combinations. exact H.
  - intros c _. destruct (as_pair c); repeat constructor. intros [].
  - intros c c' rp _ _ H1 H2. destruct c as [|a [|b [|? ?]]]; simpl in H1; try contradiction. destruct c' as [|a' [|b' [|? ?]]]; simpl in H2; try contradiction.
    destruct H1 as [<-|[]]. destruct H2 as [H2|[]]. congruence.
Qed.

Lemma pascal {A} (l : list A) : length (combinations l 1) = length l.
Proof. induction l as [|x l IH]; [reflexivity|]. simpl. rewrite app_length, map_length, IH. destruct l; reflexivity. Qed.
Lemma basic_iter_length_ok cs opens : basic_iter_length cs opens = length (basic_iterable cs opens).
Proof.
  assert (E : length (basic_iterable cs opens) = length (combinations cs 2)).
  { unfold basic_iterable. assert (H : forall c, In c (combinations cs 2) -> length c = 2) by (intros c Hc; apply in_combinations in Hc as [_ Hc]; exact Hc).
    revert H. generalize (combinations cs 2). intros l H. induction l as [|c l IH]; [reflexivity|]. simpl. rewrite app_length, IH by (intros; apply H; right; assumption).
    specialize (H c (or_introl eq_refl)). destruct c as [|a [|b [|? ?]]]; try discriminate. reflexivity. }
  unfold basic_iter_length. rewrite E. assert (H : length cs * (length cs - 1) = length (combinations cs 2) * 2).
  { clear E. induction cs as [|c cs IH]; [reflexivity|].
    change (combinations (c :: cs) 2) with (map (cons c) (combinations cs 1) ++ combinations cs 2). rewrite app_length, map_length, pascal. simpl length.
    rewrite Nat.mul_add_distr_r, <- IH. destruct (length cs) as [|m]; [reflexivity|]. simpl. rewrite Nat.sub_0_r. lia. }
  rewrite H. apply Nat.div_mul. discriminate.
Qed.

Lemma subseq_filter {A} (f : A -> bool) s l : subseq s (filter f l) <-> subseq s l /\ Forall (fun x => f x = true) s.
Proof.
  split.
  - revert s. induction l as [|x l IH]; intros s H; simpl in H; [inversion H; subst; split; constructor|]. destruct (f x) eqn:E.
    + inversion H as [|? ? ? H'|? s' ? H']; subst.
      * destruct (IH _ H') as [A1 A2]. split; [constructor; exact A1|exact A2].
      * destruct (IH _ H') as [A1 A2]. split; [constructor; exact A1|constructor; assumption].
    + destruct (IH _ H) as [A1 A2]. split; [constructor; exact A1|exact A2].
  - intros [Hs Hf]. induction Hs as [|x s l Hs IH|x s l Hs IH]; simpl; [constructor| |].
    + destruct (f x); [constructor|]; apply IH; exact Hf.
    + inversion Hf as [|? ? Hx Hf']; subst. rewrite Hx. apply subseq_take. apply IH. exact Hf'.
Qed.

Lemma filter_none {A} (f : A -> bool) l : (forall x, In x l -> f x = false) -> filter f l = [].
Proof. induction l as [|x l IH]; intros H; [reflexivity|]. simpl. rewrite (H x (or_introl eq_refl)). apply IH. intros y Hy. apply H. right. exact Hy. Qed.

Lemma filter_disjoint (oc : list nat) c : (forall x, In x c -> ~ In x oc) -> minus oc c = oc.
Proof. intros H. unfold minus. apply filter_all. intros x Hx. apply negb_true_iff, not_true_iff_false. rewrite inb_iff. intros Hc. exact (H x Hc Hx). Qed.

Lemma open_iterable_in cs opens r p : In (r, p) (open_iterable cs opens) <->
  In r cs /\ exists c oc, In c cs /\ In oc opens /\ disjoint c oc /\ p = c ++ oc.
Proof.
  unfold open_iterable. rewrite in_prod_iff, in_flat_map. split.
  - intros [Hr (c & Hc & Hp)]. split; [exact Hr|]. apply in_map_iff in Hp as (oc & <- & Hoc). apply filter_In in Hoc as [Hoc Hm].
    assert (Hd : disjoint c oc). { intros x Hx Hx'. apply negb_true_iff, not_true_iff_false in Hm. apply Hm, meets_iff. exists x. split; assumption. }
    exists c, oc. split; [exact Hc|]. split; [exact Hoc|]. split; [exact Hd|]. unfold union. rewrite filter_disjoint; [reflexivity|exact Hd].
  - intros (Hr & c & oc & Hc & Hoc & Hd & ->). split; [exact Hr|]. exists c. split; [exact Hc|]. apply in_map_iff. exists oc. split; [unfold union; rewrite filter_disjoint; [reflexivity|exact Hd]|].
    apply filter_In. split; [exact Hoc|]. apply negb_true_iff, not_true_iff_false. rewrite meets_iff. intros (x & H1 & H2). exact (Hd x H1 H2).
Qed.

Lemma open_iter_length_ok cs opens : open_iter_length cs opens = length (open_iterable cs opens).
Proof.
  unfold open_iter_length, open_iterable. rewrite prod_length. f_equal. clear. induction cs as [|c cs IH] using rev_ind; [reflexivity|].
  assert (G : forall l, fold_right (fun i n => fold_right (fun j m => (if negb (meets i j) then 1 else 0) + m) 0 opens + n) 0 l
     = length (flat_map (fun c => map (union c) (filter (fun oc => negb (meets c oc)) opens)) l)).
  { induction l as [|x l IHl]; [reflexivity|]. simpl. rewrite app_length, map_length, <- IHl. f_equal. clear. induction opens as [|y ys IHy]; [reflexivity|].
    simpl. destruct (negb (meets x y)); simpl; rewrite IHy; reflexivity. }
  apply G.
Qed.

Lemma NoDup_open_iterable cs opens ops : NoDup cs -> NoDup opens -> (forall c, In c cs -> disjoint c ops) ->
  (forall oc, In oc opens -> forall x, In x oc -> In x ops) -> NoDup (open_iterable cs opens).
Proof.
  intros H1 H2 Hd Ho.
  assert (S : forall c oc, In c cs -> In oc opens -> minus (c ++ oc) ops = c /\ filter (fun x => inb x ops) (c ++ oc) = oc).
  { intros c oc Hc Hoc. unfold minus. rewrite !filter_app. split.
    - rewrite (filter_all _ c), (filter_none _ oc); [apply app_nil_r| |].
      + intros x Hx. apply negb_false_iff, inb_iff. exact (Ho oc Hoc x Hx).
      + intros x Hx. apply negb_true_iff, not_true_iff_false. rewrite inb_iff. exact (Hd c Hc x Hx).
    - rewrite (filter_none _ c), (filter_all _ oc); [reflexivity| |].
      + intros x Hx. apply inb_iff. exact (Ho oc Hoc x Hx).
      + intros x Hx. apply not_true_iff_false. rewrite inb_iff. exact (Hd c Hc x Hx). }
  unfold open_iterable. assert (P : NoDup (flat_map (fun c => map (union c) (filter (fun oc => negb (meets c oc)) opens)) cs)).
  { assert (D : forall c oc, In c cs -> In oc opens -> union c oc = c ++ oc).
    { intros c oc Hc Hoc. unfold union. rewrite filter_disjoint; [reflexivity|]. intros x Hx Hx'. exact (Hd c Hc x Hx (Ho oc Hoc x Hx')). }
    apply NoDup_flat_map; [exact H1| |].
    - intros c Hc. assert (G : forall l, (forall oc, In oc l -> In oc opens) -> NoDup l -> NoDup (map (union c) l)).
      { intros l Hl. induction 1 as [|oc l Hn Hnd IH]; simpl; [constructor|]. constructor; [|apply IH; intros y Hy; apply Hl; right; exact Hy].
        intros Hin. apply in_map_iff in Hin as (oc' & E & Hin). rewrite !D in E by first [exact Hc | apply Hl; first [left; reflexivity | right; exact Hin]].
        apply app_inv_head in E. subst oc'. contradiction. }
      apply G; [intros oc Hoc; apply filter_In in Hoc; apply Hoc|apply NoDup_filter; exact H2].
    - intros c c' p Hc Hc' Hp Hp'. apply in_map_iff in Hp as (oc & E & Hoc), Hp' as (oc' & E' & Hoc'). apply filter_In in Hoc as [Hoc _], Hoc' as [Hoc' _].
      rewrite D in E, E' by assumption. subst p. destruct (S c oc Hc Hoc) as [<- _]. destruct (S c' oc' Hc' Hoc') as [<- _]. rewrite E'. reflexivity. }
  revert P. generalize (flat_map (fun c => map (union c) (filter (fun oc => negb (meets c oc)) opens)) cs). intros ps P.
  clear -H1 P. induction H1 as [|c cs Hc Hn IH]; simpl; [constructor|]. apply NoDup_app_intro.
  - apply FinFun.Injective_map_NoDup; [|exact P]. intros a b E. congruence.
  - exact IH.
  - intros [a b] H H'. apply in_map_iff in H as (x & E & _). apply in_prod_iff in H' as [H' _]. injection E as -> _. contradiction.
Qed.

(* --- nothing is lost by the element filters --- *)
Lemma flat_map_nonempty {A B} (f : A -> list B) l : flat_map f l = flat_map f (filter (fun x => negb (is_nil (f x))) l).
Proof. induction l as [|x l IH]; [reflexivity|]. simpl. destruct (f x) eqn:E; simpl; [exact IH|]. rewrite E, IH. reflexivity. Qed.
Lemma Permutation_flat_map' {A B} (f : A -> list B) l l' : Permutation l l' -> Permutation (flat_map f l) (flat_map f l').
Proof.
  induction 1 as [|x l l' H IH|x y l|l1 l2 l3 H1 IH1 H2 IH2]; simpl; [constructor|apply Permutation_app_head; exact IH| |eapply perm_trans; eassumption].
  rewrite !app_assoc. apply Permutation_app_tail, Permutation_app_comm.
Qed.
Lemma perm_flat {A B} (f g : A -> list B) l m : NoDup l -> NoDup m ->
  (forall x, In x l -> f x <> [] -> In x m /\ g x = f x) -> (forall x, In x m -> g x <> [] -> In x l /\ f x = g x) ->
  Permutation (flat_map f l) (flat_map g m).
Proof.
  intros Hl Hm H1 H2. rewrite (flat_map_nonempty f l), (flat_map_nonempty g m).
  assert (E : flat_map f (filter (fun x => negb (is_nil (f x))) l) = flat_map g (filter (fun x => negb (is_nil (f x))) l)).
  { apply flat_map_ext_in. intros x Hx. apply filter_In in Hx as [Hx Hn]. symmetry. apply H1; [exact Hx|]. intros E. rewrite E in Hn. discriminate. }
  rewrite E. apply Permutation_flat_map', NoDup_Permutation; [apply NoDup_filter; exact Hl|apply NoDup_filter; exact Hm|].
  intros x. rewrite !filter_In. split; intros [Hx Hn].
  - destruct (H1 x Hx) as [A1 A2]; [intros E0; rewrite E0 in Hn; discriminate|]. split; [exact A1|rewrite A2; exact Hn].
  - destruct (H2 x Hx) as [A1 A2]; [intros E0; rewrite E0 in Hn; discriminate|]. split; [exact A1|rewrite A2; exact Hn].
Qed.

Lemma apply_func_iff f s x : apply_func f s x = true <-> match f with IsSuperset => forall e, In e x -> In e s | Intersection => exists e, In e s /\ In e x end.
Proof. destruct f; simpl; [apply subset_iff|apply meets_iff]. Qed.

Lemma option_met_iff f given op x : (if is_nil given then true else apply_func f (given ++ op) (minus x op)) = true <-> option_met f given op x.
Proof.
  unfold option_met. destruct given as [|g gs]; [simpl; split; intros; [left; reflexivity|reflexivity]|]. cbn [is_nil]. rewrite apply_func_iff.
  set (given := g :: gs). assert (Hg : given = [] <-> False) by (split; [discriminate|intros []]). rewrite Hg. destruct f.
  - split.
    + intros H. right. intros e He. destruct (in_dec Nat.eq_dec e op) as [Ho|Ho]; [right; exact Ho|]. apply in_app_iff. apply H. apply minus_in. split; assumption.
    + intros [[]|H] e He. apply minus_in in He as [He _]. apply in_app_iff. apply H. exact He.
  - split.
    + intros (e & He & Hm). right. exists e. apply minus_in in Hm as [Hm Hn]. apply in_app_iff in He as [He|He]; [|contradiction]. split; [exact Hm|]. split; assumption.
    + intros [[]|(e & He & Hg' & Hn)]. exists e. split; [apply in_app_iff; left; exact Hg'|apply minus_in; split; assumption].
Qed.

Lemma accept_iff o pre tar op x : o_changed o = true -> (accept o pre tar op x = true <-> sound_rxn o x /\ wanted o pre tar op x).
Proof.
  intros Hc. unfold accept, precursor_func, target_func. rewrite !andb_true_iff, !option_met_iff, negb_true_iff, !orb_false_iff, Hc. unfold sound_rxn, wanted.
  rewrite Nat.ltb_ge. cbn [andb]. rewrite negb_false_iff.
  assert (Hu : o_unbalanced o && negb (er_balanced x) = false <-> (o_unbalanced o = true -> er_balanced x = true)).
  { destruct (o_unbalanced o), (er_balanced x); simpl; split; intros; congruence || (exfalso; assert (false = true) by auto; discriminate) || reflexivity. }
  assert (He : match er_errors x with Some 0 => true | _ => false end = true <-> er_errors x = Some 0).
  { destruct (er_errors x) as [[|n]|]; split; congruence. }
  rewrite Hu, He. tauto.
Qed.

Section Complete.
Variable elems : nat -> list nat.
Variable o : options.
Variables entries pre tar op : list nat.
Variables balance backward : list nat -> list nat -> erxn.
Hypothesis Hb : good_balance elems balance backward.
Hypothesis Hch : o_changed o = true.
Notation oe := (flat_map elems op).
Notation key c := (total_chemsys elems c oe).
Notation both rp := [balance (fst rp) (snd rp); backward (fst rp) (snd rp)].

(* The two sides of an accepted reaction. *)
Lemma accepted_sides r p x : r <> [] -> p <> [] -> In x (both (r, p)) -> accept o pre tar op x = true ->
  exists a b, (a = r /\ b = p \/ a = p /\ b = r) /\ option_met (o_pfunc o) pre op a /\ option_met (o_tfunc o) tar op b
  /\ (forall z, (exists e, In e r /\ In z (elems e)) <-> (exists e, In e p /\ In z (elems e))).
Proof.
  intros Hr Hp0 Hx Ha. apply accept_iff in Ha as [(_ & _ & He & _) [Hp Ht]]; [|exact Hch].
  assert (T : forall f given s t, same_set s t -> option_met f given op s -> option_met f given op t).
  { intros f given s t Hs [H|H]; [left; exact H|right]. destruct f.
    - intros e Hin. apply H, Hs. exact Hin.
    - destruct H as (e & H1 & H2). exists e. split; [apply Hs; exact H1|exact H2]. }
  destruct (Hb r p Hr Hp0) as (R1 & R2 & R3 & Hg). cbn [fst snd] in Hx. destruct Hx as [<-|[<-|[]]].
  - destruct (Hg He) as (S1 & S2 & S3). exists r, p. split; [left; split; reflexivity|]. split; [exact (T _ _ _ _ S1 Hp)|]. split; [exact (T _ _ _ _ S2 Ht)|exact S3].
  - rewrite R3 in He. destruct (Hg He) as (S1 & S2 & S3). rewrite R1 in Hp. rewrite R2 in Ht. exists p, r. split; [right; split; reflexivity|].
    split; [exact (T _ _ _ _ S2 Hp)|]. split; [exact (T _ _ _ _ S1 Ht)|exact S3].
Qed.

Lemma same_key r p : (forall z, (exists e, In e r /\ In z (elems e)) <-> (exists e, In e p /\ In z (elems e))) -> key r = key p.
Proof.
  intros H. apply chemsys_key. destruct (key_chemsys elems oe r) as [A B]. split; [exact A|]. intros x. rewrite B, H. reflexivity.
Qed.

Definition system_b (k : list nat) : bool :=
  negb (match o_chemsys o with Some f => negb (subset f k) | None => false end) && negb (Nat.leb 10 (length k) || Nat.eqb (length k) 1).

(* The element filters on precursors and targets hold for the chemical system of an
   accepted reaction. *)
Lemma met_elements f given a : (forall e, In e a -> elems e <> []) -> option_met f given op a ->
  negb (negb (is_nil (map elems given)) && negb (apply_func f (concat (map elems given) ++ oe) (key a))) = true.
Proof.
  intros Hel H. destruct given as [|g gs]; [reflexivity|]. cbn [map is_nil negb andb]. rewrite negb_involutive, apply_func_iff.
  change (elems g :: map elems gs) with (map elems (g :: gs)). rewrite <- flat_map_concat_map. destruct (key_chemsys elems oe a) as [_ B].
  destruct H as [H|H]; [discriminate|]. destruct f.
  - intros z Hz. apply B in Hz as [(e & He & Hz)|Hz]; [|apply in_app_iff; right; exact Hz]. destruct (H e He) as [Hg|Ho].
    + apply in_app_iff. left. apply in_flat_map. exists e. split; assumption.
    + apply in_app_iff. right. apply in_flat_map. exists e. split; assumption.
  - destruct H as (e & He & Hg & _). destruct (elems e) as [|z zs] eqn:E; [destruct (Hel e He E)|]. exists z. split.
    + apply in_app_iff. left. apply in_flat_map. exists e. rewrite E. split; [exact Hg|left; reflexivity].
    + apply B. left. exists e. rewrite E. split; [exact He|left; reflexivity].
Qed.

Lemma accepted_kept r p x : r <> [] -> p <> [] -> (forall e, In e r \/ In e p -> elems e <> []) -> In x (both (r, p)) -> accept o pre tar op x = true ->
  key r = key p /\ keep_chemsys o (map elems pre) (map elems tar) oe (key r) = system_b (key r).
Proof.
  intros Hr Hp0 Hel Hx Ha. destruct (accepted_sides r p x Hr Hp0 Hx Ha) as (a & b & Hab & Hp & Ht & He). pose proof (same_key r p He) as K. split; [exact K|].
  unfold keep_chemsys. fold (system_b (key r)).
  assert (Ka : key a = key r) by (destruct Hab as [[-> ->]|[-> ->]]; congruence). assert (Kb : key b = key r) by (destruct Hab as [[-> ->]|[-> ->]]; congruence).
  rewrite <- Ka at 2. rewrite <- Kb at 2. rewrite (met_elements _ _ a), (met_elements _ _ b), !andb_true_r.
  - reflexivity.
  - intros e Hin. apply Hel. destruct Hab as [[-> ->]|[-> ->]]; tauto.
  - exact Ht.
  - intros e Hin. apply Hel. destruct Hab as [[-> ->]|[-> ->]]; tauto.
  - exact Hp.
Qed.

Lemma met_side f given a (all : list nat) : minus a op <> [] -> option_met f given op a -> (forall e, In e a -> In e all) ->
  negb (is_nil given) && negb (meets given all) = false.
Proof.
  intros Hn H Hall. destruct given as [|g gs]; [reflexivity|]. cbn [is_nil negb andb]. apply negb_false_iff, meets_iff. destruct H as [H|H]; [discriminate|].
  destruct f.
  - destruct (minus a op) as [|e es] eqn:E; [contradiction|]. assert (He : In e (minus a op)) by (rewrite E; left; reflexivity). apply minus_in in He as [He Ho].
    exists e. split; [destruct (H e He); [assumption|contradiction]|apply Hall; exact He].
  - destruct H as (e & He & Hg & _). exists e. split; [exact Hg|apply Hall; exact He].
Qed.

Lemma met_func f given a : option_met f given op a -> (if is_nil given then true else apply_func f (given ++ op) a) = true.
Proof.
  intros H. destruct given as [|g gs]; [reflexivity|]. cbn [is_nil]. apply apply_func_iff. destruct H as [H|H]; [discriminate|]. destruct f.
  - intros e He. apply in_app_iff. exact (H e He).
  - destruct H as (e & He & Hg & _). exists e. split; [apply in_app_iff; left; exact Hg|exact He].
Qed.

Lemma accepted_considered r p x : In x (both (r, p)) -> accept o pre tar op x = true -> minus r op <> [] -> minus p op <> [] ->
  consider o pre tar op r p = negb (meets r p).
Proof.
  intros Hx Ha Hnr Hnp. assert (Hr : r <> []) by (intros ->; apply Hnr; reflexivity). assert (Hpn : p <> []) by (intros ->; apply Hnp; reflexivity).
  destruct (accepted_sides r p x Hr Hpn Hx Ha) as (a & b & Hab & Hp & Ht & He). unfold consider.
  assert (Hp0 : is_nil p = false) by (destruct p; [contradiction Hnp; reflexivity|reflexivity]). rewrite Hp0. cbn [negb andb].
  assert (Ea : negb (is_nil pre) && negb (meets pre (r ++ p)) = false).
  { apply (met_side (o_pfunc o) pre a); [destruct Hab as [[-> _]|[-> _]]; assumption|exact Hp|]. intros e Hin. apply in_app_iff. destruct Hab as [[-> _]|[-> _]]; tauto. }
  assert (Eb : negb (is_nil tar) && negb (meets tar (r ++ p)) = false).
  { apply (met_side (o_tfunc o) tar b); [destruct Hab as [[_ ->]|[_ ->]]; assumption|exact Ht|]. intros e Hin. apply in_app_iff. destruct Hab as [[_ ->]|[_ ->]]; tauto. }
  rewrite Ea, Eb, !orb_false_r.
  assert (Fa : precursor_func o pre op r || precursor_func o pre op p = true).
  { apply orb_true_iff. unfold precursor_func. apply met_func in Hp. destruct Hab as [[-> _]|[-> _]]; [left|right]; exact Hp. }
  assert (Fb : target_func o tar op r || target_func o tar op p = true).
  { apply orb_true_iff. unfold target_func. apply met_func in Ht. destruct Hab as [[_ ->]|[_ ->]]; [right|left]; exact Ht. }
  rewrite Fa, Fb, !andb_true_r. reflexivity.
Qed.

Lemma system_iff c : c <> [] -> (forall e, In e c -> elems e <> []) -> (system_b (key c) = true <-> system_ok elems o oe c).
Proof.
  intros Hc Hel. unfold system_b, system_ok. rewrite andb_true_iff, !negb_true_iff, orb_false_iff, Nat.leb_gt, Nat.eqb_neq.
  assert (Hl : length (key c) <> 0).
  { destruct c as [|e c]; [contradiction|]. destruct (elems e) as [|z zs] eqn:E; [destruct (Hel e (or_introl eq_refl) E)|]. destruct (key_chemsys elems oe (e :: c)) as [_ B].
    assert (Hz : In z (key (e :: c))) by (apply B; left; exists e; rewrite E; split; left; reflexivity). destruct (key (e :: c)); [destruct Hz|discriminate]. }
  split.
  - intros [H1 [H2 H3]]. exists (key c). split; [apply key_chemsys|]. split; [lia|]. intros f Hf. rewrite Hf in H1. apply negb_false_iff in H1. rewrite subset_iff in H1. exact H1.
  - intros (k & Hk & Hlen & Hf). apply chemsys_key in Hk. subst k. split; [|lia]. destruct (o_chemsys o) as [f|]; [|reflexivity].
    apply negb_false_iff, subset_iff. exact (Hf f eq_refl).
Qed.

(* --- the enumerated reactions --- *)
Variable iterable : list (list nat) -> list (list nat) -> list (list nat * list nat).
Variable iter_length : list (list nat) -> list (list nat) -> nat.
Variable opens : list (list nat).
Notation combos := (limited_powerset (minus entries op) (o_n o)).
Hypothesis Hlen : forall cs, iter_length cs opens = length (iterable cs opens).
Hypothesis Hit : forall k rp, In rp (iterable (filter (fun c => list_eqb k (key c)) combos) opens) <->
  In rp (iterable combos opens) /\ key (fst rp) = k /\ key (snd rp) = k.
Hypothesis Hnd : forall f, NoDup (iterable (filter f combos) opens).
Hypothesis Hside : forall r p, In (r, p) (iterable combos opens) -> In r combos /\ minus r op <> [] /\ minus p op <> []
  /\ (forall e, In e r \/ In e p -> elems e <> []).

Definition react_list (rp : list nat * list nat) : list erxn :=
  if consider o pre tar op (fst rp) (snd rp) then filter (accept o pre tar op) (both rp) else [].

Lemma code_pairs : NoDup (flat_map (fun kv => iterable (snd kv) opens) (combos_dict elems o entries pre tar op))
  /\ forall rp, In rp (flat_map (fun kv => iterable (snd kv) opens) (combos_dict elems o entries pre tar op)) <->
     In rp (iterable combos opens) /\ key (fst rp) = key (snd rp) /\ keep_chemsys o (map elems pre) (map elems tar) oe (key (fst rp)) = true.
Proof.
  unfold combos_dict, filter_dict. destruct (group_spec elems oe combos) as (G1 & G2 & G3). set (g := group_by_chemsys elems combos oe) in *.
  split.
  - apply NoDup_flat_map.
    + apply NoDup_filter. apply (NoDup_map_inv fst). exact G1.
    + intros [k cs] Hin. apply filter_In in Hin as [Hin _]. simpl. destruct (G2 k cs Hin) as [_ ->]. apply Hnd.
    + intros [k cs] [k' cs'] rp H1 H2 H3 H4. apply filter_In in H1 as [H1 _], H2 as [H2 _]. simpl in H3, H4.
      destruct (G2 k cs H1) as [_ E1]. destruct (G2 k' cs' H2) as [_ E2]. rewrite E1 in H3. rewrite E2 in H4.
      apply Hit in H3 as (_ & K & _), H4 as (_ & K' & _). assert (k = k') as <- by congruence. rewrite E1, E2. reflexivity.
  - intros rp. rewrite in_flat_map. split.
    + intros ([k cs] & Hin & Hrp). apply filter_In in Hin as [Hin Hk]. simpl in Hrp, Hk. destruct (G2 k cs Hin) as [_ E]. rewrite E in Hrp.
      apply Hit in Hrp as (H1 & H2 & H3). split; [exact H1|]. split; [congruence|]. rewrite H2. exact Hk.
    + intros (H1 & H2 & H3). destruct rp as [r p]. cbn [fst snd] in *. destruct (Hside r p H1) as [Hrr _]. specialize (G3 r Hrr).
      apply in_map_iff in G3 as ([k cs] & E & Hin). simpl in E. exists (k, cs). split; [apply filter_In; split; [exact Hin|]; simpl; rewrite E; exact H3|].
      simpl. destruct (G2 k cs Hin) as [_ ->]. apply Hit. split; [exact H1|]. cbn [fst snd]. split; congruence.
Qed.

Theorem enumerate_complete {D} (diagram : list nat -> D) wait : 1 <= o_chunk o -> 1 <= o_jobs o -> valid_schedule wait ->
  exists out, enumerate_rxns elems iterable iter_length (basic_react balance backward) diagram o entries pre tar op opens wait = Ok out
  /\ all_reactions o pre tar op balance backward
       (fun r p => In (r, p) (iterable combos opens) /\ disjoint r p /\ system_ok elems o oe r) out.
Proof.
  intros H1 H2 Hw. pose proof (enumerate_all elems iterable iter_length (basic_react balance backward) diagram o entries pre tar op opens wait H1 H2 Hw Hlen) as Hag.
  set (d := combos_dict elems o entries pre tar op) in *. set (CP := flat_map (fun kv => iterable (snd kv) opens) d).
  assert (Ecat : cat (fun kp => react_pair (basic_react balance backward) o pre tar op (diagram (fst kp)) (snd kp))
                   (tagged (map (fun kv => (fst kv, iterable (snd kv) opens)) d)) = Ok (flat_map react_list CP)).
  { assert (G : forall l, cat (fun kp : list nat * (list nat * list nat) => react_pair (basic_react balance backward) o pre tar op (diagram (fst kp)) (snd kp)) l = Ok (flat_map react_list (map snd l))).
    { induction l as [|kp l IH]; [reflexivity|]. rewrite cat_cons, IH. cbn [map flat_map]. unfold react_pair at 1, basic_react, react_list at 2.
      destruct (consider o pre tar op (fst (snd kp)) (snd (snd kp))); reflexivity. }
    rewrite G. do 2 f_equal. unfold CP, tagged. clear. induction d as [|kv d IH]; [reflexivity|]. cbn [map flat_map fst snd]. rewrite map_app, IH, map_map. cbn [snd].
    rewrite map_id. reflexivity. }
  rewrite Ecat in Hag. destruct (enumerate_rxns _ _ _ _ _ _ _ _ _ _ _ _) as [out|] eqn:Eout; [|destruct Hag]. simpl in Hag. exists out. split; [reflexivity|].
  set (AP := filter (fun rp => negb (meets (fst rp) (snd rp)) && system_b (key (fst rp))) (iterable combos opens)).
  exists AP, (map (fun rp => filter (accept o pre tar op) (both rp)) AP).
  assert (HN : NoDup AP).
  { apply NoDup_filter. pose proof (Hnd (fun _ => true)) as H. rewrite filter_all in H; [exact H|reflexivity]. }
  split; [exact HN|]. split; [|split].
  - intros r p. unfold AP. rewrite filter_In, andb_true_iff, negb_true_iff, <- not_true_iff_false, meets_iff. cbn [fst snd]. split.
    + intros (Ha & Hm & Hs). split; [exact Ha|]. split; [intros x Hx Hx'; apply Hm; exists x; split; assumption|]. destruct (Hside r p Ha) as (Hc & _ & _ & Hel). apply system_iff; [|intros e He; apply Hel; left; exact He|exact Hs].
      intros ->. apply in_limited_powerset in Hc as [_ Hc]. simpl in Hc. lia.
    + intros (Ha & Hd & Hs). split; [exact Ha|]. split; [intros (x & Hx & Hx'); exact (Hd x Hx Hx')|]. destruct (Hside r p Ha) as (Hc & _ & _ & Hel). apply system_iff; [|intros e He; apply Hel; left; exact He|exact Hs].
      intros ->. apply in_limited_powerset in Hc as [_ Hc]. simpl in Hc. lia.
  - clear -Hch. induction AP as [|rp AP IH]; [constructor|]. cbn [map]. constructor; [|exact IH]. apply picks_filter. intros x _. apply accept_iff. exact Hch.
  - eapply perm_trans; [exact Hag|]. rewrite <- flat_map_concat_map. destruct code_pairs as [N1 I1]. fold d CP in N1, I1.
    assert (Hne : forall f (l : list erxn), filter f l <> [] -> exists x, In x l /\ f x = true).
    { clear. intros f l H. destruct (filter f l) as [|x xs] eqn:E; [contradiction|]. exists x. apply filter_In. rewrite E. left. reflexivity. }
    apply perm_flat; [exact N1|exact HN| |].
    + intros [r p] Hin Hf. unfold react_list in Hf |- *. cbn [fst snd] in *. destruct (consider o pre tar op r p) eqn:Ec; [|contradiction].
      destruct (Hne _ _ Hf) as (x & Hx & Ha). apply I1 in Hin as (Hin & _ & Hk). destruct (Hside r p Hin) as (_ & S1 & S2 & Hel). cbn [fst snd] in *.
      rewrite (accepted_considered r p x Hx Ha S1 S2) in Ec. assert (Hrn : r <> []) by (intros ->; apply S1; reflexivity). assert (Hpn : p <> []) by (intros ->; apply S2; reflexivity).
      destruct (accepted_kept r p x Hrn Hpn Hel Hx Ha) as [K1 K2]. rewrite K2 in Hk.
      split; [|reflexivity]. unfold AP. apply filter_In. split; [exact Hin|]. cbn [fst snd]. rewrite Ec, Hk. reflexivity.
    + intros [r p] Hin Hf. unfold AP in Hin. apply filter_In in Hin as [Hin Hcond]. cbn [fst snd] in *. apply andb_true_iff in Hcond as [Hm Hs].
      destruct (Hne _ _ Hf) as (x & Hx & Ha). destruct (Hside r p Hin) as (_ & S1 & S2 & Hel). assert (Hrn : r <> []) by (intros ->; apply S1; reflexivity). assert (Hpn : p <> []) by (intros ->; apply S2; reflexivity).
      destruct (accepted_kept r p x Hrn Hpn Hel Hx Ha) as [K1 K2].
      split; [apply I1; split; [exact Hin|]; cbn [fst snd]; split; [exact K1|]; rewrite K2; exact Hs|].
      unfold react_list. cbn [fst snd]. rewrite (accepted_considered r p x Hx Ha S1 S2), Hm. reflexivity.
Qed.
End Complete.

Lemma subseq_pair_in {A} (a b : A) l : subseq [a; b] l -> In a l /\ In b l.
Proof. intros H. split; apply (subseq_In _ _ _ H); [left; reflexivity|right; left; reflexivity]. Qed.

Lemma all_reactions_kind o pre tar op balance backward K K' out : (forall r p, K r p <-> K' r p) ->
  all_reactions o pre tar op balance backward K out -> all_reactions o pre tar op balance backward K' out.
Proof.
  intros H (pairs & outs & H1 & H2 & H3). exists pairs, outs. split; [exact H1|]. split; [|exact H3]. intros r p. rewrite H2. apply H.
Qed.

(* BasicEnumerator *)
Theorem basic_complete {D} elems o entries pre tar balance backward (diagram : list nat -> D) wait :
  NoDup entries -> (forall e, In e entries -> elems e <> []) -> good_balance elems balance backward -> o_changed o = true ->
  1 <= o_chunk o -> 1 <= o_jobs o -> valid_schedule wait ->
  exists out, enumerate_rxns elems basic_iterable basic_iter_length (basic_react balance backward) diagram o
                entries pre tar [] [] wait = Ok out
  /\ all_reactions o pre tar [] balance backward
       (fun r p => basic_pair entries (o_n o) r p /\ disjoint r p /\ system_ok elems o [] r) out.
Proof.
  intros Hn Hel Hb Hch H1 H2 Hw.
  assert (Hnd : NoDup (limited_powerset entries (o_n o))) by (apply NoDup_limited_powerset; exact Hn).
  destruct (enumerate_complete elems o entries pre tar [] balance backward Hb Hch basic_iterable basic_iter_length []
              (fun cs => basic_iter_length_ok cs [])) with (diagram := diagram) (wait := wait) as (out & E & H).
  - intros k [r p]. rewrite !basic_iterable_in, subseq_filter. cbn [fst snd]. split.
    + intros [Hs Hf]. inversion Hf as [|? ? F1 Hf']; subst. inversion Hf' as [|? ? F2 _]; subst. apply list_eqb_iff in F1, F2. split; [exact Hs|]. split; congruence.
    + intros (Hs & K1 & K2). split; [exact Hs|]. constructor; [apply list_eqb_iff; congruence|]. constructor; [apply list_eqb_iff; congruence|constructor].
  - intros f. apply NoDup_basic_iterable. rewrite minus_nil. apply NoDup_filter. exact Hnd.
  - intros r p Hin. apply basic_iterable_in in Hin. rewrite minus_nil in *. apply subseq_pair_in in Hin as [I1 I2]. rewrite !minus_nil. split; [exact I1|].
    apply in_limited_powerset in I1 as [U1 I1], I2 as [U2 I2]. split; [destruct r; simpl in *; [lia|discriminate]|]. split; [destruct p; simpl in *; [lia|discriminate]|].
    intros e He. apply Hel. destruct He as [He|He]; [exact (subseq_In _ _ _ U1 He)|exact (subseq_In _ _ _ U2 He)].
  - exact H1.
  - exact H2.
  - exact Hw.
  - exists out. split; [exact E|]. eapply all_reactions_kind; [|exact H]. intros r p. cbn beta. rewrite basic_iterable_in, minus_nil, basic_pair_iff by exact Hn. reflexivity.
Qed.

(* BasicOpenEnumerator *)
Theorem open_complete {D} elems o entries pre tar op balance backward (diagram : list nat -> D) wait :
  NoDup entries -> NoDup op -> (forall e, In e entries \/ In e op -> elems e <> []) -> good_balance elems balance backward -> o_changed o = true ->
  1 <= o_chunk o -> 1 <= o_jobs o -> valid_schedule wait ->
  exists out, enumerate_rxns elems open_iterable open_iter_length (basic_react balance backward) diagram o
                entries pre tar op (open_combos op) wait = Ok out
  /\ all_reactions o pre tar op balance backward
       (fun r p => (exists solids, NoDup solids /\ (forall e, In e solids <-> In e entries /\ ~ In e op) /\ subseq solids entries
                                   /\ open_pair solids op (o_n o) r p)
                   /\ disjoint r p /\ system_ok elems o (flat_map elems op) r) out.
Proof.
  intros Hn Hno Hel Hb Hch H1 H2 Hw.
  assert (Hnm : NoDup (minus entries op)) by (apply NoDup_filter; exact Hn).
  assert (Hnd : NoDup (limited_powerset (minus entries op) (o_n o))) by (apply NoDup_limited_powerset; exact Hnm).
  assert (Hop : forall oc, In oc (open_combos op) <-> subseq oc op /\ oc <> []).
  { intros oc. unfold open_combos. rewrite in_limited_powerset. split.
    - intros [Hs Hl]. split; [exact Hs|]. intros ->. simpl in Hl. lia.
    - intros [Hs Hne]. split; [exact Hs|]. pose proof (subseq_length _ _ Hs). destruct oc; [contradiction|]. simpl in *. lia. }
  assert (Hsol : forall c, In c (limited_powerset (minus entries op) (o_n o)) -> c <> [] /\ disjoint c op).
  { intros c Hc. apply in_limited_powerset in Hc as [Hs Hl]. split; [destruct c; [simpl in Hl; lia|discriminate]|]. intros x Hx Ho.
    apply (subseq_In _ _ _ Hs), minus_in in Hx as [_ Hx]. contradiction. }
  assert (Hmc : forall c, disjoint c op -> minus c op = c).
  { intros c Hd. apply filter_disjoint. intros x Hx Hc. exact (Hd x Hc Hx). }
  assert (Hkey : forall c oc, (forall x, In x oc -> In x op) -> total_chemsys elems (c ++ oc) (flat_map elems op) = total_chemsys elems c (flat_map elems op)).
  { intros c oc Hoc. apply chemsys_key. destruct (key_chemsys elems (flat_map elems op) (c ++ oc)) as [A B]. split; [exact A|]. intros x. rewrite B. split.
    - intros [(e & He & Hx)|Hx]; [|right; exact Hx]. apply in_app_iff in He as [He|He]; [left; exists e; split; assumption|]. right. apply in_flat_map. exists e. split; [apply Hoc; exact He|exact Hx].
    - intros [(e & He & Hx)|Hx]; [|right; exact Hx]. left. exists e. split; [apply in_app_iff; left; exact He|exact Hx]. }
  assert (Hsub : forall oc, In oc (open_combos op) -> forall x, In x oc -> In x op).
  { intros oc Hoc x Hx. apply Hop in Hoc as [Hs _]. exact (subseq_In _ _ _ Hs Hx). }
  destruct (enumerate_complete elems o entries pre tar op balance backward Hb Hch open_iterable open_iter_length (open_combos op)
              (fun cs => open_iter_length_ok cs _)) with (diagram := diagram) (wait := wait) as (out & E & H).
  - intros k [r p]. rewrite !open_iterable_in. cbn [fst snd]. split.
    + intros (Hrr & c & oc & Hc & Hoc & Hd & ->). apply filter_In in Hrr as [Hrr K1], Hc as [Hc K2]. apply list_eqb_iff in K1, K2.
      split; [split; [exact Hrr|]; exists c, oc; split; [exact Hc|]; split; [exact Hoc|]; split; [exact Hd|reflexivity]|].
      rewrite Hkey by exact (Hsub oc Hoc). split; congruence.
    + intros ((Hrr & c & oc & Hc & Hoc & Hd & ->) & K1 & K2). rewrite Hkey in K2 by exact (Hsub oc Hoc).
      split; [apply filter_In; split; [exact Hrr|apply list_eqb_iff; congruence]|]. exists c, oc. split; [apply filter_In; split; [exact Hc|apply list_eqb_iff; congruence]|].
      split; [exact Hoc|]. split; [exact Hd|reflexivity].
  - intros f. apply (NoDup_open_iterable _ _ op).
    + apply NoDup_filter. exact Hnd.
    + apply NoDup_limited_powerset. exact Hno.
    + intros c Hc. apply filter_In in Hc as [Hc _]. apply Hsol. exact Hc.
    + exact Hsub.
  - intros r p Hin. apply open_iterable_in in Hin as (Hrr & c & oc & Hc & Hoc & Hd & ->). split; [exact Hrr|].
    destruct (Hsol r Hrr) as [Hr1 Hr2]. destruct (Hsol c Hc) as [Hc1 Hc2]. rewrite (Hmc r Hr2). split; [exact Hr1|]. split.
    + unfold minus. rewrite filter_app. change (filter (fun x => negb (inb x op)) c) with (minus c op). rewrite (Hmc c Hc2). intros E. apply app_eq_nil in E as [E _]. contradiction.
    + assert (U : forall l, In l (limited_powerset (minus entries op) (o_n o)) -> forall e, In e l -> In e entries).
      { intros l Hl e He. apply in_limited_powerset in Hl as [Hl _]. apply (subseq_In _ _ _ Hl), minus_in in He as [He _]. exact He. }
      intros e [He|He]; [apply Hel; left; exact (U r Hrr e He)|]. apply in_app_iff in He as [He|He]; [apply Hel; left; exact (U c Hc e He)|].
      apply Hel. right. exact (Hsub oc Hoc e He).
  - exact H1.
  - exact H2.
  - exact Hw.
  - exists out. split; [exact E|]. eapply all_reactions_kind; [|exact H]. intros r p. cbn beta. rewrite open_iterable_in. split.
    + intros ((Hrr & c & oc & Hc & Hoc & Hd & ->) & Hrest). split; [|exact Hrest]. exists (minus entries op). split; [exact Hnm|]. split; [intros e; apply minus_in|].
      split; [apply (subseq_filter (fun x => negb (inb x op)) (minus entries op) entries), subseq_refl|]. exists c, oc. split; [apply combo_iff; exact Hrr|]. split; [apply combo_iff; exact Hc|]. split; [reflexivity|]. apply Hop. exact Hoc.
    + intros ((solids & N1 & N2 & N3 & c & oc & Hrr & Hc & -> & Hoc) & Hrest). split; [|exact Hrest].
      assert (solids = minus entries op) as ->.
      { clear -N2 N3 Hn. assert (G : forall s l, subseq s l -> NoDup l -> s = filter (fun x => inb x s) l).
        { induction 1 as [|x s l Hs IH|x s l Hs IH]; intros Hl; [reflexivity| |]; inversion Hl as [|? ? Hx Hl']; subst; simpl.
          - replace (inb x s) with false; [apply IH; exact Hl'|]. symmetry. apply not_true_iff_false. rewrite inb_iff. intros Hin. apply Hx. exact (subseq_In _ _ _ Hs Hin).
          - rewrite Nat.eqb_refl. cbn [orb]. f_equal. rewrite (IH Hl') at 1. apply filter_ext_in. intros y Hy.
            replace (Nat.eqb y x) with false; [reflexivity|]. symmetry. apply Nat.eqb_neq. intros ->. contradiction. }
        rewrite (G _ _ N3 Hn). unfold minus. apply filter_ext_in. intros x Hx. apply eq_true_iff_eq. rewrite inb_iff, N2, negb_true_iff, <- not_true_iff_false, inb_iff. tauto. }
      apply combo_iff in Hrr. apply combo_iff in Hc.
      split; [exact Hrr|]. exists c, oc. split; [exact Hc|]. split; [apply Hop; exact Hoc|]. split; [|reflexivity].
      destruct (Hsol c Hc) as [_ Hd]. intros x Hx Hx'. apply (Hd x Hx). destruct Hoc as [Hs _]. exact (subseq_In _ _ _ Hs Hx').
Qed.

(* --- the phase diagrams are those of the chemical system of the pairs --- *)
Lemma lookup_in {K D} (key_eqb : K -> K -> bool) (diagram : K -> D) k d : (forall a b, key_eqb a b = true <-> a = b) ->
  (forall k' v, In (k', v) d -> v = diagram k') -> In k (map fst d) -> lookup key_eqb k d = Some (diagram k).
Proof.
  intros Heq.
  assert (N : forall d0 : list (K * D), lookup key_eqb k d0 = None -> ~ In k (map fst d0)).
  { induction d0 as [|[k' v] d0 IH]; intros E Hin; [destruct Hin|]. simpl in E. destruct (lookup key_eqb k d0); [discriminate|].
    destruct Hin as [Hin|Hin]; [|exact (IH eq_refl Hin)]. simpl in Hin. subst k'. rewrite (proj2 (Heq k k) eq_refl) in E. discriminate. }
  assert (S : forall (d0 : list (K * D)) v, lookup key_eqb k d0 = Some v -> In (k, v) d0).
  { induction d0 as [|[k' v] d0 IH]; intros v0 E; [discriminate|]. simpl in E. destruct (lookup key_eqb k d0) as [v1|] eqn:E1.
    - injection E as <-. right. apply IH. reflexivity.
    - destruct (key_eqb k k') eqn:E2; [|discriminate]. apply Heq in E2 as <-. injection E as <-. left. reflexivity. }
  intros Hv Hin. destruct (lookup key_eqb k d) as [v|] eqn:E; [|destruct (N d E Hin)]. f_equal. apply Hv. apply S. exact E.
Qed.

Lemma Permutation_concat {A} (l l' : list (list A)) : Permutation l l' -> Permutation (concat l) (concat l').
Proof. intros H. rewrite <- (map_id l), <- (map_id l'), <- !flat_map_concat_map. apply Permutation_flat_map'. exact H. Qed.

Theorem pd_dict_spec {K D} (key_eqb : K -> K -> bool) (diagram : K -> D) cpus wait keys : (forall a b, key_eqb a b = true <-> a = b) ->
  1 <= cpus -> valid_schedule wait ->
  exists d, build_pd_dict diagram cpus wait keys = Ok d /\ length d = length keys
  /\ forall k, In k keys -> lookup key_eqb k d = Some (diagram k).
Proof.
  intros Heq Hc Hw. unfold build_pd_dict. replace (Nat.eqb cpus 0) with false by (symmetry; apply Nat.eqb_neq; lia).
  set (n := length keys / cpus + 1).
  destruct (grouper_spec (map Some keys) n None ltac:(unfold n; lia)) as (gs & k & E & Hcat & _). rewrite E. cbn [bind].
  destruct (to_iterator_spec wait (entries_and_pds diagram) gs Hw) as [(out & Eo & _ & Hp) _]. rewrite Eo. cbn [bind].
  exists (concat out). split; [reflexivity|].
  assert (Hperm : Permutation (concat out) (map (fun k => (k, diagram k)) keys)).
  { eapply perm_trans; [apply Permutation_concat; exact Hp|]. unfold entries_and_pds. rewrite <- flat_map_concat_map.
    assert (G : forall (f : option K -> list (K * D)) ll, flat_map (fun c => flat_map f c) ll = flat_map f (concat ll)).
    { clear. intros f. induction ll as [|l ll IH]; [reflexivity|]. simpl. rewrite flat_map_app, IH. reflexivity. }
    rewrite G, Hcat, flat_map_app. assert (Z : forall m, flat_map (fun i : option K => match i with None => [] | Some k => [(k, diagram k)] end) (repeat None m) = []).
    { clear. induction m as [|m IH]; [reflexivity|exact IH]. }
    rewrite Z, app_nil_r. clear. induction keys as [|k keys IH]; [constructor|]. simpl. apply perm_skip. exact IH. }
  split; [rewrite (Permutation_length Hperm); apply map_length|]. intros k' Hk. apply lookup_in; [exact Heq| |].
  - intros k0 v Hin. apply (Permutation_in _ Hperm) in Hin. apply in_map_iff in Hin as (x & Ex & _). congruence.
  - apply in_map_iff. exists (k', diagram k'). split; [reflexivity|]. apply (Permutation_in _ (Permutation_sym Hperm)). apply in_map_iff. exists k'. split; [reflexivity|exact Hk].
Qed.
