(* Proofs for C141. *)
From Coq Require Import String Ascii Sorted.
From Verif Require Import Prelude UtilsModel EntryDbModel EntryDbSpec EntryDbProofs LoadModel VisModel VisSpec.
Open Scope list_scope.
Open Scope nat_scope.

(* --- np.unique --- *)
Lemma squeeze_in l s : In s (squeeze l) <-> In s l.
Proof.
  induction l as [|x l IH]; [reflexivity|]. destruct l as [|y l]; [reflexivity|]. change (squeeze (x :: y :: l)) with (if String.eqb x y then squeeze (y :: l) else x :: squeeze (y :: l)).
  destruct (String.eqb_spec x y) as [->|N].
  - rewrite IH. cbn. tauto.
  - cbn [In] in *. rewrite IH. tauto.
Qed.
Lemma squeeze_sorted l : StronglySorted (fun a b => String.leb a b = true) l -> StronglySorted (fun a b => String.leb a b = true) (squeeze l) /\ NoDup (squeeze l).
Proof.
  induction l as [|x l IH]; intros H; [split; constructor|]. destruct l as [|y l]; [split; [exact H|repeat constructor; intros []]|].
  inversion H as [|? ? Hl F]; subst. destruct (IH Hl) as [Sq Nd]. change (squeeze (x :: y :: l)) with (if String.eqb x y then squeeze (y :: l) else x :: squeeze (y :: l)).
  destruct (String.eqb_spec x y) as [->|N]; [auto|]. split.
  - constructor; [exact Sq|]. rewrite Forall_forall in *. intros z I. apply F. apply squeeze_in. exact I.
  - constructor; [|exact Nd]. rewrite squeeze_in. intros [I|I]; [congruence|].
    inversion Hl as [|? ? _ Fy]; subst. rewrite Forall_forall in *. apply N. apply String.leb_antisym; [apply F; left; reflexivity|apply Fy; exact I].
Qed.
Lemma unique_alphabet l : alphabet l (unique_str l).
Proof.
  unfold alphabet, unique_str. split; [intros s; rewrite squeeze_in; split; apply Permutation_in; [|symmetry]; apply sort_perm|].
  destruct (squeeze_sorted (sort_str l) (sort_sorted l)). auto.
Qed.
Lemma alphabet_sort l u : alphabet (sort_str l) u <-> alphabet l u.
Proof.
  unfold alphabet. assert (H : forall s, In s (sort_str l) <-> In s l) by (intros s; split; apply Permutation_in; [|symmetry]; apply sort_perm).
  split; intros (A & B & D); (split; [intros s; rewrite A|auto]); [apply H|symmetry; apply H].
Qed.

(* --- The table --- *)
Lemma table_in (l : list string) a x i : In (x, i) (combine l (seq a (List.length l))) <-> nth_error l (i - a) = Some x /\ a <= i.
Proof.
  revert a. induction l as [|y l IH]; intros a; cbn [List.length seq combine In].
  - split; [contradiction|]. intros [H _]. destruct (i - a); discriminate H.
  - rewrite IH. split.
    + intros [E|[H L]].
      * injection E as -> ->. rewrite Nat.sub_diag. auto.
      * replace (i - a) with (S (i - S a)) by lia. split; [exact H|lia].
    + intros [H L]. destruct (Nat.eq_dec i a) as [->|N].
      * left. rewrite Nat.sub_diag in H. injection H as ->. reflexivity.
      * right. replace (i - a) with (S (i - S a)) in H by lia. split; [exact H|lia].
Qed.
Lemma table_found (l : list string) x i : NoDup l -> nth_error l i = Some x -> table_get (hash_table l) x = Ok i.
Proof.
  intros N H. unfold table_get, hash_table. destruct (find _ _) as [[y j]|] eqn:E.
  - apply find_some in E. destruct E as [I Q]. cbn in Q. apply String.eqb_eq in Q. subst y. apply in_rev in I. apply table_in in I. rewrite Nat.sub_0_r in I. destruct I as [I _]. cbn. f_equal.
    apply (proj1 (NoDup_nth_error l) N); [apply nth_error_Some; congruence|congruence].
  - exfalso. apply find_none with (x := (x, i)) in E; [cbn in E; rewrite String.eqb_refl in E; discriminate E|]. apply -> in_rev. apply table_in. rewrite Nat.sub_0_r. auto with arith.
Qed.

Section Vis.
Context {C : Type} (cmap : nat -> nat -> C).

Lemma colors_made domain names : (forall x, In x names -> In x domain) -> let u := unique_str domain in
  exists cols, colors_of C cmap domain names = Ok cols /\ Forall2 (fun x c => exists k, nth_error u k = Some x /\ c = cmap (List.length u) k) names cols.
Proof.
  intros H u. destruct (unique_alphabet domain) as (A & N & _). fold u in A, N. induction names as [|x l IH].
  - exists []. split; [reflexivity|constructor].
  - destruct IH as (cols & E & F); [intros y I; apply H; right; exact I|].
    assert (I : In x u) by (apply A; apply H; left; reflexivity). apply In_nth_error in I. destruct I as [k K].
    exists (cmap (List.length u) k :: cols). split; [|constructor; [exists k; auto|exact F]].
    cbn [colors_of]. unfold cmap_string. fold u. rewrite (table_found u x k N K), E. reflexivity.
Qed.

Theorem colors_ranked {E} (nodes : list (nentry E)) : exists u cols, alphabet (map (ne_chemsys E) nodes) u
  /\ vertex_colors C cmap nodes = Ok cols
  /\ Forall2 (fun n c => exists k, nth_error u k = Some (ne_chemsys E n) /\ c = cmap (List.length u) k) nodes cols.
Proof.
  set (names := map (ne_chemsys E) nodes).
  destruct (colors_made (sort_str names) names) as (cols & Q & F); [intros x; apply Permutation_in; symmetry; apply sort_perm|].
  exists (unique_str (sort_str names)), cols. split; [apply alphabet_sort; apply unique_alphabet|]. split; [exact Q|].
  clear Q. revert F. generalize (unique_str (sort_str names)). intros u F. unfold names in F. clear -F. revert cols F.
  induction nodes as [|n l IH]; intros cols F; inversion F; subst; constructor; [assumption|]. apply IH. assumption.
Qed.

Lemma forall2_nth {A B} (R : A -> B -> Prop) l l' : Forall2 R l l' -> forall i u v, nth_error l i = Some u -> nth_error l' i = Some v -> R u v.
Proof. induction 1; intros [|i] u v; cbn; try discriminate; [intros [= ->] [= ->]; assumption|apply IHForall2]. Qed.

Theorem colors_chemsys {E} (nodes : list (nentry E)) cols : vertex_colors C cmap nodes = Ok cols -> distinct_colors cmap ->
  forall i j a b c d, nth_error nodes i = Some a -> nth_error nodes j = Some b -> nth_error cols i = Some c -> nth_error cols j = Some d ->
  (c = d <-> ne_chemsys E a = ne_chemsys E b).
Proof.
  intros Q D i j a b c d Ha Hb Hc Hd. destruct (colors_ranked nodes) as (u & cols' & (A & N & S) & Q' & F). rewrite Q in Q'. injection Q' as <-.
  destruct (forall2_nth _ _ _ F i a c Ha Hc) as (k & K & ->). destruct (forall2_nth _ _ _ F j b d Hb Hd) as (k' & K' & ->).
  assert (L : k < List.length u) by (apply nth_error_Some; congruence). assert (L' : k' < List.length u) by (apply nth_error_Some; congruence). split.
  - intros X. apply D in X; [|assumption|assumption]. subst. congruence.
  - intros X. f_equal. apply (proj1 (NoDup_nth_error u) N); [exact L|congruence].
Qed.

(* --- The text of the chemical system stands for the elements --- *)
Lemma concat_join l : String.concat "-" l = join_dash l.
Proof.
  induction l as [|x l IH]; [reflexivity|]. destruct l as [|y l]; [reflexivity|].
  change (String.concat "-" (x :: y :: l)) with (String.append x (String.append "-" (String.concat "-" (y :: l)))). rewrite IH. reflexivity.
Qed.
Lemma chemsys_system {E} (eqe : E -> E -> bool) (elems : E -> list string) order es k es' k' : orders order ->
  (forall e s, In s (elems e) -> symbol s /\ s <> ""%string) ->
  (ne_chemsys E (network_entry E eqe elems order es k) = ne_chemsys E (network_entry E eqe elems order es' k') <-> same_system elems es es').
Proof.
  intros [OI OS] W. cbn. rewrite !concat_join. unfold same_system, made_of.
  assert (M : forall l s, In s (flat_map elems l) <-> exists e, In e l /\ In s (elems e)) by (intros; apply in_flat_map).
  assert (Sy : forall l, Forall symbol (order (flat_map elems l))).
  { intros l. apply Forall_forall. intros s I. apply -> OI in I. apply -> M in I. destruct I as (e & _ & I). apply (W e s I). }
  assert (Ne : forall l s, In s (order (flat_map elems l)) -> s <> ""%string).
  { intros l s I. apply -> OI in I. apply -> M in I. destruct I as (e & _ & I). apply (W e s I). }
  split.
  - intros Q s. rewrite <- !M, <- (OI (flat_map elems es)), <- (OI (flat_map elems es')).
    assert (X : order (flat_map elems es) = order (flat_map elems es')).
    { pose proof (Sy es) as S1. pose proof (Sy es') as S2. pose proof (Ne es) as N1. pose proof (Ne es') as N2.
      destruct (order (flat_map elems es)) as [|x l], (order (flat_map elems es')) as [|y l']; [reflexivity| | |].
      - exfalso. destruct l' as [|z l']; [cbn in Q; apply (N2 y); [left; reflexivity|congruence]|].
        cbn in Q. destruct y; cbn in Q; congruence.
      - exfalso. destruct l as [|z l]; [cbn in Q; apply (N1 x); [left; reflexivity|congruence]|].
        cbn in Q. destruct x; cbn in Q; congruence.
      - apply join_inj; [discriminate|discriminate|exact S1|exact S2|exact Q]. }
    rewrite X. reflexivity.
  - intros H. f_equal. apply OS. intros s. rewrite !M. apply H.
Qed.
Theorem colors_system {E} (eqe : E -> E -> bool) (elems : E -> list string) order (nodes : list (list E * kind)) : orders order ->
  (forall e s, In s (elems e) -> symbol s /\ s <> ""%string) -> distinct_colors cmap ->
  exists cols, vertex_colors C cmap (map (fun p => network_entry E eqe elems order (fst p) (snd p)) nodes) = Ok cols
  /\ List.length cols = List.length nodes
  /\ forall i j a b c d, nth_error nodes i = Some a -> nth_error nodes j = Some b -> nth_error cols i = Some c -> nth_error cols j = Some d ->
     (c = d <-> same_system elems (fst a) (fst b)).
Proof.
  intros O W D. set (ns := map _ nodes). destruct (colors_ranked ns) as (u & cols & _ & Q & F). exists cols. split; [exact Q|]. split.
  - assert (L : List.length ns = List.length cols) by (clear -F; induction F; cbn; congruence). rewrite <- L. apply map_length.
  - intros i j a b c d Ha Hb Hc Hd. assert (Hn : forall i a, nth_error nodes i = Some a -> nth_error ns i = Some (network_entry E eqe elems order (fst a) (snd a))) by (intros ? ? X; unfold ns; apply map_nth_error with (f := fun p => network_entry E eqe elems order (fst p) (snd p)) in X; exact X).
    rewrite (colors_chemsys ns cols Q D i j _ _ c d (Hn i a Ha) (Hn j b Hb) Hc Hd). apply chemsys_system; assumption.
Qed.
End Vis.

(* The alphabetical order is one. *)
Lemma unique_orders : orders unique_str.
Proof.
  split; [intros l s; apply (proj1 (unique_alphabet l))|]. intros l l' H.
  destruct (unique_alphabet l) as (A & N & S), (unique_alphabet l') as (A' & N' & S').
  apply sorted_unique; [exact S|exact S'|]. apply NoDup_Permutation; [exact N|exact N'|]. intros s. rewrite A, A'. apply H.
Qed.
