(* The graph made by build() (C34), and serialisation of graphs (C39). *)
From Verif Require Import Prelude NumQ ListFacts UtilsProofs EnumModel EnumProofs EnumReactProofs NetModel NetSpec.
Open Scope nat_scope.

Lemma ntype_eqb_iff a b : ntype_eqb a b = true <-> a = b.
Proof. destruct a, b; simpl; split; intros; try reflexivity; discriminate. Qed.
Lemma node_eqb_iff a b : node_eqb a b = true <-> a = b.
Proof.
  destruct a as [a x], b as [b y]. unfold node_eqb. cbn [fst snd]. rewrite andb_true_iff, ntype_eqb_iff, list_eqb_iff. split; [intros [-> ->]; reflexivity|intros H; injection H; auto].
Qed.
Lemma memb_node n ns : memb node_eqb n ns = true <-> In n ns.
Proof.
  unfold memb. rewrite existsb_exists. split; [intros (m & Hm & E); apply node_eqb_iff in E as ->; exact Hm|intros H; exists n; split; [exact H|apply node_eqb_iff; reflexivity]].
Qed.
Lemma index_of_nth n ns : In n ns -> nth_error ns (index_of n ns) = Some n.
Proof.
  induction ns as [|m ns IH]; [intros []|]. simpl. destruct (node_eqb m n) eqn:E; [apply node_eqb_iff in E as ->; reflexivity|].
  intros [->|H]; [assert (node_eqb n n = true) by (apply node_eqb_iff; reflexivity); congruence|]. simpl. apply IH. exact H.
Qed.
Lemma set_of_mkset l : set_of l (mkset l).
Proof. exact (sorted_set_spec l). Qed.

Lemma add_or_find_spec ns n ns' i : NoDup ns -> add_or_find ns n = (ns', i) ->
  NoDup ns' /\ nth_error ns' i = Some n /\ (forall x, In x ns' -> In x ns \/ x = n) /\ exists more, ns' = ns ++ more.
Proof.
  intros Hn. unfold add_or_find. destruct (memb node_eqb n ns) eqn:M; intros H; injection H as <- <-.
  - apply memb_node in M. split; [exact Hn|]. split; [apply index_of_nth; exact M|]. split; [auto|]. exists []. symmetry. apply app_nil_r.
  - assert (Hni : ~ In n ns) by (intros Hin; apply memb_node in Hin; congruence).
    split; [apply NoDup_app_intro; [exact Hn|repeat constructor; intros []|intros x Hx [<-|[]]; exact (Hni Hx)]|].
    split; [rewrite nth_error_app2, Nat.sub_diag by lia; reflexivity|]. split; [intros x Hx; apply in_app_iff in Hx as [Hx|[Hx|[]]]; auto|].
    exists [n]. reflexivity.
Qed.

(* One reaction edge, found among the nodes ns. *)
Definition rxn_edge (ns : list node) (r : nrxn) (e : nat * nat * payload) : Prop :=
  exists i j, e = (i, j, Rxn r) /\ nth_error ns i = Some (Reactants, mkset (n_reactants r)) /\ nth_error ns j = Some (Products, mkset (n_products r)).
Definition node_of (rxns : list nrxn) (n : node) : Prop :=
  exists r, In r rxns /\ (n = (Reactants, mkset (n_reactants r)) \/ n = (Products, mkset (n_products r))).
Lemma nth_app_some {A} (l l' : list A) i x : nth_error l i = Some x -> nth_error (l ++ l') i = Some x.
Proof. intros H. rewrite nth_error_app1; [exact H|]. apply nth_error_Some. congruence. Qed.

Lemma rxn_fold rxns : forall ns es done, NoDup ns -> Forall (node_of done) ns -> Forall2 (rxn_edge ns) done es ->
  let st := fold_left rxn_step rxns (ns, es) in
  NoDup (fst st) /\ Forall (node_of (done ++ rxns)) (fst st) /\ Forall2 (rxn_edge (fst st)) (done ++ rxns) (snd st).
Proof.
  induction rxns as [|r rxns IH]; intros ns es done Hn Ho HF; cbn [fold_left]; [rewrite app_nil_r; split; [exact Hn|split; assumption]|].
  destruct (add_or_find ns (Reactants, mkset (n_reactants r))) as [ns1 i] eqn:A1.
  destruct (add_or_find ns1 (Products, mkset (n_products r))) as [ns2 j] eqn:A2.
  destruct (add_or_find_spec _ _ _ _ Hn A1) as (N1 & I1 & M1 & (x1 & E1)). destruct (add_or_find_spec _ _ _ _ N1 A2) as (N2 & I2 & M2 & (x2 & E2)).
  assert (ES : rxn_step (ns, es) r = (ns2, es ++ [(i, j, Rxn r)])) by (unfold rxn_step; rewrite A1, A2; reflexivity). rewrite ES.
  replace (done ++ r :: rxns) with ((done ++ [r]) ++ rxns) by (rewrite <- app_assoc; reflexivity). apply IH.
  - exact N2.
  - assert (Hup : forall n, node_of done n -> node_of (done ++ [r]) n).
    { intros n (r' & H1 & H2). exists r'. split; [apply in_app_iff; left; exact H1|exact H2]. }
    apply Forall_forall. intros n Hin. assert (Hr : In r (done ++ [r])) by (apply in_app_iff; right; left; reflexivity).
    apply M2 in Hin as [Hin| ->]; [|exists r; split; [exact Hr|right; reflexivity]]. apply M1 in Hin as [Hin| ->]; [|exists r; split; [exact Hr|left; reflexivity]].
    apply Hup. rewrite Forall_forall in Ho. apply Ho. exact Hin.
  - apply Forall2_app.
    + eapply Forall2_impl; [|exact HF]. intros r' e (a & b & He & Ha & Hb). exists a, b. split; [exact He|]. rewrite E2, E1. split; apply nth_app_some, nth_app_some; assumption.
    + constructor; [|constructor]. exists i, j. split; [reflexivity|]. split; [rewrite E2; apply nth_app_some; exact I1|exact I2].
Qed.
Lemma rxn_nodes_spec rxns : let st := rxn_nodes_and_edges rxns in
  NoDup (fst st) /\ Forall (node_of rxns) (fst st) /\ Forall2 (rxn_edge (fst st)) rxns (snd st).
Proof. apply (rxn_fold rxns [] [] []); constructor. Qed.

Lemma add_nodes_slots {N E} (ns : list N) : forall g : graph N E, g_free g = [] ->
  g_slots (add_nodes_from g ns) = g_slots g ++ map Some ns /\ g_free (add_nodes_from g ns) = [] /\ g_edges (add_nodes_from g ns) = g_edges g.
Proof.
  induction ns as [|n ns IH]; intros g Hf; cbn [add_nodes_from fold_left map]; [rewrite app_nil_r; auto|].
  unfold add_node at 2. rewrite Hf. cbn [fst]. destruct (IH {| g_slots := g_slots g ++ [Some n]; g_free := []; g_edges := g_edges g |} eq_refl) as (I1 & I2 & I3).
  unfold add_nodes_from in *. cbn [g_slots g_edges] in *. unfold add_node in *. rewrite Hf in *. cbn [fst] in *. rewrite I1, I2, I3, <- app_assoc. auto.
Qed.

Lemma in_enumerate {A} (l : list A) i x : In (i, x) (enumerate l) <-> nth_error l i = Some x.
Proof.
  unfold enumerate. assert (H : forall n, In (i, x) (combine (seq n (length l)) l) <-> n <= i /\ nth_error l (i - n) = Some x).
  { induction l as [|y l IH]; intros n; simpl; [split; [intros []|intros [_ H]; destruct (i - n); discriminate]|]. rewrite IH. split.
    - intros [H|[H1 H2]]; [injection H as <- <-; split; [lia|]; rewrite Nat.sub_diag; reflexivity|]. split; [lia|]. replace (i - n) with (S (i - S n)) by lia. exact H2.
    - intros [H1 H2]. destruct (Nat.eq_dec n i) as [->|]; [rewrite Nat.sub_diag in H2; injection H2 as ->; left; reflexivity|]. right. split; [lia|].
      replace (i - n) with (S (i - S n)) in H2 by lia. exact H2. }
  rewrite H, Nat.sub_0_r. split; [intros [_ H']; exact H'|intros H'; split; [lia|exact H']].
Qed.
Lemma NoDup_enumerate {A} (l : list A) : NoDup (enumerate l).
Proof.
  unfold enumerate. assert (H : forall n, NoDup (combine (seq n (length l)) l)); [|apply H].
  induction l as [|y l IH]; intros n; simpl; [constructor|]. constructor; [|apply IH]. intros Hin. apply in_combine_l, in_seq in Hin. lia.
Qed.

Lemma loopback_spec ns : NoDup (loopback_edges ns)
  /\ forall e, In e (loopback_edges ns) <-> exists i j x, e = (i, j, Loopback) /\ nth_error ns i = Some (Products, x) /\ nth_error ns j = Some (Reactants, x).
Proof.
  split.
  - unfold loopback_edges. apply NoDup_flat_map.
    + apply NoDup_enumerate.
    + intros [i [ty x]] _. cbn [fst snd]. destruct (ntype_eqb ty Products); [|constructor]. apply NoDup_flat_map.
      * apply NoDup_enumerate.
      * intros [j [ty' y]] _. cbn [fst snd]. destruct (ntype_eqb ty' Reactants && list_eqb x y); [repeat constructor; intros []|constructor].
      * intros [j [ty1 y1]] [j' [ty2 y2]] e H1 H2 He He'. cbn [fst snd] in He, He'.
        destruct (ntype_eqb ty1 Reactants && list_eqb x y1); [|destruct He]. destruct (ntype_eqb ty2 Reactants && list_eqb x y2); [|destruct He'].
        destruct He as [<-|[]]. destruct He' as [He'|[]]. injection He' as ->. apply in_enumerate in H1, H2. congruence.
    + intros [i [ty1 x1]] [i' [ty2 x2]] e H1 H2 He He'. cbn [fst snd] in He, He'.
      destruct (ntype_eqb ty1 Products); [|destruct He]. destruct (ntype_eqb ty2 Products); [|destruct He'].
      apply in_flat_map in He as ([j [u y]] & _ & He). apply in_flat_map in He' as ([j' [u' y']] & _ & He'). cbn [fst snd] in He, He'.
      destruct (ntype_eqb u Reactants && list_eqb x1 y); [|destruct He]. destruct (ntype_eqb u' Reactants && list_eqb x2 y'); [|destruct He'].
      destruct He as [<-|[]]. destruct He' as [He'|[]]. injection He' as -> ->. apply in_enumerate in H1, H2. congruence.
  - intros e. unfold loopback_edges. rewrite in_flat_map. split.
    + intros ([i [ty x]] & Hi & He). cbn [fst snd] in He. destruct (ntype_eqb ty Products) eqn:T; [|destruct He]. apply ntype_eqb_iff in T as ->.
      apply in_flat_map in He as ([j [ty' y]] & Hj & He). cbn [fst snd] in He. destruct (ntype_eqb ty' Reactants) eqn:T; [|destruct He]. apply ntype_eqb_iff in T as ->.
      destruct (list_eqb x y) eqn:L; [|destruct He]. apply list_eqb_iff in L as ->. destruct He as [<-|[]]. apply in_enumerate in Hi, Hj. exists i, j, y. auto.
    + intros (i & j & x & -> & Hi & Hj). exists (i, (Products, x)). split; [apply in_enumerate; exact Hi|]. cbn [fst snd ntype_eqb]. apply in_flat_map.
      exists (j, (Reactants, x)). split; [apply in_enumerate; exact Hj|]. cbn [fst snd ntype_eqb andb]. rewrite (proj2 (list_eqb_iff x x) eq_refl). left. reflexivity.
Qed.

Lemma build_parts rxns : let st := rxn_nodes_and_edges rxns in
  g_slots (build rxns) = map Some (fst st) /\ g_free (build rxns) = [] /\ g_edges (build rxns) = rev (snd st ++ loopback_edges (fst st)).
Proof.
  unfold build. destruct (rxn_nodes_and_edges rxns) as [ns es]. cbn [fst snd]. destruct (add_nodes_slots ns (@empty_graph node payload) eq_refl) as (H1 & H2 & H3).
  unfold add_edges_from. cbn [g_slots g_free g_edges]. rewrite H1, H2, H3. cbn [g_slots g_edges empty_graph app]. rewrite app_nil_r. auto.
Qed.
Lemma nth_map_some {A} (l : list A) i x : nth_error (map Some l) i = Some (Some x) <-> nth_error l i = Some x.
Proof.
  rewrite nth_error_map. destruct (nth_error l i); simpl; split; intros H; try discriminate; congruence.
Qed.

Theorem build_spec rxns : let g := build rxns in
  distinct_nodes g
  /\ (forall i n, has g i n -> exists r, In r rxns /\ (fst n = Reactants /\ set_of (n_reactants r) (snd n) \/ fst n = Products /\ set_of (n_products r) (snd n)))
  /\ exists rxn_edges loops, Permutation (g_edges g) (rxn_edges ++ loops)
     /\ Forall2 (fun r e => exists i j x y, e = (i, j, Rxn r) /\ has g i (Reactants, x) /\ set_of (n_reactants r) x
                                            /\ has g j (Products, y) /\ set_of (n_products r) y) rxns rxn_edges
     /\ NoDup loops /\ forall e, In e loops <-> exists i j x, e = (i, j, Loopback) /\ has g i (Products, x) /\ has g j (Reactants, x).
Proof.
  intros g. destruct (build_parts rxns) as (S1 & _ & S3). fold g in S1, S3. destruct (rxn_nodes_spec rxns) as (N1 & N2 & N3).
  set (st := rxn_nodes_and_edges rxns) in *. split; [|split].
  - intros i j n Hi Hj. unfold has in Hi, Hj. rewrite S1 in Hi, Hj. rewrite nth_map_some in Hi, Hj. apply (proj1 (NoDup_nth_error (fst st)) N1); [|rewrite Hi, Hj; reflexivity].
    apply nth_error_Some. rewrite Hi; discriminate.
  - intros i n Hi. unfold has in Hi. rewrite S1 in Hi. rewrite nth_map_some in Hi. apply nth_error_In in Hi. rewrite Forall_forall in N2. destruct (N2 n Hi) as (r & Hr & [-> | ->]);
      exists r; (split; [exact Hr|]); [left|right]; (split; [reflexivity|apply set_of_mkset]).
  - exists (snd st), (loopback_edges (fst st)). split; [rewrite S3; apply Permutation_sym, Permutation_rev|]. destruct (loopback_spec (fst st)) as [L1 L2].
    split; [|split; [exact L1|]].
    + eapply Forall2_impl; [|exact N3]. intros r e (i & j & He & Hi & Hj). exists i, j, (mkset (n_reactants r)), (mkset (n_products r)).
      unfold has. rewrite S1, !nth_map_some. split; [exact He|]. split; [exact Hi|]. split; [apply set_of_mkset|]. split; [exact Hj|apply set_of_mkset].
    + intros e. rewrite L2. unfold has. rewrite S1. split; intros (i & j & x & He & Hi & Hj); exists i, j, x; rewrite !nth_map_some in *; auto.
Qed.

(* --- C39 --- *)
Section Serial.
Context {N E : Type}.
Variable eqb : N -> N -> bool.
Hypothesis Heqb : forall a b, eqb a b = true <-> a = b.
Variable order : list (nat * nat * E) -> list (nat * nat * E).
Hypothesis Hord : forall l, Permutation (order l) l.

Lemma nodes_from_spec (l : list (option N)) : forall k i n, In (i, n) (nodes_from k l) <-> k <= i /\ nth_error l (i - k) = Some (Some n).
Proof.
  induction l as [|o l IH]; intros k i n; cbn [nodes_from]; [split; [intros []|intros [_ H]; destruct (i - k); discriminate]|].
  assert (Hs : In (i, n) (nodes_from (S k) l) <-> S k <= i /\ nth_error (o :: l) (i - k) = Some (Some n)).
  { rewrite IH. split; intros [H1 H2]; (split; [exact H1|]); [replace (i - k) with (S (i - S k)) by lia; exact H2|].
    replace (i - k) with (S (i - S k)) in H2 by lia. exact H2. }
  destruct o as [m|].
  - cbn [In]. rewrite Hs. split.
    + intros [H|[H1 H2]]; [injection H as <- <-; split; [lia|]; rewrite Nat.sub_diag; reflexivity|split; [lia|exact H2]].
    + intros [H1 H2]. destruct (Nat.eq_dec k i) as [->|]; [rewrite Nat.sub_diag in H2; injection H2 as ->; left; reflexivity|right; split; [lia|exact H2]].
  - rewrite Hs. split; intros [H1 H2]; (split; [|exact H2]); [lia|]. destruct (Nat.eq_dec k i) as [->|]; [rewrite Nat.sub_diag in H2; discriminate|lia].
Qed.
Lemma nodes_iff (g : graph N E) i n : In (i, n) (nodes g) <-> has g i n.
Proof. unfold nodes, has. rewrite nodes_from_spec, Nat.sub_0_r. split; [intros [_ H]; exact H|intros H; split; [lia|exact H]]. Qed.
Lemma nodes_from_lower (l : list (option N)) : forall k i, In i (map fst (nodes_from k l)) -> k <= i.
Proof. intros k i H. apply in_map_iff in H as ([j n] & <- & H). apply nodes_from_spec in H as [H _]. exact H. Qed.
Lemma nodes_from_nodup (l : list (option N)) : forall k, NoDup (map fst (nodes_from k l)).
Proof.
  induction l as [|[n|] l IH]; intros k; cbn [nodes_from map]; [constructor| |apply IH]. constructor; [|apply IH]. intros H. apply nodes_from_lower in H. cbn [fst] in H. lia.
Qed.

Lemma dict_set_fresh k v (d : list (N * nat)) : ~ In k (map fst d) -> dict_set eqb k v d = d ++ [(k, v)].
Proof.
  induction d as [|[k' v'] d IH]; simpl; [reflexivity|]. intros H. destruct (eqb k k') eqn:Q; [apply Heqb in Q as ->; destruct H; left; reflexivity|].
  rewrite IH by (intros Hc; apply H; right; exact Hc). reflexivity.
Qed.
Lemma dict_of_distinct (l : list (N * nat)) : NoDup (map fst l) -> dict_of eqb l = l.
Proof.
  unfold dict_of. assert (H : forall d, NoDup (map fst (d ++ l)) -> fold_left (fun d kv => dict_set eqb (fst kv) (snd kv) d) l d = d ++ l).
  { induction l as [|[k v] l IH]; intros d Hn; cbn [fold_left]; [symmetry; apply app_nil_r|]. cbn [fst snd]. rewrite dict_set_fresh.
    - rewrite IH; rewrite <- app_assoc; [reflexivity|exact Hn].
    - rewrite map_app in Hn. cbn [map fst] in Hn. apply NoDup_remove_2 in Hn. intros Hc. apply Hn, in_app_iff. left. exact Hc. }
  intros Hn. apply (H []). exact Hn.
Qed.
Lemma map_get_distinct m i v : NoDup (map fst m) -> In (i, v) m -> map_get m i = Ok v.
Proof.
  induction m as [|[k w] m IH]; [intros _ []|]. cbn [map fst map_get]. intros Hn [H|H]; inversion Hn as [|? ? Hk Hn']; subst.
  - injection H as -> ->. assert (Hno : forall v', map_get m i <> Ok v').
    { clear -Hk. induction m as [|[k w] m IH]; intros v'; cbn [map_get]; [discriminate|]. destruct (map_get m i) as [v2|] eqn:Q.
      - exfalso. apply (IH (fun H => Hk (or_intror H)) v2). reflexivity.
      - destruct (Nat.eqb_spec k i) as [->|]; [destruct Hk; left; reflexivity|discriminate]. }
    destruct (map_get m i) as [v'|] eqn:Q; [destruct (Hno v' eq_refl)|]. rewrite Nat.eqb_refl. reflexivity.
  - rewrite (IH Hn' H). reflexivity.
Qed.

(* position of index i in the list of node indices *)
Fixpoint pos (i : nat) (l : list nat) : nat := match l with [] => 0 | j :: l' => if Nat.eqb j i then 0 else S (pos i l') end.
Lemma pos_nth i l : In i l -> nth_error l (pos i l) = Some i.
Proof.
  induction l as [|j l IH]; [intros []|]. simpl. destruct (Nat.eqb_spec j i) as [->|]; [reflexivity|]. intros [H|H]; [contradiction|]. apply IH. exact H.
Qed.
Lemma nth_error_combine {A B} (l : list A) (l' : list B) k : nth_error (combine l l') k =
  match nth_error l k, nth_error l' k with Some x, Some y => Some (x, y) | _, _ => None end.
Proof.
  revert l' k. induction l as [|x l IH]; intros l' k; [destruct k; reflexivity|]. destruct l' as [|y l']; [destruct k; simpl; [reflexivity|]; destruct (nth_error l k); reflexivity|].
  destruct k; [reflexivity|]. simpl. apply IH.
Qed.

Lemma swap_combine {A B} (l : list (A * B)) : combine (map snd l) (map fst l) = map (fun x => (snd x, fst x)) l.
Proof. induction l as [|x l IH]; [reflexivity|]. simpl. rewrite IH. reflexivity. Qed.

Theorem round_trip (g : graph N E) : distinct_nodes g -> closed g ->
  exists g' f, graph_from_dict eqb (graph_as_dict order g) = Ok g' /\ renumbered f g g' /\ g_free g' = [] /\ closed g' /\ distinct_nodes g'
  /\ g_slots g' = map Some (map snd (nodes g)).
Proof.
  intros Hd Hc. set (ns := nodes g). set (f := fun i => pos i (map fst ns)).
  assert (Hnd : NoDup (map fst ns)) by apply nodes_from_nodup.
  assert (Hns : NoDup (map snd ns)).
  { assert (Hx : forall l, (forall i j n, In (i, n) l -> In (j, n) l -> i = j) -> NoDup (map fst l) -> NoDup (map (@snd nat N) l)).
    { induction l as [|[i n] l IH]; intros H1 H2; simpl; [constructor|]. simpl in H2. inversion H2 as [|? ? K1 K2]; subst. constructor.
      - intros Hin. apply in_map_iff in Hin as ([j m] & Em & Hin). cbn [snd] in Em. subst m. apply K1. rewrite (H1 i j n (or_introl eq_refl) (or_intror Hin)).
        apply in_map_iff. exists (j, n). split; [reflexivity|exact Hin].
      - apply IH; [|exact K2]. intros a b m Ha Hb. apply (H1 a b m); right; assumption. }
    apply Hx; [|exact Hnd]. intros i j n Hi Hj. apply nodes_iff in Hi, Hj. exact (Hd i j n Hi Hj). }
  assert (Hf : forall i n, has g i n -> nth_error (map fst ns) (f i) = Some i /\ nth_error (map snd ns) (f i) = Some n).
  { intros i n Hi. apply nodes_iff in Hi. fold ns in Hi. assert (P : nth_error (map fst ns) (f i) = Some i) by (apply pos_nth, in_map_iff; exists (i, n); split; [reflexivity|exact Hi]).
    split; [exact P|]. rewrite nth_error_map in *. destruct (nth_error ns (f i)) as [[j m]|] eqn:Q; [|discriminate]. simpl in *. injection P as ->. f_equal.
    apply nth_error_In in Q. apply nodes_iff in Hi, Q. unfold has in Hi, Q. congruence. }
  unfold graph_from_dict, graph_as_dict. cbn [d_nodes d_indices d_edges]. fold ns. rewrite swap_combine.
  rewrite dict_of_distinct by (rewrite map_map; cbn [fst]; exact Hns). rewrite !map_map. cbn [fst snd]. rewrite map_length.
  change (map (fun x : nat * N => fst x) ns) with (map fst ns). change (map (fun x : nat * N => snd x) ns) with (map snd ns).
  set (mapping := combine (map fst ns) (seq 0 (length ns))).
  assert (Hm : forall i n, has g i n -> map_get mapping i = Ok (f i)).
  { intros i n Hi. apply map_get_distinct.
    - unfold mapping. assert (Hx : forall (l : list nat) k, map fst (combine l (seq k (length l))) = l).
      { induction l as [|x l IH]; intros k; [reflexivity|]. simpl. rewrite IH. reflexivity. }
      replace (length ns) with (length (map fst ns)) by apply map_length. rewrite Hx. exact Hnd.
    - destruct (Hf i n Hi) as [P _]. apply (nth_error_In _ (f i)). unfold mapping. rewrite nth_error_combine. unfold f in *. rewrite P.
      assert (Lt : pos i (map fst ns) < length ns). { rewrite <- (map_length fst ns). apply nth_error_Some. congruence. }
      rewrite (nth_error_nth' _ 0) by (rewrite seq_length; exact Lt). rewrite seq_nth by exact Lt. reflexivity. }
  set (ren := fun e : nat * nat * E => (f (fst (fst e)), f (snd (fst e)), snd e)).
  assert (Hes : mapM (fun e => bind (map_get mapping (fst (fst e))) (fun i => bind (map_get mapping (snd (fst e))) (fun j => Ok (i, j, snd e)))) (order (g_edges g)) = Ok (map ren (order (g_edges g)))).
  { assert (Hall : forall e, In e (order (g_edges g)) -> In e (g_edges g)) by (intros e; apply Permutation_in, Hord).
    clear -Hall Hm Hc. induction (order (g_edges g)) as [|[[i j] x] l IH]; [reflexivity|]. cbn [mapM map fst snd].
    destruct (Hc i j x (Hall _ (or_introl eq_refl))) as [[n Hi] [m Hj]]. rewrite (Hm i n Hi), (Hm j m Hj). cbn [bind]. rewrite IH by (intros e He; apply Hall; right; exact He). reflexivity. }
  rewrite Hes. cbn [bind]. destruct (add_nodes_slots (map snd ns) (@empty_graph N E) eq_refl) as (A1 & A2 & A3).
  set (g1 := add_nodes_from empty_graph (map snd ns)) in *. cbn [g_slots g_edges empty_graph app] in A1, A3.
  exists (add_edges_from g1 (map ren (order (g_edges g)))), f. split; [reflexivity|].
  assert (Hhas : forall j n, has (add_edges_from g1 (map ren (order (g_edges g)))) j n <-> nth_error (map snd ns) j = Some n).
  { intros j n. unfold has, add_edges_from. cbn [g_slots]. rewrite A1. apply nth_map_some. }
  assert (R : renumbered f g (add_edges_from g1 (map ren (order (g_edges g))))).
  { split; [|split; [|split]].
    - intros i n Hi. apply Hhas. apply (Hf i n Hi).
    - intros j n Hj. apply Hhas in Hj. rewrite nth_error_map in Hj. destruct (nth_error ns j) as [[i m]|] eqn:Q; [|discriminate]. simpl in Hj. injection Hj as ->.
      assert (Hi : has g i n) by (apply nodes_iff; apply (nth_error_In _ j); exact Q). exists i. split; [exact Hi|].
      apply (proj1 (NoDup_nth_error (map fst ns)) Hnd); [rewrite map_length; apply nth_error_Some; congruence|].
      destruct (Hf i n Hi) as [P _]. rewrite P, nth_error_map, Q. reflexivity.
    - intros i j n m Hi Hj He. destruct (Hf i n Hi) as [P _]. destruct (Hf j m Hj) as [P' _]. rewrite He in P. congruence.
    - unfold add_edges_from. cbn [g_edges]. rewrite A3, app_nil_r. eapply perm_trans; [apply Permutation_sym, Permutation_rev|]. apply Permutation_map, Hord. }
  split; [exact R|]. split; [exact A2|]. destruct R as (R1 & R2 & R3 & R4). split.
  - intros i j e Hin. apply (Permutation_in _ R4) in Hin. apply in_map_iff in Hin as ([[a b] x] & He & Hin). injection He as <- <- <-.
    destruct (Hc a b x Hin) as [[n Ha] [m Hb]]. cbn [fst snd]. split; [exists n; apply R1; exact Ha|exists m; apply R1; exact Hb].
  - split; [|rewrite <- (map_map snd Some); exact A1]. intros i j n Hi Hj. destruct (R2 i n Hi) as (a & Ha & ->). destruct (R2 j n Hj) as (b & Hb & ->). rewrite (Hd a b n Ha Hb). reflexivity.
Qed.
End Serial.
